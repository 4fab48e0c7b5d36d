(** What is read of an encoded SpcIndirectDataContent and TSTInfo. *)
From Verif Require Import Base Bytes Monad ModelX509 ModelPkcs7 ModelLazy ModelDer ModelSpc ModelDecode SpecAsn ProofsDer ProofsDecode3 ProofsAsn.

Lemma decode_prim tag tg t c : decode (APrim tag) tg t = Ok (VPrim c) -> contents_of (APrim tag) tg t = Ok c.
Proof.
  cbn [decode contents_of]. destruct (expect tg false tag t); cbn [rbind]; [|discriminate]. intros [= <-]. reflexivity.
Qed.

Fixpoint nodupb (l : list string) : bool :=
  match l with [] => true | s :: l' => negb (existsb (String.eqb s) l') && nodupb l' end.
Lemma nodup_check l : nodupb l = true -> NoDup l.
Proof.
  induction l as [|s l IH]; cbn [nodupb]; intros H; [constructor|]. apply Bool.andb_true_iff in H. destruct H as [H1 H2].
  constructor; [|apply IH; exact H2]. intros I. apply Bool.negb_true_iff in H1.
  assert (E : existsb (String.eqb s) l = true) by (apply existsb_exists; exists s; split; [exact I|apply String.eqb_refl]).
  congruence.
Qed.
Ltac names := apply nodup_check; vm_compute; reflexivity.

Lemma algid_encodes names tg t alg ps :
  decode AlgorithmIdentifier tg t = Ok (VSeq (Some (VPrim alg) :: ps)) ->
  la_name (read_algid names AlgorithmIdentifier tg t) = Ok (oid_native names alg).
Proof.
  intros H. destruct (decode_children _ _ _ _ H) as (b & vs & d & E & C & K & Al). injection E as <-.
  unfold read_algid, AlgorithmIdentifier in *. rewrite C. cbn [rbind la_name]. rewrite K.
  destruct (aligned_read 0 _ _ _ _ _ _ _ _ (read_oid names) Al ltac:(names) eq_refl eq_refl) as (t' & D & _ & R).
  rewrite R. unfold read_oid. unfold aObjectIdentifier, aOctetString, aInteger; rewrite (decode_prim _ _ _ _ D). reflexivity.
Qed.

Lemma digest_algorithm_name a x s : la_name a = Ok x -> lz_digest_algorithm a = Ok s -> s = x.
Proof.
  unfold lz_digest_algorithm. intros ->. cbn [rbind]. destruct (negb _); [discriminate|].
  destruct (la_params a) as [[]|]; cbn [rbind]; try discriminate. intros [= ->]. reflexivity.
Qed.

Theorem spc_encodes c typ value alg ps digest s :
  encodes_fields (seq_fields SpcIndirectDataContent)
    [Some (VSeq [Some (VPrim typ); value]); Some (VSeq [Some (VSeq (Some (VPrim alg) :: ps)); Some (VPrim digest)])] c ->
  lz_spc_info (LVSpc (read_spc c)) = Ok s ->
  s = mkSpc (oid_native digest_algorithms alg) digest /\ oid_native spc_attribute_types typ = "microsoft_spc_pe_image_data" /\
  value <> None.
Proof.
  intros H Hs.
  assert (D : distinct_fields (seq_fields SpcIndirectDataContent)).
  { assert (D : distinct SpcIndirectDataContent) by (pose proof all_distinct as F; rewrite Forall_forall in F; apply F; cbn; tauto).
    inversion D. assumption. }
  destruct (encodes_children _ _ _ D H) as (d & C & Al). clear D H.
  destruct (aligned_read 0 _ _ _ _ _ _ _ _ contents_of Al ltac:(names) eq_refl eq_refl) as (t1 & D1 & _ & R1).
  destruct (aligned_read 1 _ _ _ _ _ _ _ _ contents_of Al ltac:(names) eq_refl eq_refl) as (t2 & D2 & _ & R2).
  destruct (decode_children _ _ _ _ D1) as (b1 & vs1 & d1 & E1 & C1 & K1 & Al1). injection E1 as <-.
  destruct (decode_children _ _ _ _ D2) as (b2 & vs2 & d2 & E2 & C2 & K2 & Al2). injection E2 as <-.
  fold SpcAttributeTypeAndOptionalValue in *. fold DigestInfo in *.
  change (ASeq (seq_fields SpcIndirectDataContent)) with SpcIndirectDataContent in *.
  rewrite C1 in R1. rewrite C2 in R2.
  assert (Q1 : lp_type (read_spc c) = Ok (oid_native spc_attribute_types typ)).
  { unfold read_spc. cbn [lp_type]. rewrite C, R1. cbn [rbind]. rewrite K1.
    destruct (aligned_read 0 _ _ _ _ _ _ _ _ (read_oid spc_attribute_types) Al1 ltac:(names) eq_refl eq_refl) as (t3 & D3 & _ & R3).
    change (read SpcAttributeTypeAndOptionalValue (Ok d1) "type" (read_oid spc_attribute_types) = Ok (oid_native spc_attribute_types typ)).
    unfold SpcAttributeTypeAndOptionalValue. rewrite R3. unfold read_oid. unfold aObjectIdentifier, aOctetString, aInteger; rewrite (decode_prim _ _ _ _ D3). reflexivity. }
  assert (Q2 : value = None -> lp_value (read_spc c) = Ok None).
  { intros ->. unfold read_spc. cbn [lp_value]. rewrite C, R1. cbn [rbind]. rewrite K1.
    exact (aligned_read 1 _ _ _ _ _ _ _ _ (fun _ _ t => Ok (read_image t)) Al1 ltac:(names) eq_refl eq_refl). }
  assert (Q3 : exists a, lp_digest_alg (read_spc c) = Ok a /\ la_name a = Ok (oid_native digest_algorithms alg)).
  { unfold read_spc. cbn [lp_digest_alg]. rewrite C, R2. cbn [rbind]. rewrite K2.
    destruct (aligned_read 0 _ _ _ _ _ _ _ _ (algid_ok digest_algorithms) Al2 ltac:(names) eq_refl eq_refl) as (t3 & D3 & _ & R3).
    eexists. split; [exact R3|]. apply (algid_encodes _ _ _ _ ps). exact D3. }
  assert (Q4 : lp_digest (read_spc c) = Ok digest).
  { unfold read_spc. cbn [lp_digest]. rewrite C, R2. cbn [rbind]. rewrite K2.
    destruct (aligned_read 1 _ _ _ _ _ _ _ _ contents_of Al2 ltac:(names) eq_refl eq_refl) as (t3 & D3 & _ & R3).
    change (read DigestInfo (Ok d2) "digest" contents_of = Ok digest). unfold DigestInfo at 1. rewrite R3. exact (decode_prim _ _ _ _ D3). }
  clear - Hs Q1 Q2 Q3 Q4. destruct Q3 as (a & Q3 & Q3'). cbn [lz_spc_info] in Hs. rewrite Q1 in Hs. cbn [rbind] in Hs.
  destruct (String.eqb_spec (oid_native spc_attribute_types typ) "microsoft_spc_pe_image_data") as [Et|]; cbn [negb] in Hs; [|discriminate Hs].
  destruct (lp_value (read_spc c)) as [[im|]|] eqn:Ev; cbn [rbind] in Hs; [|discriminate Hs|discriminate Hs].
  destruct (lm_flags im); cbn [rbind] in Hs; [|discriminate Hs]. destruct (lm_file im); cbn [rbind] in Hs; [|discriminate Hs].
  rewrite Q3 in Hs. cbn [rbind] in Hs. destruct (lz_digest_algorithm a) as [x|] eqn:La; cbn [rbind] in Hs; [|discriminate Hs].
  rewrite Q4 in Hs. cbn [rbind] in Hs. injection Hs as <-.
  rewrite (digest_algorithm_name _ _ _ Q3' La). split; [reflexivity|]. split; [exact Et|].
  intros ->. specialize (Q2 eq_refl). discriminate Q2.
Qed.

Theorem tst_encodes c version policy alg ps hashed serial time rest s :
  encodes_fields (seq_fields TSTInfo)
    (Some (VPrim version) :: Some (VPrim policy) ::
     Some (VSeq [Some (VSeq (Some (VPrim alg) :: ps)); Some (VPrim hashed)]) ::
     Some (VPrim serial) :: Some (VPrim time) :: rest) c ->
  lz_tst_info (LVTst (read_tst c)) = Ok s ->
  version_native 0 version = "v1" /\
  ti_policy s = dotted policy /\ ti_hash_alg s = oid_native digest_algorithms alg /\ ti_message_digest s = hashed /\
  ti_serial s = int_native serial /\ time_native "general_time" time = Ok (ti_signing_time s).
Proof.
  intros H Hs.
  assert (D : distinct_fields (seq_fields TSTInfo)).
  { assert (D : distinct TSTInfo) by (pose proof all_distinct as F; rewrite Forall_forall in F; apply F; cbn; tauto).
    inversion D. assumption. }
  destruct (encodes_children _ _ _ D H) as (d & C & Al). clear D H.
  pose proof (fun A k => @aligned_read A 0 _ _ _ _ _ _ _ _ k Al ltac:(names) eq_refl eq_refl) as F0.
  pose proof (fun A k => @aligned_read A 1 _ _ _ _ _ _ _ _ k Al ltac:(names) eq_refl eq_refl) as F1.
  pose proof (fun A k => @aligned_read A 2 _ _ _ _ _ _ _ _ k Al ltac:(names) eq_refl eq_refl) as F2.
  pose proof (fun A k => @aligned_read A 3 _ _ _ _ _ _ _ _ k Al ltac:(names) eq_refl eq_refl) as F3.
  pose proof (fun A k => @aligned_read A 4 _ _ _ _ _ _ _ _ k Al ltac:(names) eq_refl eq_refl) as F4.
  change (ASeq (seq_fields TSTInfo)) with TSTInfo in *.
  assert (Q0 : lt_version (read_tst c) = Ok (version_native 0 version)).
  { unfold read_tst. cbn [lt_version]. rewrite C.
    destruct (F0 _ (fun a tg t => let? b := contents_of a tg t in Ok (version_native 0 b))) as (t & Dt & _ & R). rewrite R.
    unfold aObjectIdentifier, aOctetString, aInteger; rewrite (decode_prim _ _ _ _ Dt). reflexivity. }
  assert (Q1 : lt_policy (read_tst c) = Ok (dotted policy)).
  { unfold read_tst. cbn [lt_policy]. rewrite C. destruct (F1 _ (read_oid [])) as (t & Dt & _ & R). rewrite R.
    unfold read_oid. unfold aObjectIdentifier, aOctetString, aInteger; rewrite (decode_prim _ _ _ _ Dt). reflexivity. }
  destruct (F2 _ contents_of) as (t2 & D2 & _ & R2).
  destruct (decode_children _ _ _ _ D2) as (b2 & vs2 & d2 & E2 & C2 & K2 & Al2). injection E2 as <-.
  fold MessageImprint in *. rewrite C2 in R2.
  assert (Q2 : exists a, lt_hash_alg (read_tst c) = Ok a /\ la_name a = Ok (oid_native digest_algorithms alg)).
  { unfold read_tst. cbn [lt_hash_alg]. rewrite C, R2. cbn [rbind]. rewrite K2.
    destruct (aligned_read 0 _ _ _ _ _ _ _ _ (algid_ok digest_algorithms) Al2 ltac:(names) eq_refl eq_refl) as (t3 & D3 & _ & R3).
    eexists. split; [exact R3|]. apply (algid_encodes _ _ _ _ ps). exact D3. }
  assert (Q3 : lt_hashed_message (read_tst c) = Ok hashed).
  { unfold read_tst. cbn [lt_hashed_message]. rewrite C, R2. cbn [rbind]. rewrite K2.
    destruct (aligned_read 1 _ _ _ _ _ _ _ _ contents_of Al2 ltac:(names) eq_refl eq_refl) as (t3 & D3 & _ & R3).
    change (read MessageImprint (Ok d2) "hashed_message" contents_of = Ok hashed). unfold MessageImprint at 1. rewrite R3. exact (decode_prim _ _ _ _ D3). }
  assert (Q4 : lt_serial (read_tst c) = Ok (int_native serial)).
  { unfold read_tst. cbn [lt_serial]. rewrite C. destruct (F3 _ read_int) as (t & Dt & _ & R). rewrite R.
    unfold read_int. unfold aObjectIdentifier, aOctetString, aInteger; rewrite (decode_prim _ _ _ _ Dt). reflexivity. }
  assert (Q5 : lt_gen_time (read_tst c) = time_native "general_time" time).
  { unfold read_tst. cbn [lt_gen_time]. rewrite C.
    destruct (F4 _ (fun a tg t => let? b := contents_of a tg t in time_native "general_time" b)) as (t & Dt & _ & R). rewrite R.
    unfold aObjectIdentifier, aOctetString, aInteger; rewrite (decode_prim _ _ _ _ Dt). reflexivity. }
  clear - Hs Q0 Q1 Q2 Q3 Q4 Q5. destruct Q2 as (a & Q2 & Q2'). cbn [lz_tst_info] in Hs.
  rewrite Q0 in Hs. cbn [rbind] in Hs.
  destruct (String.eqb_spec (version_native 0 version) "v1") as [Ev|]; cbn [negb] in Hs; [|discriminate Hs].
  rewrite Q1, Q2 in Hs. cbn [rbind] in Hs. destruct (lz_digest_algorithm a) as [x|] eqn:La; cbn [rbind] in Hs; [|discriminate Hs].
  rewrite Q3, Q4 in Hs. cbn [rbind] in Hs. rewrite Q5 in Hs.
  destruct (time_native "general_time" time) as [g|]; cbn [rbind] in Hs; [|discriminate Hs].
  destruct (lt_accuracy (read_tst c)) as [ac|]; cbn [rbind] in Hs; [|discriminate Hs].
  destruct (lz_accuracy_to_python ac) as [ac'|]; cbn [rbind] in Hs; [|discriminate Hs].
  destruct (lt_tsa (read_tst c)) as [ts|]; cbn [rbind] in Hs; [|discriminate Hs].
  destruct (lz_authority ts) as [u|]; cbn [rbind] in Hs; [|discriminate Hs]. injection Hs as <-.
  rewrite (digest_algorithm_name _ _ _ Q2' La). repeat split. exact Ev.
Qed.
