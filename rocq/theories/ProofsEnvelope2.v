(** Proofs that signatures are read as they are written; statements in PropertiesEnvelope.v. *)
From Coq Require Import Lia ZifyBool ZifyNat.
From Verif Require Import Base Monad ModelX509 ModelPkcs7 ModelLazy ModelDer ModelSpc ModelDecode SpecAsn ProofsDer ProofsAsn ProofsAsn2.
From Verif Require Import ProofsDecode2 ProofsLazy ProofsLazy2 SpecPrim SpecTime ProofsTime ProofsPrim4 SpecBer SpecStl ProofsStl SpecRead ProofsRead ProofsBer2 SpecEnvelope ProofsEnvelope.

(** ** Fields *)

Lemma open_seq a' fs tg t vs : decode (ASeq fs) tg t = Ok (VSeq vs) -> a' = ASeq (seq_fields a') -> alike fs (seq_fields a') ->
  exists b d, contents_of a' tg t = Ok b /\ children a' b = Ok d /\ aligned fs vs d.
Proof.
  intros H E A. destruct (decode_children _ _ _ _ H) as (b & vs' & d & V & C & K & Al). injection V as <-.
  exists b, d. rewrite E at 1. split; [exact C|]. split; [|exact Al]. unfold children in *. cbn [seq_fields] in K.
  destruct (parse_all b) as [l|]; [|discriminate K]. cbn [rbind] in *. rewrite <- (match_fields_alike _ _ A). exact K.
Qed.

Section At.
  Context (i : nat) (a' : asn) (n : string) (x : asn) (tg : tagging) (p : presence).
  Context (fs : list (string * (asn * (tagging * presence)))) (vs : list (option aval)) (d : dict (option tlv)).
  Context (x' : asn) (tg' : tagging) (p' : presence).
  Hypothesis (Al : aligned fs vs d) (ND : NoDup (map fst fs)) (Hf : nth_error fs i = Some (n, (x, (tg, p)))).
  Hypothesis (Hf' : dict_get n (seq_fields a') = Some (x', (tg', p'))).

  Lemma at_present v : nth_error vs i = Some (Some v) ->
    exists t, decode x tg t = Ok v /\ dict_get n d = Some (Some t) /\
      (forall A (k : asn -> tagging -> tlv -> res A), read_field a' (Ok d) n k = (let? y := k x' tg' t in Ok (Some y))) /\
      (forall A (k : asn -> tagging -> tlv -> res A), read a' (Ok d) n k = k x' tg' t).
  Proof using Al ND Hf Hf'.
    intros Hv. destruct (aligned_get _ _ _ _ _ _ _ _ _ Al ND Hf Hv) as [_ (t & G & Dt)]. exists t.
    split; [exact Dt|]. split; [exact G|]. split; intros A k; apply (read_at a' _ _ _ _ _ _ k G Hf').
  Qed.
  Lemma at_absent : nth_error vs i = Some None -> forall A (k : asn -> tagging -> tlv -> res A), read_field a' (Ok d) n k = Ok None.
  Proof using Al ND Hf.
    intros Hv A k. destruct (aligned_get _ _ _ _ _ _ _ _ _ Al ND Hf Hv) as [_ G]. exact (read_absent a' _ _ k G).
  Qed.
End At.
Ltac present i Al a := apply (at_present i a _ _ _ _ _ _ _ _ _ _ Al ltac:(names) eq_refl eq_refl _ eq_refl).
Ltac absent i Al a := exact (at_absent i a _ _ _ _ _ _ _ Al ltac:(names) eq_refl eq_refl).
Ltac alike := repeat split.

Lemma prim_at tag tg t b : decode (APrim tag) tg t = Ok (VPrim b) -> contents_of (APrim tag) tg t = Ok b.
Proof. apply decode_prim. Qed.
Lemma oid_at names tg t b : decode (APrim 6) tg t = Ok (VPrim b) -> read_oid names (APrim 6) tg t = Ok (called names b).
Proof. intros D. unfold read_oid. rewrite (decode_prim _ _ _ _ D), called_is. reflexivity. Qed.
Lemma int_at tg t b : decode (APrim 2) tg t = Ok (VPrim b) -> read_int (APrim 2) tg t = Ok (signed_integer b).
Proof. intros D. unfold read_int. rewrite (decode_prim _ _ _ _ D), integer_is. reflexivity. Qed.

Lemma alg_emb tg t v a : decode X509Algorithm tg t = Ok v -> alg_means v a ->
  read_algid digest_algorithms AlgorithmIdentifier tg t = emb_alg a.
Proof.
  intros H (oid & o & -> & N & P). destruct (open_seq AlgorithmIdentifier _ _ _ _ H eq_refl ltac:(alike)) as (b & d & C & K & Al).
  unfold read_algid, emb_alg. rewrite C. cbn [rbind]. rewrite K. f_equal.
  - edestruct (at_present 0 AlgorithmIdentifier) as (t1 & D1 & _ & _ & R1); [exact Al|names|reflexivity|reflexivity|reflexivity|].
    rewrite R1, N. exact (oid_at _ _ _ _ D1).
  - destruct o as [x|].
    + destruct P as (u & -> & P).
      edestruct (at_present 1 AlgorithmIdentifier) as (t1 & D1 & _ & R1 & _); [exact Al|names|reflexivity|reflexivity|reflexivity|].
      rewrite R1. cbn [rbind]. cbn [decode unwrap rbind] in D1. injection D1 as <-. rewrite (params_is _ _ P). reflexivity.
    + rewrite (at_absent 1 AlgorithmIdentifier _ _ _ _ _ _ _ Al ltac:(names) eq_refl eq_refl). cbn [rbind]. rewrite P. reflexivity.
Qed.
Ltac fld i a Al t D G F R := edestruct (at_present i a) as (t & D & G & F & R); [exact Al|names|reflexivity|reflexivity|reflexivity|].

(** ** Choices *)

Fixpoint alike_alts (l l' : list (string * (asn * tagging))) : Prop :=
  match l, l' with
  | [], [] => True
  | (n, (x, y)) :: l, (n', (x', y')) :: l' => n = n' /\ first_ids x y = first_ids x' y' /\ alike_alts l l'
  | _, _ => False
  end.
Lemma open_choice alts alts' tg t n v : decode (AChoice alts) tg t = Ok (VChoice n v) -> alike_alts alts alts' ->
  exists i x y x' y' u, nth_error alts i = Some (n, (x, y)) /\ nth_error alts' i = Some (n, (x', y')) /\
    unwrap tg t = Ok u /\ decode x y u = Ok v /\
    forall A (k : string -> asn -> tagging -> tlv -> res A), choice_of (AChoice alts') tg t k = k n x' y' u.
Proof.
  intros H E. rewrite decode_choice in H. unfold choice_of. destruct (unwrap tg t) as [u|]; cbn [rbind] in *; [|discriminate H].
  revert alts' E. induction alts as [|[m [x y]] alts IH]; intros alts' E; [discriminate H|].
  destruct alts' as [|[m' [x' y']] alts']; [contradiction E|]. destruct E as (<- & E1 & E). cbn [decode_alts] in H. fold (decode_alts u) in H.
  destruct (id_in u (first_ids x y)) eqn:J.
  - destruct (decode x y u) as [w|] eqn:D; cbn [rbind] in H; [|discriminate H]. injection H as <- <-.
    exists 0%nat, x, y, x', y', u. repeat (split; [reflexivity|]). split; [exact D|].
    intros A k. cbn [find_alt]. rewrite <- E1, J. reflexivity.
  - destruct (IH H _ E) as (i & x1 & y1 & x2 & y2 & u' & N1 & N2 & U & D & K). exists (Datatypes.S i), x1, y1, x2, y2, u'.
    split; [exact N1|]. split; [exact N2|]. split; [exact U|]. split; [exact D|].
    intros A k. cbn [find_alt]. rewrite <- E1, J. apply K.
Qed.
Lemma choice_value alts tg t v : decode (AChoice alts) tg t = Ok v -> exists n w, v = VChoice n w.
Proof.
  intros H. rewrite decode_choice in H. destruct (unwrap tg t) as [u|]; cbn [rbind] in *; [|discriminate H].
  induction alts as [|[m [x y]] alts IH]; [discriminate H|]. cbn [decode_alts] in H. fold (decode_alts u) in H.
  destruct (id_in u (first_ids x y)); [|exact (IH H)].
  destruct (decode x y u) as [w|]; cbn [rbind] in H; [|discriminate H]. injection H as <-. exists m, w. reflexivity.
Qed.
(** The alternative with a given name. *)
Ltac chosen N1 N2 i := repeat (destruct i as [|i]; [try discriminate N1|]); [..|try discriminate N1]; try (destruct i; discriminate N1);
  cbn [nth_error] in N1, N2; injection N1 as ? ?; injection N2 as ? ?; subst.

(** ** Texts *)

Lemma big16_value z : 0 <= z < 65536 -> Z_of_byte (byte_of_Z (z / 256)) * 256 + Z_of_byte (byte_of_Z (z mod 256)) = z.
Proof. apply unit_value. Qed.
Lemma utf16_ok u : Forall scalar u -> utf16 None (utf16_be u) = Ok u.
Proof.
  induction 1 as [|c u C F IH]; [reflexivity|]. unfold utf16_be in *. cbn [flat_map]. remember (flat_map big_point u) as rest eqn:Er. clear Er. unfold big_point.
  set (z := Z.of_N c). assert (Hz : 0 <= z < 55296 \/ 57344 <= z < 1114112) by (unfold scalar in C; subst z; lia).
  cbv zeta. destruct (z <? 65536) eqn:E.
  - cbn [big16 app]. rewrite utf16_cons. cbv zeta. rewrite big16_value by lia.
    replace ((55296 <=? z) && (z <? 56320)) with false by lia. replace ((56320 <=? z) && (z <? 57344)) with false by lia.
    rewrite IH. cbn [rbind]. subst z. rewrite N2Z.id. reflexivity.
  - assert (0 <= (z - 65536) / 1024 < 1024) as H1 by (split; [apply Z.div_pos; lia|apply Z.div_lt_upper_bound; lia]).
    assert (0 <= (z - 65536) mod 1024 < 1024) as H2 by (apply Z.mod_pos_bound; lia).
    rewrite <- app_assoc. cbn [big16 app]. rewrite utf16_cons. cbv zeta. rewrite big16_value by lia.
    replace ((55296 <=? 55296 + (z - 65536) / 1024) && (55296 + (z - 65536) / 1024 <? 56320)) with true by lia.
    rewrite utf16_cons. cbv zeta. rewrite big16_value by lia.
    replace ((56320 <=? 56320 + (z - 65536) mod 1024) && (56320 + (z - 65536) mod 1024 <? 57344)) with true by lia.
    rewrite IH. cbn [rbind]. do 2 f_equal.
    pose proof (Z.div_mod (z - 65536) 1024 ltac:(lia)) as Q.
    replace (65536 + (55296 + (z - 65536) / 1024 - 55296) * 1024 + (56320 + (z - 65536) mod 1024 - 56320)) with z by lia.
    subst z. apply N2Z.id.
Qed.
Lemma ascii_ok b : ascii_octets b -> readable (ascii_text b).
Proof.
  induction 1 as [|x b X F IH]; [eexists; reflexivity|]. cbn [ascii_text]. replace (128 <=? Z_of_byte x) with false by lia.
  destruct IH as (u & ->). eexists. reflexivity.
Qed.

Lemma text_read tg t v : decode MsText tg t = Ok v -> text_ok v -> readable (read_spc_string SpcString tg t).
Proof.
  intros H [(u & -> & U)|(b & -> & B)].
  - destruct (open_choice _ (match SpcString with AChoice l => l | _ => [] end) _ _ _ _ H ltac:(alike)) as (i & x & y & x' & y' & w & N1 & N2 & _ & D & K).
    destruct i as [|[|[|i]]]; try discriminate N1. injection N1 as <- <-. injection N2 as <- <-.
    unfold read_spc_string. change SpcString with (AChoice (match SpcString with AChoice l => l | _ => [] end)). rewrite K.
    unfold aBMPString. rewrite (prim_at _ _ _ _ D). cbn [rbind]. eexists. apply utf16_ok. exact U.
  - destruct (open_choice _ (match SpcString with AChoice l => l | _ => [] end) _ _ _ _ H ltac:(alike)) as (i & x & y & x' & y' & w & N1 & N2 & _ & D & K).
    destruct i as [|[|[|i]]]; try discriminate N1. injection N1 as <- <-. injection N2 as <- <-.
    unfold read_spc_string. change SpcString with (AChoice (match SpcString with AChoice l => l | _ => [] end)). rewrite K.
    unfold aIA5String. rewrite (prim_at _ _ _ _ D). cbn [rbind]. apply ascii_ok. exact B.
Qed.
Lemma link_read tg t v : decode MsLink tg t = Ok v -> link_ok v -> readable (read_spc_link SpcLink tg t).
Proof.
  intros H L. assert (exists n w, v = VChoice n w) as (n & w & ->) by exact (choice_value _ _ _ _ H).
  destruct (open_choice _ (match SpcLink with AChoice l => l | _ => [] end) _ _ _ _ H ltac:(alike)) as (i & x & y & x' & y' & u & N1 & N2 & _ & D & K).
  unfold read_spc_link. change SpcLink with (AChoice (match SpcLink with AChoice l => l | _ => [] end)). rewrite K. clear K.
  destruct i as [|[|[|i]]]; try (destruct i; discriminate N1); injection N1 as <- <- <-; injection N2 as <- <-.
  - destruct L as [(b & E & B)|[(x1 & x2 & E)|(x & E & _)]]; try discriminate E. injection E as ->.
    unfold aIA5String. rewrite String.eqb_refl, (prim_at _ _ _ _ D). apply ascii_ok. exact B.
  - destruct L as [(b & E & B)|[(x1 & x2 & E)|(x & E & _)]]; try discriminate E. injection E as ->.
    destruct (open_seq SpcSerializedObject _ _ _ _ D eq_refl ltac:(alike)) as (b & d & C & Kd & Al).
    cbn [String.eqb Ascii.eqb Bool.eqb]. rewrite C. cbn [rbind]. rewrite Kd.
    fld 0%nat SpcSerializedObject Al t1 D1 G1 F1 R1. rewrite R1. unfold SpcUuid, aOctetString. rewrite (prim_at _ _ _ _ D1). cbn [rbind].
    fld 1%nat SpcSerializedObject Al t2 D2 G2 F2 R2. rewrite R2. unfold aOctetString. rewrite (prim_at _ _ _ _ D2). eexists. reflexivity.
  - destruct L as [(b & E & B)|[(x1 & x2 & E)|(x & E & T)]]; try discriminate E. injection E as ->.
    cbn [String.eqb Ascii.eqb Bool.eqb]. exact (text_read _ _ _ D T).
Qed.

(** ** Contents *)

Lemma bits_read unused l : Z_of_byte unused < 8 -> (l = [] -> unused = x00) ->
  bit_string (unused :: l) = Ok (ztake (8 * zlen l - Z_of_byte unused) (flat_map octet_bits l)).
Proof.
  intros U E. unfold bit_string. replace (7 <? Z_of_byte unused) with false by lia.
  destruct l as [|x l]; [rewrite (E eq_refl); reflexivity|]. change (zlen (x :: l) =? 0) with false. rewrite Bool.andb_false_r. reflexivity.
Qed.
Lemma image_read t : image_ok t -> readable (lm_flags (read_image t)) /\ readable (lm_file (read_image t)).
Proof.
  intros (flags & file & H & P & Q). apply decoded_is in H; [|apart].
  destruct (open_seq SpcPeImageData _ _ _ _ H eq_refl ltac:(alike)) as (b & d & C & K & Al).
  unfold read_image. cbn [lm_flags lm_file]. rewrite C. cbn [rbind]. rewrite K. split.
  - destruct flags as [v|].
    + fld 0%nat SpcPeImageData Al t1 D1 G1 F1 R1. rewrite F1. destruct (prim_iff _ _ _ _ D1) as (c & -> & E1).
      unfold read_flags, SpcPeImageFlags, aBitString. rewrite E1. cbn [rbind].
      destruct P as (unused & l & Ec & U & Z0). injection Ec as ->. rewrite (bits_read _ _ U Z0). cbn [rbind]. eexists. reflexivity.
    + rewrite (at_absent 0 SpcPeImageData _ _ _ _ _ _ _ Al ltac:(names) eq_refl eq_refl). eexists. reflexivity.
  - destruct file as [v|].
    + fld 1%nat SpcPeImageData Al t1 D1 G1 F1 R1. rewrite F1. destruct (link_read _ _ _ D1 Q) as (u & ->). eexists. reflexivity.
    + rewrite (at_absent 1 SpcPeImageData _ _ _ _ _ _ _ Al ltac:(names) eq_refl eq_refl). eexists. reflexivity.
Qed.

Lemma spc_image oid : called spc_attribute_types oid = "microsoft_spc_pe_image_data" -> oid_text oid = "1.3.6.1.4.1.311.2.1.15".
Proof.
  rewrite called_is. apply (names_registered spc_attribute_types). unfold registered.
  do 2 (apply in_or_app; right). apply in_or_app. left. left. reflexivity.
Qed.

Lemma seq_contents a' fs t v : decode (ASeq fs) Untagged t = Ok v -> a' = ASeq (seq_fields a') -> contents_of a' Untagged t = Ok (t_contents t).
Proof.
  intros H ->. rewrite decode_seq in H. cbn [contents_of]. unfold expect in *. cbn [unwrap rbind] in *.
  destruct (_ && _); cbn [rbind] in *; [reflexivity|discriminate H].
Qed.

Lemma held_inv a b v : holds_a a b v -> exists t r, parse_tlv b = Ok (t, r) /\ is_a a t v.
Proof. intros (t & r & E & V & H). exists t, r. split; [apply ProofsBer.parse_tlv_iff; split; assumption|exact H]. Qed.

Lemma spc_read t v r : is_a MsContent t v -> spc_says v r ->
  contents_of SpcIndirectDataContent Untagged t = Ok (t_contents t) /\
  ag_value (LVSpc (read_spc (t_contents t))) (RVSpc r).
Proof.
  intros H (typ & value & alg & -> & T & A & V). apply decoded_is in H; [|apart].
  pose proof (seq_contents SpcIndirectDataContent _ _ _ H eq_refl) as C0. split; [exact C0|].
  destruct (open_seq SpcIndirectDataContent _ _ _ _ H eq_refl ltac:(alike)) as (b & d & C & K & Al).
  rewrite C0 in C. injection C as <-. unfold read_spc. rewrite K.
  fld 0%nat SpcIndirectDataContent Al t1 D1 G1 F1 R1. rewrite R1.
  destruct (open_seq SpcAttributeTypeAndOptionalValue _ _ _ _ D1 eq_refl ltac:(alike)) as (b1 & d1 & C1 & K1 & Al1).
  rewrite C1. cbn [rbind]. rewrite K1.
  fld 1%nat SpcIndirectDataContent Al t2 D2 G2 F2 R2. rewrite R2.
  destruct (open_seq DigestInfo _ _ _ _ D2 eq_refl ltac:(alike)) as (b2 & d2 & C2 & K2 & Al2).
  rewrite C2. cbn [rbind]. rewrite K2. cbn [ag_value lp_type lp_value lp_digest_alg lp_digest].
  split; [|split; [|split]].
  - fld 0%nat SpcAttributeTypeAndOptionalValue Al1 t3 D3 G3 F3 R3. rewrite R3, T. exact (oid_at _ _ _ _ D3).
  - destruct value as [x|].
    + destruct V as (V & u & -> & Q). fld 1%nat SpcAttributeTypeAndOptionalValue Al1 t3 D3 G3 F3 R3. rewrite F3. cbn [rbind].
      eexists. split; [reflexivity|]. split; [exact V|]. intros E. rewrite T in E. cbn [decode unwrap rbind] in D3. injection D3 as ->.
      apply image_read, Q, spc_image. exact E.
    + eexists. rewrite (at_absent 1 SpcAttributeTypeAndOptionalValue _ _ _ _ _ _ _ Al1 ltac:(names) eq_refl eq_refl).
      split; [reflexivity|]. exact V.
  - fld 0%nat DigestInfo Al2 t3 D3 G3 F3 R3. rewrite R3. unfold algid_ok. rewrite (alg_emb _ _ _ _ D3 A). reflexivity.
  - fld 1%nat DigestInfo Al2 t3 D3 G3 F3 R3. rewrite R3. exact (prim_at _ _ _ _ D3).
Qed.

Lemma version_v1 b : version_native 0 b = "v1" <-> signed_integer b = 1.
Proof.
  rewrite integer_is. pose proof (version_one b) as V. destruct (String.eqb_spec (version_native 0 b) "v1") as [E|E]; symmetry in V;
    [apply Z.eqb_eq in V|apply Z.eqb_neq in V]; tauto.
Qed.
Lemma plain_oid tg t b : decode (APrim 6) tg t = Ok (VPrim b) -> read_oid [] (APrim 6) tg t = Ok (oid_text b).
Proof. intros D. rewrite (oid_at _ _ _ _ D), called_is, identifier_is. reflexivity. Qed.

Lemma integer_field a' d n o z i fs vs tg p p' : aligned fs vs d -> NoDup (map fst fs) -> nth_error fs i = Some (n, (APrim 2, (tg, p))) ->
  dict_get n (seq_fields a') = Some (APrim 2, (tg, p')) -> nth_error vs i = Some o -> maybe integer_means o z ->
  read_field a' (Ok d) n read_int = Ok z.
Proof.
  intros Al ND Hf Hf' Hv M. destruct o as [v|], z as [z|]; try contradiction M.
  - destruct M as (b & -> & ->). destruct (at_present i a' _ _ _ _ _ _ _ _ _ _ Al ND Hf Hf' _ Hv) as (t & D & _ & F & _).
    rewrite F, (int_at _ _ _ D). reflexivity.
  - exact (at_absent i a' _ _ _ _ _ _ _ Al ND Hf Hv _ _).
Qed.
Lemma accuracy_read tg t v r : decode TspAccuracy tg t = Ok v -> accuracy_says v r ->
  read_accuracy Accuracy tg t = Ok (mkLzAccuracy (Ok (fst (fst r))) (Ok (snd (fst r))) (Ok (snd r))).
Proof.
  intros H (s & ms & us & -> & M1 & M2 & M3). destruct (open_seq Accuracy _ _ _ _ H eq_refl ltac:(alike)) as (b & d & C & K & Al).
  unfold read_accuracy. rewrite C. cbn [rbind]. rewrite K.
  rewrite (integer_field Accuracy _ _ _ _ 0 _ _ _ _ _ Al ltac:(names) eq_refl eq_refl eq_refl M1).
  rewrite (integer_field Accuracy _ _ _ _ 1 _ _ _ _ _ Al ltac:(names) eq_refl eq_refl eq_refl M2).
  rewrite (integer_field Accuracy _ _ _ _ 2 _ _ _ _ _ Al ltac:(names) eq_refl eq_refl eq_refl M3). reflexivity.
Qed.
Definition alts_of (a : asn) : list (string * (asn * tagging)) := match a with AChoice l => l | _ => [] end.
Lemma tsa_read tg t v r : decode TspName tg t = Ok v -> tsa_says (Some v) r ->
  choice_of GeneralName tg t (fun n x y u => if String.eqb n "directory_name" then Ok (LzTsaDirectory (read_name x y u)) else Ok (LzTsaOther n)) =
  Ok (match r with TsaAbsent => LzTsaAbsent | TsaDirectory n => LzTsaDirectory (Ok n) | TsaOther k => LzTsaOther k end).
Proof.
  intros H M. destruct (choice_value _ _ _ _ H) as (n & w & ->).
  destruct (open_choice _ (alts_of GeneralName) _ _ _ _ H ltac:(alike)) as (i & x & y & x' & y' & u & N1 & N2 & _ & D & K).
  change GeneralName with (AChoice (alts_of GeneralName)). rewrite K. clear K.
  destruct r as [|m|k]; cbn [tsa_says] in M; [discriminate M| |].
  - destruct M as (v & E & M). injection E as -> ->. rewrite String.eqb_refl.
    destruct i as [|[|[|[|[|[|[|[|[|i]]]]]]]]]; try discriminate N1; try (destruct i; discriminate N1).
    injection N1 as <- <-. injection N2 as <- <-. rewrite (proj2 (name_iff _ _ _ D _) M). reflexivity.
  - destruct M as (Nk & v & E). injection E as -> ->. destruct (String.eqb_spec k "directory_name"); [contradiction|reflexivity].
Qed.

Lemma tst_read t v r : is_a TspInfo t v -> tst_says v r ->
  contents_of TSTInfo Untagged t = Ok (t_contents t) /\ ag_value (LVTst (read_tst (t_contents t))) (RVTst r).
Proof.
  intros H (version & policy & alg & serial & time & accuracy & ordering & nonce & tsa & extensions & -> & V & P & A & S & T & Y & M).
  apply decoded_is in H; [|apart]. pose proof (seq_contents TSTInfo _ _ _ H eq_refl) as C0. split; [exact C0|].
  destruct (open_seq TSTInfo _ _ _ _ H eq_refl ltac:(alike)) as (b & d & C & K & Al).
  rewrite C0 in C. injection C as <-. unfold read_tst. rewrite K.
  fld 2%nat TSTInfo Al t2 D2 G2 F2 R2. rewrite R2.
  destruct (open_seq MessageImprint _ _ _ _ D2 eq_refl ltac:(alike)) as (b2 & d2 & C2 & K2 & Al2).
  rewrite C2. cbn [rbind]. rewrite K2.
  cbn [ag_value lt_version lt_policy lt_hash_alg lt_hashed_message lt_serial lt_gen_time lt_accuracy lt_tsa].
  split; [|split; [|split; [|split; [|split; [|split; [|split]]]]]].
  - fld 0%nat TSTInfo Al t3 D3 G3 F3 R3. rewrite R3. unfold aInteger. rewrite (prim_at _ _ _ _ D3). cbn [rbind].
    eexists. split; [reflexivity|]. rewrite version_v1. symmetry. exact V.
  - fld 1%nat TSTInfo Al t3 D3 G3 F3 R3. rewrite R3, P. exact (plain_oid _ _ _ D3).
  - fld 0%nat MessageImprint Al2 t3 D3 G3 F3 R3. rewrite R3. unfold algid_ok. rewrite (alg_emb _ _ _ _ D3 A). reflexivity.
  - fld 1%nat MessageImprint Al2 t3 D3 G3 F3 R3. rewrite R3. exact (prim_at _ _ _ _ D3).
  - fld 3%nat TSTInfo Al t3 D3 G3 F3 R3. rewrite R3, S. exact (int_at _ _ _ D3).
  - fld 4%nat TSTInfo Al t3 D3 G3 F3 R3. rewrite R3. rewrite (prim_at _ _ _ _ D3). cbn [rbind]. apply general_exact. exact T.
  - destruct accuracy as [v|], (rt_accuracy r) as [q|]; try contradiction Y.
    + fld 5%nat TSTInfo Al t3 D3 G3 F3 R3. rewrite F3, (accuracy_read _ _ _ _ D3 Y). cbn [rbind]. destruct q as [[q1 q2] q3]. reflexivity.
    + exact (at_absent 5 TSTInfo _ _ _ _ _ _ _ Al ltac:(names) eq_refl eq_refl _ _).
  - destruct tsa as [v|].
    + fld 8%nat TSTInfo Al t3 D3 G3 F3 R3. rewrite F3, (tsa_read _ _ _ _ D3 M). reflexivity.
    + rewrite (at_absent 8 TSTInfo _ _ _ _ _ _ _ Al ltac:(names) eq_refl eq_refl). cbn [rbind].
      destruct (rt_tsa r) as [|m|k]; cbn [tsa_says] in M; [reflexivity|destruct M as (v & E & _); discriminate E|destruct M as (_ & v & E); discriminate E].
Qed.

Ltac registered := unfold registered; cbn [map app]; repeat first [left; reflexivity|right].
Lemma name_eqb names s d : In (names, (s, d)) registered -> forall oid, String.eqb (called names oid) s = String.eqb (oid_text oid) d.
Proof.
  intros H oid. pose proof (names_registered names s d H oid) as E. rewrite <- called_is in E.
  destruct (String.eqb_spec (called names oid) s), (String.eqb_spec (oid_text oid) d); try reflexivity; exfalso; tauto.
Qed.
Lemma name_signed oid : String.eqb (called content_types oid) "signed_data" = String.eqb (oid_text oid) "1.2.840.113549.1.7.2".
Proof. apply name_eqb. registered. Qed.
Lemma name_data oid : String.eqb (called content_types oid) "data" = String.eqb (oid_text oid) "1.2.840.113549.1.7.1".
Proof. apply name_eqb. registered. Qed.
Lemma name_spc oid :
  String.eqb (called content_types oid) "microsoft_spc_indirect_data_content" = String.eqb (oid_text oid) "1.3.6.1.4.1.311.2.1.4".
Proof. apply name_eqb. registered. Qed.
Lemma name_tst oid : String.eqb (called content_types oid) "tst_info" = String.eqb (oid_text oid) "1.2.840.113549.1.9.16.1.4".
Proof. apply name_eqb. registered. Qed.

Lemma octets_at t1 t : decode AAny (Explicit 0) t1 = Ok (VAny t) -> octet_string t ->
  contents_of (APrim 4) (Explicit 0) t1 = Ok (t_contents t).
Proof.
  intros D ((U1 & U2) & U3). destruct (any_iff _ _ _ D) as (u & E & U). injection E as <-. cbn [contents_of].
  rewrite expect_explicit, U. cbn [rbind]. unfold expect. cbn [unwrap rbind]. rewrite U1, U2, U3. reflexivity.
Qed.

Lemma content_read t version typ o c b :
  decode CmsContentInfo Untagged t = Ok (VSeq [Some (VPrim typ); o]) -> content_says version (oid_text typ) o c ->
  contents_of ContentInfo Untagged t = Ok b ->
  exists v, read_content (version_native 0 version) b = Ok (mkLzContent (rc_octets c) (Ok v)) /\ ag_value v (rc_value c).
Proof.
  intros H M C.
  destruct (open_seq ContentInfo _ _ _ _ H eq_refl ltac:(alike)) as (b1 & d1 & C1 & K1 & Al1).
  rewrite C in C1. injection C1 as <-.
  destruct (open_seq EncapsulatedContentInfo _ _ _ _ H eq_refl ltac:(alike)) as (b2 & d2 & C2 & K2 & Al2).
  change (contents_of EncapsulatedContentInfo Untagged t) with (contents_of ContentInfo Untagged t) in C2.
  rewrite C in C2. injection C2 as <-.
  unfold read_content. rewrite version_one, <- integer_is, K1, K2. cbv zeta.
  fld 0%nat ContentInfo Al1 t1 D1 G1 F1 R1. fld 0%nat EncapsulatedContentInfo Al2 t2 D2 G2 F2 R2. rewrite R1, R2.
  change (read_oid content_types aObjectIdentifier) with (read_oid content_types (APrim 6)).
  rewrite (oid_at _ _ _ _ D1), (oid_at _ _ _ _ D2). cbn [rbind]. rewrite !name_spc, name_tst.
  clear t1 D1 G1 F1 R1 t2 D2 G2 F2 R2.
  destruct M as [|u v r V E I S|u V E|u v r V E O L S|u v r V E O L S|u v V E1 E2 O L].
  - exists LVNone. split; [|exact I].
    rewrite (at_absent 1 ContentInfo _ _ _ _ _ _ _ Al1 ltac:(names) eq_refl eq_refl).
    rewrite (at_absent 1 EncapsulatedContentInfo _ _ _ _ _ _ _ Al2 ltac:(names) eq_refl eq_refl).
    cbn [rbind]. destruct (_ =? 1); reflexivity.
  - fld 1%nat ContentInfo Al1 t1 D1 G1 F1 R1. rewrite F1. destruct (any_iff _ _ _ D1) as (w & W & U). injection W as <-.
    rewrite U. cbn [rbind]. rewrite (proj2 (Z.eqb_eq _ _) V). destruct (spc_read _ _ _ I S) as (C3 & A).
    rewrite E, C3. cbn [String.eqb Ascii.eqb Bool.eqb rbind]. eexists. split; [reflexivity|exact A].
  - fld 1%nat ContentInfo Al1 t1 D1 G1 F1 R1. rewrite F1. destruct (any_iff _ _ _ D1) as (w & W & U). injection W as <-.
    rewrite U. cbn [rbind]. rewrite (proj2 (Z.eqb_eq _ _) V). rewrite (proj2 (String.eqb_neq _ _) E). exists LVNone. split; [reflexivity|exact I].
  - fld 1%nat EncapsulatedContentInfo Al2 t1 D1 G1 F1 R1. rewrite F1. unfold aOctetString. rewrite (octets_at _ _ D1 O). cbn [rbind].
    rewrite (proj2 (Z.eqb_neq _ _) V). destruct (held_inv _ _ _ L) as (w & rest & P & D). rewrite P. cbn [rbind].
    destruct (spc_read _ _ _ D S) as (C3 & A). rewrite E, C3. cbn [String.eqb Ascii.eqb Bool.eqb rbind]. eexists. split; [reflexivity|exact A].
  - fld 1%nat EncapsulatedContentInfo Al2 t1 D1 G1 F1 R1. rewrite F1. unfold aOctetString. rewrite (octets_at _ _ D1 O). cbn [rbind].
    rewrite (proj2 (Z.eqb_neq _ _) V). destruct (held_inv _ _ _ L) as (w & rest & P & D). rewrite P. cbn [rbind].
    destruct (tst_read _ _ _ D S) as (C3 & A). rewrite E, C3. cbn [String.eqb Ascii.eqb Bool.eqb rbind]. eexists. split; [reflexivity|exact A].
  - fld 1%nat EncapsulatedContentInfo Al2 t1 D1 G1 F1 R1. rewrite F1. unfold aOctetString. rewrite (octets_at _ _ D1 O). cbn [rbind].
    rewrite (proj2 (Z.eqb_neq _ _) V). destruct (held_inv _ _ _ L) as (w & rest & P & D). rewrite P. cbn [rbind].
    rewrite (proj2 (String.eqb_neq _ _) E1), (proj2 (String.eqb_neq _ _) E2). exists LVNone. split; [reflexivity|exact I].
Qed.

(** ** Certificates, signer identifiers and descriptions *)

Lemma choice_read t c : choice_says t c -> exists x, read_choice t = Ok x /\ ag_choice x c.
Proof.
  intros [v c' H M E1 E2|k H1 H2]; unfold read_choice, choice_of, CertificateChoices; cbn [unwrap rbind find_alt].
  - assert (J : id_in t (first_ids Certificate Untagged) = true).
    { apply decoded_is in H; [|exact x509_distinct]. unfold X509 in H. rewrite decode_seq in H. unfold expect in H. cbn [unwrap rbind] in H.
      destruct ((t_class t =? 0) && _ && _) eqn:J; cbn [rbind] in H; [|discriminate H].
      unfold Certificate. cbn [first_ids id_in existsb]. unfold id_eqb. cbn [fst snd]. lia. }
    rewrite J, String.eqb_refl. eexists. split; [reflexivity|]. cbn [ag_choice]. apply decoded_is in H; [|exact x509_distinct]. apply (cert_iff _ _ H). auto.
  - assert (J : id_in t (first_ids Certificate Untagged) = false).
    { unfold Certificate. cbn [first_ids id_in existsb]. unfold id_eqb. cbn [fst snd]. lia. }
    rewrite J. cbn [first_ids id_in existsb]. unfold id_eqb. cbn [fst snd]. rewrite H1.
    assert (t_tag t = 0 \/ t_tag t = 1 \/ t_tag t = 2 \/ t_tag t = 3) as T by lia.
    destruct T as [T|[T|[T|T]]]; rewrite T; eexists; (split; [reflexivity|exact I]).
Qed.
Lemma choices_read : forall ts cs, Forall2 choice_says ts cs ->
  exists xs, map read_choice ts = map (@Ok lz_choice) xs /\ Forall2 ag_choice xs cs.
Proof.
  induction 1 as [|t c ts cs H F (xs & E & IH)]; [exists []; split; [reflexivity|constructor]|].
  destruct (choice_read _ _ H) as (x & X & A). exists (x :: xs). cbn [map]. rewrite X, E. split; [reflexivity|]. constructor; assumption.
Qed.

Lemma opus_read t : opus_ok t -> exists o, read_opus t = Ok o /\ ag_opus o.
Proof.
  intros (name & info & publisher & H & P1 & P2 & P3). apply decoded_is in H; [|apart].
  destruct (open_seq SpcSpOpusInfo _ _ _ _ H eq_refl ltac:(alike)) as (b & d & C & K & Al).
  unfold read_opus. rewrite C. cbn [rbind]. rewrite K. eexists. split; [reflexivity|].
  unfold ag_opus. cbn [lu_program_name lu_more_info lu_publisher_info]. split; [|split].
  - destruct name as [v|].
    + fld 0%nat SpcSpOpusInfo Al t1 D1 G1 F1 R1. rewrite F1. destruct (text_read _ _ _ D1 P1) as (u & ->). eexists. reflexivity.
    + rewrite (at_absent 0 SpcSpOpusInfo _ _ _ _ _ _ _ Al ltac:(names) eq_refl eq_refl). eexists. reflexivity.
  - destruct info as [v|].
    + fld 1%nat SpcSpOpusInfo Al t1 D1 G1 F1 R1. rewrite F1. destruct (link_read _ _ _ D1 P2) as (u & ->). eexists. reflexivity.
    + rewrite (at_absent 1 SpcSpOpusInfo _ _ _ _ _ _ _ Al ltac:(names) eq_refl eq_refl). eexists. reflexivity.
  - destruct publisher as [v|].
    + fld 2%nat SpcSpOpusInfo Al t1 D1 G1 F1 R1. rewrite F1. destruct (link_read _ _ _ D1 P3) as (u & ->). eexists. reflexivity.
    + rewrite (at_absent 2 SpcSpOpusInfo _ _ _ _ _ _ _ Al ltac:(names) eq_refl eq_refl). eexists. reflexivity.
Qed.

Lemma sid_read tg t v s : decode CmsSid tg t = Ok v -> sid_says v s ->
  choice_of SignerIdentifier tg t
    (fun n x y u =>
       if String.eqb n "issuer_and_serial_number" then
         let is := (let? b := contents_of x y u in children IssuerAndSerialNumber b) in
         Ok (LzIssuerSerial (read IssuerAndSerialNumber is "issuer" read_name)
                            (read IssuerAndSerialNumber is "serial_number" read_int))
       else Ok LzKeyIdentifier) = Ok (emb_sid s).
Proof.
  intros H M. destruct (choice_value _ _ _ _ H) as (n & w & ->).
  destruct (open_choice _ (alts_of SignerIdentifier) _ _ _ _ H ltac:(alike)) as (i & x & y & x' & y' & u & N1 & N2 & _ & D & K).
  change SignerIdentifier with (AChoice (alts_of SignerIdentifier)). rewrite K. clear K.
  destruct s as [issuer serial|k]; cbn [sid_says] in M.
  - destruct M as (v1 & b1 & E & M & ->). injection E as -> ->. rewrite String.eqb_refl.
    destruct i as [|[|i]]; try discriminate N1; try (destruct i; discriminate N1). injection N1 as <- <-. injection N2 as <- <-.
    destruct (open_seq IssuerAndSerialNumber _ _ _ _ D eq_refl ltac:(alike)) as (b & d & C & K & Al).
    rewrite C. cbn [rbind]. rewrite K. cbv zeta.
    fld 0%nat IssuerAndSerialNumber Al t1 D1 G1 F1 R1. rewrite R1. fld 1%nat IssuerAndSerialNumber Al t2 D2 G2 F2 R2. rewrite R2.
    rewrite (proj2 (name_iff _ _ _ D1 _) M). unfold aInteger. rewrite (int_at _ _ _ D2). reflexivity.
  - injection M as -> ->. reflexivity.
Qed.

(** ** Attributes, signers and signed data *)

Lemma members_at x tg t ts : decode (ASetOf AAny) tg t = Ok (VList (map VAny ts)) ->
  items_of (ASetOf x) tg t = Ok ts /\ contents_of (ASetOf x) tg t = Ok (concat (map tlv_dump ts)).
Proof.
  intros H. destruct (setof_items _ _ _ _ H) as (l & vs & E & I & F). injection E as <-. rewrite (any_items _ _ F) in I.
  change (items_of (ASetOf AAny) tg t) with (items_of (ASetOf x) tg t) in I. split; [exact I|].
  unfold items_of in I. destruct (contents_of (ASetOf x) tg t) as [b|]; cbn [rbind] in I; [|discriminate I].
  destruct (parse_all_split _ _ I) as [-> _]. reflexivity.
Qed.
Lemma map_res_read {A B} (R : tlv -> B -> Prop) (f : tlv -> res A) (Q : A -> B -> Prop) : forall ts l, Forall2 R ts l ->
  (forall t r, In t ts -> R t r -> exists x, f t = Ok x /\ Q x r) -> exists xs, map_res f ts = Ok xs /\ Forall2 Q xs l.
Proof.
  induction 1 as [|t r ts l H F IH]; intros K; [exists []; split; [reflexivity|constructor]|].
  destruct (K _ _ (or_introl eq_refl) H) as (x & X & A0). destruct IH as (xs & E & A1); [intros t' r' I; apply K; right; exact I|].
  exists (x :: xs). cbn [map_res]. rewrite X. cbn [rbind]. rewrite E. split; [reflexivity|]. constructor; assumption.
Qed.
Lemma map_read {A B} (R : tlv -> B -> Prop) (f : tlv -> res A) (Q : A -> B -> Prop) : forall ts l, Forall2 R ts l ->
  (forall t r, In t ts -> R t r -> exists x, f t = Ok x /\ Q x r) -> exists xs, map f ts = map (@Ok A) xs /\ Forall2 Q xs l.
Proof.
  induction 1 as [|t r ts l H F IH]; intros K; [exists []; split; [reflexivity|constructor]|].
  destruct (K _ _ (or_introl eq_refl) H) as (x & X & A0). destruct IH as (xs & E & A1); [intros t' r' I; apply K; right; exact I|].
  exists (x :: xs). cbn [map]. rewrite X, E. split; [reflexivity|]. constructor; assumption.
Qed.
Lemma map_res_ok {A} (P : tlv -> Prop) (f : tlv -> res A) (Q : A -> Prop) : forall ts, Forall P ts ->
  (forall t, P t -> exists x, f t = Ok x /\ Q x) -> exists xs, map_res f ts = Ok xs /\ Forall Q xs /\ length xs = length ts.
Proof.
  induction 1 as [|t ts H F IH]; intros K; [exists []; repeat split; constructor|].
  destruct (K _ H) as (x & X & A0). destruct (IH K) as (xs & E & A1 & L).
  exists (x :: xs). cbn [map_res]. rewrite X. cbn [rbind]. rewrite E. split; [reflexivity|]. split; [constructor; assumption|].
  cbn [length]. rewrite L. reflexivity.
Qed.
Lemma simple_at {A} tag (f : bytes -> res A) t b : is_a (APrim tag) t (VPrim b) -> simple_item tag f t = Ok (f b).
Proof.
  intros D. apply decoded_is in D; [|constructor]. pose proof (prim_at _ _ _ _ D) as C. cbn [contents_of] in C. unfold simple_item.
  destruct (expect Untagged false tag t); cbn [rbind] in *; [|discriminate C]. injection C as ->. reflexivity.
Qed.
Lemma map_res_map {A B} (g : B -> A) (f : tlv -> res A) (R : tlv -> B -> Prop) ts l : Forall2 R ts l ->
  (forall t b, R t b -> f t = Ok (g b)) -> map_res f ts = Ok (map g l).
Proof.
  intros F0 K. induction F0 as [|t r ts l H F IH]; [reflexivity|]. cbn [map_res map]. rewrite (K _ _ H). cbn [rbind]. rewrite IH. reflexivity.
Qed.
Lemma map_res_same {A} (l : list A) : map_res (fun t => Ok t) l = Ok l.
Proof. induction l as [|x l IH]; [reflexivity|]. cbn [map_res rbind]. rewrite IH. reflexivity. Qed.

Ltac known := apply name_eqb; registered.
Lemma name_content_type oid : String.eqb (called attribute_types oid) "content_type" = String.eqb (oid_text oid) "1.2.840.113549.1.9.3".
Proof. known. Qed.
Lemma name_message_digest oid : String.eqb (called attribute_types oid) "message_digest" = String.eqb (oid_text oid) "1.2.840.113549.1.9.4".
Proof. known. Qed.
Lemma name_signing_time oid : String.eqb (called attribute_types oid) "signing_time" = String.eqb (oid_text oid) "1.2.840.113549.1.9.5".
Proof. known. Qed.
Lemma name_counter oid : String.eqb (called attribute_types oid) "counter_signature" = String.eqb (oid_text oid) "1.2.840.113549.1.9.6".
Proof. known. Qed.
Lemma name_statement oid :
  String.eqb (called attribute_types oid) "microsoft_spc_statement_type" = String.eqb (oid_text oid) "1.3.6.1.4.1.311.2.1.11".
Proof. known. Qed.
Lemma name_opus oid :
  String.eqb (called attribute_types oid) "microsoft_spc_sp_opus_info" = String.eqb (oid_text oid) "1.3.6.1.4.1.311.2.1.12".
Proof. known. Qed.
Lemma name_nested oid :
  String.eqb (called attribute_types oid) "microsoft_nested_signature" = String.eqb (oid_text oid) "1.3.6.1.4.1.311.2.4.1".
Proof. known. Qed.
Lemma name_token oid :
  String.eqb (called attribute_types oid) "microsoft_time_stamp_token" = String.eqb (oid_text oid) "1.3.6.1.4.1.311.3.3.1".
Proof. known. Qed.

Lemma time_at t v z : is_a X509Time t v -> time_means v z ->
  choice_of Time Untagged t (fun n x y u => let? b := contents_of x y u in Ok (time_native n b)) = Ok (Ok z).
Proof.
  intros H (n & b & -> & T). apply decoded_is in H; [|apart].
  destruct (open_choice _ (alts_of Time) _ _ _ _ H ltac:(alike)) as (i & x & y & x' & y' & u & N1 & N2 & _ & D & K).
  change Time with (AChoice (alts_of Time)). rewrite K. clear K.
  destruct i as [|[|i]]; try (destruct i; discriminate N1); injection N1 as <- <- <-; injection N2 as <- <-;
    rewrite (prim_at _ _ _ _ D); cbn [rbind]; rewrite (proj2 (time_is _ _ _) T); reflexivity.
Qed.
Lemma statement_at t v : is_a (ASeqOf (APrim 6)) t v ->
  exists x, (let? b := contents_of SpcStatementType Untagged t in
             Ok (let? l := parse_all b in map_res (read_oid spc_statement_types aObjectIdentifier Untagged) l)) = Ok x /\ readable x.
Proof.
  intros H. apply decoded_is in H; [|repeat constructor]. destruct (seqof_items _ _ _ _ H) as (ts & vs & -> & I & F). unfold items_of in I.
  change (contents_of SpcStatementType Untagged t) with (contents_of (ASeqOf (APrim 6)) Untagged t).
  destruct (contents_of _ _ t) as [b|]; cbn [rbind] in *; [|discriminate I]. rewrite I. cbn [rbind]. eexists. split; [reflexivity|].
  clear I H. induction F as [|u w ts vs D F IH]; [eexists; reflexivity|]. cbn [map_res].
  destruct (prim_iff _ _ _ _ D) as (c & -> & E). unfold read_oid at 1, aObjectIdentifier at 1. rewrite E. cbn [rbind].
  destruct IH as (l & ->). eexists. reflexivity.
Qed.
Lemma algs_at ts vs l : Forall2 (fun t v => decode X509Algorithm Untagged t = Ok v) ts vs -> Forall2 alg_means vs l ->
  map (read_algid digest_algorithms AlgorithmIdentifier Untagged) ts = map emb_alg l.
Proof.
  intros F. revert l. induction F as [|t v ts vs D F IH]; intros l G; inversion G; subst; [reflexivity|].
  cbn [map]. rewrite (alg_emb _ _ _ _ D H1). rewrite (IH _ H3). reflexivity.
Qed.

Theorem reading f :
  (forall t a, attr_says t a -> (size t < f)%nat -> exists x, read_attr f t = Ok x /\ ag_attr x a) /\
  (forall t r, signer_says t r -> (size t < f)%nat -> exists b, contents_of SignerInfo Untagged t = Ok b /\ ag_si (read_si f b) r) /\
  (forall t r, ci_says t r -> (size t < f)%nat -> exists b, contents_of ContentInfo Untagged t = Ok b /\ ag_ci (read_ci f b) r) /\
  (forall t r, sd_says t r -> (size t < f)%nat -> exists b, contents_of SignedData Untagged t = Ok b /\ ag_sd (read_sd f b) r).
Proof.
  induction f as [|f (IA & IS & IC & ID)]; [repeat split; intros; lia|].
  split; [|split; [|split]].
  - intros t a H L. destruct H as [t oid ts a H M]. apply decoded_is in H; [|apart].
    destruct (open_seq CMSAttribute _ _ _ _ H eq_refl ltac:(alike)) as (b & d & C & K & Al).
    cbn [read_attr]. rewrite C. cbn [rbind]. rewrite K.
    fld 0%nat CMSAttribute Al t0 D0 G0 F0 R0. rewrite R0. unfold aObjectIdentifier at 1. rewrite (oid_at _ _ _ _ D0). cbn [rbind].
    fld 1%nat CMSAttribute Al t1 D1 G1 F1 R1. destruct (members_at AAny _ _ _ D1) as (I1 & _).
    assert (SZ : forall u, In u ts -> (size u < f)%nat).
    { intros u U. pose proof (items_of_shorter _ _ _ _ _ I1 U). pose proof (children_shorter _ _ _ _ _ K G1).
      pose proof (contents_of_shorter _ _ _ _ C). lia. }
    rewrite R1, I1. cbn [rbind].
    rewrite name_content_type, name_message_digest, name_signing_time, name_counter, name_statement, name_opus, name_nested, name_token.
    clear R0 F0 G0 D0 t0 K C H. remember (oid_text oid) as typ eqn:ET. clear ET.
    destruct M as [ts l M|ts l M|ts l M|ts l M|ts M|ts M|ts l M|ts l M|typ name ts M]; cbn [String.eqb Ascii.eqb Bool.eqb].
    + rewrite (map_res_map (@Ok string) _ _ _ _ M) by (intros t' s (c & D & ->); rewrite called_is; exact (simple_at _ _ _ _ D)). eexists. split; [reflexivity|constructor].
    + rewrite (map_res_map (@Ok bytes) _ _ _ _ M) by (intros t' s D; exact (simple_at _ _ _ _ D)). eexists. split; [reflexivity|constructor].
    + rewrite (map_res_map (@Ok datetime) _ _ _ _ M) by (intros t' s (v & D & T); exact (time_at _ _ _ D T)). eexists. split; [reflexivity|constructor].
    + destruct (map_res_read _ (fun t => let? b := contents_of SignerInfo Untagged t in Ok (read_si f b)) ag_si _ _ M) as (xs & E & A).
      { intros t' r U S. destruct (IS _ _ S (SZ _ U)) as (b' & C & A). rewrite C. cbn [rbind]. eexists. split; [reflexivity|exact A]. }
      rewrite E. eexists. split; [reflexivity|]. constructor. exact A.
    + destruct (map_res_ok _ _ readable _ M ltac:(intros t' (v & D); exact (statement_at _ _ D))) as (xs & E & A & Ln).
      rewrite E. eexists. split; [reflexivity|]. constructor; assumption.
    + destruct (map_res_ok _ _ ag_opus _ M opus_read) as (xs & E & A & Ln). rewrite E. eexists. split; [reflexivity|]. constructor; assumption.
    + destruct (map_res_read _ (fun t => let? b := contents_of ContentInfo Untagged t in Ok (read_ci f b)) ag_ci _ _ M) as (xs & E & A).
      { intros t' r U S. destruct (IC _ _ S (SZ _ U)) as (b' & C & A). rewrite C. cbn [rbind]. eexists. split; [reflexivity|exact A]. }
      rewrite E. eexists. split; [reflexivity|]. constructor. exact A.
    + destruct (map_res_read _ (fun t => let? b := contents_of ContentInfo Untagged t in Ok (read_ci f b)) ag_ci _ _ M) as (xs & E & A).
      { intros t' r U S. destruct (IC _ _ S (SZ _ U)) as (b' & C & A). rewrite C. cbn [rbind]. eexists. split; [reflexivity|exact A]. }
      rewrite E. eexists. split; [reflexivity|]. constructor. exact A.
    + assert (N : forall s, In s attribute_oids -> String.eqb typ s = false).
      { intros s I. apply String.eqb_neq. intros ->. exact (M I). }
      rewrite !N by (unfold attribute_oids; cbn [In]; tauto). rewrite map_res_same. eexists. split; [reflexivity|constructor].
  - intros t r H L. destruct H as [t version vsid valg vsigned vunsigned salg params signature sid alg ts1 signed ts2 unsigned H S A M1 S1 M2 S2].
    apply decoded_is in H; [|apart]. destruct (open_seq SignerInfo _ _ _ _ H eq_refl ltac:(alike)) as (b & d & C & K & Al).
    exists b. split; [exact C|]. pose proof (contents_of_shorter _ _ _ _ C) as LB. cbn [read_si]. rewrite K.
    fld 1%nat SignerInfo Al t1 D1 G1 F1 R1. pose proof (sid_read _ _ _ _ D1 S) as ES. cbv zeta in ES. rewrite R1, ES.
    fld 2%nat SignerInfo Al t2 D2 G2 F2 R2. rewrite R2. unfold algid_ok at 1. rewrite (alg_emb _ _ _ _ D2 A).
    fld 4%nat SignerInfo Al t4 D4 G4 F4 R4. rewrite R4. rewrite (algid_encodes _ _ _ _ _ D4).
    fld 5%nat SignerInfo Al t5 D5 G5 F5 R5. rewrite R5. unfold aOctetString. rewrite (prim_at _ _ _ _ D5).
    assert (Q1 : exists xs, (let? o := read_field SignerInfo (Ok d) "signed_attrs" items_of in
                             match o with None => Ok [] | Some l => Ok (map (read_attr f) l) end) = Ok (map (@Ok lz_attr) xs) /\
                            Forall2 ag_attr xs signed /\
                            match read_field SignerInfo (Ok d) "signed_attrs" contents_of with Ok (Some b) => b | _ => [] end
                            = concat (map tlv_dump ts1)).
    { destruct vsigned as [v|]; cbn [members] in M1; subst.
      - fld 3%nat SignerInfo Al t3 D3 G3 F3 R3. destruct (members_at CMSAttribute _ _ _ D3) as (I3 & C3). rewrite !F3, I3, C3. cbn [rbind].
        destruct (map_read _ (read_attr f) ag_attr _ _ S1) as (xs & E & Ag).
        { intros t' r' U Sa. apply IA; [exact Sa|]. pose proof (items_of_shorter _ _ _ _ _ I3 U). pose proof (children_shorter _ _ _ _ _ K G3). lia. }
        exists xs. rewrite E. auto.
      - rewrite !(at_absent 3 SignerInfo _ _ _ _ _ _ _ Al ltac:(names) eq_refl eq_refl). cbn [rbind]. inversion S1; subst.
        exists []. repeat split. constructor. }
    destruct Q1 as (xs & -> & Ag1 & ->).
    assert (Q2 : exists xs, (let? o := read_field SignerInfo (Ok d) "unsigned_attrs" items_of in
                             match o with None => Ok [] | Some l => Ok (map (read_attr f) l) end) = Ok (map (@Ok lz_attr) xs) /\
                            Forall2 ag_attr xs unsigned).
    { destruct vunsigned as [v|]; cbn [members] in M2; subst.
      - fld 6%nat SignerInfo Al t3 D3 G3 F3 R3. destruct (members_at CMSAttribute _ _ _ D3) as (I3 & C3). rewrite !F3, I3. cbn [rbind].
        destruct (map_read _ (read_attr f) ag_attr _ _ S2) as (ys & E & Ag).
        { intros t' r' U Sa. apply IA; [exact Sa|]. pose proof (items_of_shorter _ _ _ _ _ I3 U). pose proof (children_shorter _ _ _ _ _ K G3). lia. }
        exists ys. rewrite E. auto.
      - rewrite !(at_absent 6 SignerInfo _ _ _ _ _ _ _ Al ltac:(names) eq_refl eq_refl). cbn [rbind]. inversion S2; subst.
        exists []. repeat split. constructor. }
    destruct Q2 as (ys & -> & Ag2). rewrite called_is; constructor; assumption.
  - intros t r H L. destruct H as [t oid u s H E S|t oid H|t oid v sub H E S]; (apply decoded_is in H; [|apart]);
      destruct (open_seq ContentInfo _ _ _ _ H eq_refl ltac:(alike)) as (b & d & C & K & Al);
      exists b; (split; [exact C|]); pose proof (contents_of_shorter _ _ _ _ C) as LB; cbn [read_ci]; rewrite K;
      fld 0%nat ContentInfo Al t0 D0 G0 F0 R0; rewrite R0; unfold aObjectIdentifier; rewrite (oid_at _ _ _ _ D0); cbn [rbind]; rewrite name_signed, ?name_data.
    + fld 1%nat ContentInfo Al t1 D1 G1 F1 R1. rewrite F1. destruct (any_iff _ _ _ D1) as (w & W & U). injection W as <-. rewrite U. cbn [rbind].
      destruct (ID _ _ S) as (c & Cc & Ag). { pose proof (unwrap_shorter _ _ _ U). pose proof (children_shorter _ _ _ _ _ K G1). lia. }
      rewrite E, Cc. cbn [String.eqb Ascii.eqb Bool.eqb rbind].
      replace (called content_types oid) with "signed_data"; [constructor; exact Ag|].
      symmetry. rewrite called_is. apply native_signed. exact E.
    + rewrite (at_absent 1 ContentInfo _ _ _ _ _ _ _ Al ltac:(names) eq_refl eq_refl). cbn [rbind]. constructor.
    + fld 1%nat ContentInfo Al t1 D1 G1 F1 R1. rewrite F1. destruct (any_iff _ _ _ D1) as (w & W & U). rewrite U. cbn [rbind].
      rewrite (proj2 (String.eqb_neq _ _) E).
      replace (negb (String.eqb (oid_text oid) "1.2.840.113549.1.7.1")) with sub; [constructor|].
      destruct (String.eqb_spec (oid_text oid) "1.2.840.113549.1.7.1") as [X|X], sub; try reflexivity; cbn [negb];
        [exfalso; apply (proj1 S eq_refl); exact X|apply S; exact X].
  - intros t r H L. destruct H as [t version valgs typ o vcerts vcrls ts algs content ts1 certs ts2 signers H A M M1 S1 M2 S].
    apply decoded_is in H; [|apart]. destruct (open_seq SignedData _ _ _ _ H eq_refl ltac:(alike)) as (b & d & C & K & Al).
    exists b. split; [exact C|]. pose proof (contents_of_shorter _ _ _ _ C) as LB. cbn [read_sd]. rewrite K.
    fld 0%nat SignedData Al t0 D0 G0 F0 R0. rewrite R0. unfold aInteger. rewrite (prim_at _ _ _ _ D0). cbn [rbind].
    fld 1%nat SignedData Al t1 D1 G1 F1 R1. rewrite R1.
    destruct (setof_items _ _ _ _ D1) as (l1 & vs1 & E1 & I1 & Fa). injection E1 as <-.
    change (items_of (ASetOf AlgorithmIdentifier) Untagged t1) with (items_of (ASetOf X509Algorithm) Untagged t1). rewrite I1. cbn [rbind].
    rewrite (algs_at _ _ _ Fa A).
    fld 2%nat SignedData Al t2 D2 G2 F2 R2. rewrite R2.
    destruct (open_seq ContentInfo _ _ _ _ D2 eq_refl ltac:(alike)) as (b2 & d2 & C2 & K2 & Al2).
    change (contents_of (ASeq []) Untagged t2) with (contents_of ContentInfo Untagged t2). rewrite C2. cbn [rbind]. rewrite K2.
    fld 0%nat ContentInfo Al2 t3 D3 G3 F3 R3. rewrite R3. unfold aObjectIdentifier. rewrite (oid_at _ _ _ _ D3).
    destruct (content_read _ _ _ _ _ _ D2 M C2) as (v & -> & Ag).
    assert (Q1 : exists xs, (let? o := read_field SignedData (Ok d) "certificates" items_of in
                             match o with None => Ok [] | Some l => Ok (map read_choice l) end) = Ok (map (@Ok lz_choice) xs) /\
                            Forall2 ag_choice xs certs).
    { destruct vcerts as [w|]; cbn [members] in M1; subst.
      - fld 3%nat SignedData Al t4 D4 G4 F4 R4. destruct (members_at CertificateChoices _ _ _ D4) as (I4 & _). rewrite F4, I4. cbn [rbind].
        destruct (choices_read _ _ S1) as (xs & -> & X). exists xs. auto.
      - rewrite (at_absent 3 SignedData _ _ _ _ _ _ _ Al ltac:(names) eq_refl eq_refl). cbn [rbind]. inversion S1; subst.
        exists []. repeat split. constructor. }
    destruct Q1 as (xs & -> & Ag1).
    assert (Q2 : (let? o := read_field SignedData (Ok d) "crls" items_of in
                  Ok (match o with None => O | Some l => length l end)) = Ok (length ts2)).
    { destruct vcrls as [w|]; cbn [members] in M2; subst.
      - fld 4%nat SignedData Al t4 D4 G4 F4 R4. destruct (members_at AAny _ _ _ D4) as (I4 & _). rewrite F4, I4. reflexivity.
      - rewrite (at_absent 4 SignedData _ _ _ _ _ _ _ Al ltac:(names) eq_refl eq_refl). reflexivity. }
    rewrite Q2. clear Q2.
    fld 5%nat SignedData Al t5 D5 G5 F5 R5. rewrite R5. destruct (members_at SignerInfo _ _ _ D5) as (I5 & _). rewrite I5. cbn [rbind].
    destruct (map_res_read _ (fun t => let? b := contents_of SignerInfo Untagged t in Ok (read_si f b)) ag_si _ _ S) as (ys & E & Ag5).
    { intros t' r U Sx. destruct (IS _ _ Sx) as (b' & Cb & Ab).
      - pose proof (items_of_shorter _ _ _ _ _ I5 U). pose proof (children_shorter _ _ _ _ _ K G5). lia.
      - rewrite Cb. cbn [rbind]. eexists. split; [reflexivity|exact Ab]. }
    rewrite E. destruct content as [octets value]. cbn [rc_octets rc_value] in *. constructor; assumption.
Qed.

Theorem says_read b r depth pe : says b r ->
  lz_from_envelope der_loader depth pe b = from_envelope (fun _ => Ok r) depth pe b.
Proof.
  intros (t & L & S). destruct (held_inv _ _ _ L) as (t' & rest & P & D). apply decoded_is in D; [|constructor].
  cbn [decode unwrap rbind] in D. injection D as ->.
  destruct (proj1 (proj2 (proj2 (reading (Datatypes.S (size t))))) t r S ltac:(lia)) as (c & C & A).
  apply (ag_envelope _ _ _ _ (read_ci (length b) c)).
  - unfold der_loader. rewrite P. cbn [rbind]. rewrite C. reflexivity.
  - pose proof (contents_of_shorter _ _ _ _ C) as L1. pose proof (parse_tlv_shorter _ _ _ P) as L2.
    assert (length c < length b)%nat. { unfold size in *. lia. }
    destruct (nesting (length b) (Datatypes.S (size t))) as (_ & _ & N & _). rewrite N; [exact A|lia|lia].
Qed.

(** ** Encodings *)

Lemma types_distinct a : In a envelope_types -> distinct a.
Proof.
  unfold envelope_types. cbn [In]. intros H.
  repeat match type of H with _ \/ _ => destruct H as [<-|H] end; try destruct H;
    match goal with |- distinct ?x => let l := eval cbv in x in change (distinct l) end;
    (repeat match goal with
     | |- Forall _ _ => constructor
     | |- distinct _ => constructor
     | |- distinct_fields _ => constructor
     | |- distinct_alts _ => constructor
     end); intros; intro; told.
Qed.
Theorem encoded_is a v b rest : In a envelope_types -> encodes a Untagged v b ->
  load a (b ++ rest) = Ok v /\ exists t, holds_a AAny (b ++ rest) (VAny t) /\ is_a a t v /\ tlv_dump t = b.
Proof.
  intros I H. split; [exact (load_encodes _ _ _ _ (types_distinct a I) H)|]. destruct (proj1 (encodes_spells true) _ _ _ _ H) as (t & -> & V & Ht).
  exists t. split; [|split; [exact Ht|reflexivity]]. exists t, rest. split; [reflexivity|]. split; [exact V|]. repeat constructor.
Qed.
Lemma types_taggable : forallb taggable envelope_types = true.
Proof. vm_compute. reflexivity. Qed.
Theorem held_iff a b v : In a envelope_types -> load a b = Ok v <-> holds_a a b v.
Proof.
  intros I. apply load_iff; [exact (types_distinct a I)|exact (proj1 (forallb_forall _ _) types_taggable a I)].
Qed.
