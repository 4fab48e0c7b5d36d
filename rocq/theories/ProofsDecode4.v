(** What a signature vouches for, through the decoder. *)
From Verif Require Import Base Bytes Monad ModelFile ModelFingerprint ModelPE SpecFingerprint SpecPE
  ModelX509 SpecX509 ProofsFingerprint ProofsPE ProofsPE2 ProofsPE3 ModelContext SpecContext ProofsContext ProofsContext2
  ModelPkcs7 ModelLazy ModelLazyFile ModelAuthenticode SpecPkcs7 SpecAuthenticode ProofsSigner ProofsSigner2 ProofsVerify ProofsVerify2 ProofsVerify3
  ProofsVerify5 SpecSignedPE ProofsSignedPE ProofsSignedPE2 ProofsSignedPE3 SpecWhole ProofsWhole ProofsWhole2 ProofsWhole3 ProofsLazy ProofsLazy2
  ModelDer ModelDecode SpecLazy SpecDer ProofsDer ProofsDecode ProofsDecode2 ProofsDecode3 PropertiesLazy.

Lemma each_accepted load E depth fuel mode expected ign v w out a c :
  known_names E expected -> verify_result load E depth fuel mode expected ign v w = Ok out -> In (a, c) out ->
  algorithms_agree a /\ content_matches E (asd_data a) (asi_info (asd_signer a)) /\
  exists b top, from_envelope load depth true b = Ok top /\ In a (recursive_nested true top).
Proof.
  unfold verify_result. intros Hk H Hac.
  destruct (iterate load depth true ign fuel (w_file w)) as [[l x]|] eqn:Ei.
  2: { exfalso. rewrite iterate_eq in Ei. unfold pe_open_verify in H. rewrite signed_pe_init_eq in H.
       unfold pe_verify, signed_datas, iter_signed_datas, mbind in H. cbn [w_file] in H.
       destruct (iter_loop _ _ _ _ _ _ _ _) as [[? [? ?]]|]; discriminate. }
  destruct (open_eq load E depth fuel mode expected ign v w l x Ei) as (w1 & _ & Hw). rewrite (Hw fuel (le_n _)) in H.
  destruct x as [e|]; [discriminate H|]. destruct l as [|a0 l]; [discriminate H|]. rewrite <- (Hw fuel (le_n _)) in H. clear Hw w1.
  assert (Hit : terminates_with (fun k => iterate load depth true ign k (w_file w)) (a0 :: l, None)).
  { exists fuel. intros m Hm. eapply iterate_mono; eassumption. }
  destruct (verified load E depth mode expected ign v w (a0 :: l) Hit) as (sel & hash & Hc & Hn & Hin & Hdue & Hall & _);
    [discriminate|assumption|].
  destruct (pe_open_verify load E depth fuel mode expected ign v w) as [[w' d'] r] eqn:Ev. cbn [snd] in H. subst r.
  destruct (Hall fuel w' d' (Ok out) Ev) as [[Hx _]|(p & Ho & _)]; [discriminate Hx|].
  apply outcome_ok in Ho as [Ho1 Ho2]; [|destruct sel; [now elim Hn|discriminate]].
  apply Ho2 in Hac. apply in_verdicts_any in Hac as (Ha & w2 & Hv).
  destruct (asd_verify E 0 a (Some (hash (digest_of a))) v w2) as [w3 r3] eqn:Hv'. cbn [snd] in Hv. subst r3.
  destruct (c25 _ _ _ _ _ _ _ _ Hv') as (Hag & _ & Hcm). split; [exact Hag|]. split; [exact Hcm|].
  destruct (table_ok _ _ _ _ _ _ a Hit (Hin a Ha)) as [(es & tail & n & q & T1 & R & (W1 & (i & q' & -> & Hlt) & _) & Hq) _].
  cbn [in_table] in Hq. destruct (nth_error es i) as [ce|]; [|discriminate Hq].
  destruct (ce_type ce =? 2); [|discriminate Hq].
  destruct (from_envelope load depth true (ce_certificate ce)) as [top|] eqn:Ee; [|discriminate Hq].
  exists (ce_certificate ce), top. split; [exact Ee|]. eapply at_path_recursive. exact Hq.
Qed.

Lemma lz_each_accepted E depth fuel mode expected ign v w out a c :
  known_names E expected -> lz_verify_result der_loader E depth fuel mode expected ign v w = Ok out -> In (a, c) out ->
  algorithms_agree a /\ content_matches E (asd_data a) (asi_info (asd_signer a)) /\ exists b, opened b a.
Proof.
  intros Hk H Hac. unfold lz_verify_result in H.
  rewrite <- (agree_verify der_loader (complete der_loader depth true) depth (complete_spec der_loader depth true)) in H.
  destruct (each_accepted _ _ _ _ _ _ _ _ _ _ _ _ Hk H Hac) as (A1 & A2 & b & top & B1 & B2).
  split; [exact A1|]. split; [exact A2|]. exists b, depth, true, top. rewrite <- complete_spec. auto.
Qed.

Theorem image_determined E depth fuel mode ign v w out depth' fuel' mode' ign' v' w' out' a c a' c' :
  lz_verify_result der_loader E depth fuel mode None ign v w = Ok out ->
  lz_verify_result der_loader E depth' fuel' mode' None ign' v' w' = Ok out' ->
  In (a, c) out -> In (a', c') out' ->
  si_encoded (asi_info (asd_signer a)) = si_encoded (asi_info (asd_signer a')) ->
  collides E (digest_of a) (digest_of a') (sd_octets (asd_data a)) (sd_octets (asd_data a')) \/
  (asd_spc a = asd_spc a' /\ digest_of a = digest_of a' /\
   exists d d', snd (omit_sections (w_file w)) = Ok (Some d) /\ snd (omit_sections (w_file w')) = Ok (Some d') /\
     let x := kept (map snd d) (f_bytes (w_file w)) in
     let y := kept (map snd d') (f_bytes (w_file w')) in
     x = y \/ collides E (digest_of a) (digest_of a) x y).
Proof.
  intros H H' Hac Hac' Hs.
  destruct (lz_each_accepted _ _ _ _ _ _ _ _ _ _ _ (no_names E) H Hac) as (A1 & A2 & b & Ho).
  destruct (lz_each_accepted _ _ _ _ _ _ _ _ _ _ _ (no_names E) H' Hac') as (A1' & A2' & b' & Ho').
  destruct (attributes_determined _ _ _ _ _ _ Ho Ho' (or_introl eq_refl) (or_introl eq_refl) Hs) as (Hm & _).
  unfold content_matches in A2, A2'. rewrite A2, A2' in Hm. injection Hm as Hm.
  destruct (list_eq_dec Byte.byte_eq_dec (sd_octets (asd_data a)) (sd_octets (asd_data a'))) as [Eo|No];
    [right|left; split; [exact No|exact Hm]].
  pose proof (spc_determined _ _ _ _ Ho Ho' Eo) as Es. split; [exact Es|].
  assert (Ed : digest_of a = digest_of a').
  { unfold algorithms_agree in A1, A1'. unfold digest_of. destruct A1 as [A1 A3], A1' as [A1' A3']. congruence. }
  split; [exact Ed|].
  unfold lz_verify_result in H, H'.
  rewrite <- (agree_verify der_loader (complete der_loader depth true) depth (complete_spec der_loader depth true)) in H.
  rewrite <- (agree_verify der_loader (complete der_loader depth' true) depth' (complete_spec der_loader depth' true)) in H'.
  assert (Hd : sp_digest (asd_spc a) = sp_digest (asd_spc a')) by now rewrite Es.
  destruct (c57_one _ _ _ _ _ _ _ _ _ _ _ _ _ _ _ _ _ _ _ _ _ H H' Hac Hac' Ed Hd) as (d & d' & O & O' & Hh).
  exists d, d'. split; [exact O|]. split; [exact O'|]. cbn zeta.
  destruct (list_eq_dec Byte.byte_eq_dec (kept (map snd d) (f_bytes (w_file w))) (kept (map snd d') (f_bytes (w_file w')))) as [Ek|Nk];
    [left; exact Ek|right; split; [exact Nk|exact Hh]].
Qed.

Theorem stamp_determined E b b' a a' t t' :
  opened b a -> opened b' a' -> token_of a t -> token_of a' t' ->
  content_matches E (r_data t) (r_signer t) -> content_matches E (r_data t') (r_signer t') ->
  si_encoded (r_signer t) = si_encoded (r_signer t') ->
  r_tst t = r_tst t' \/
  collides E (sd_digest_alg (r_data t)) (sd_digest_alg (r_data t')) (sd_octets (r_data t)) (sd_octets (r_data t')).
Proof.
  intros Ho Ho' Ht Ht' M M' Hs.
  assert (I : signer_of a (r_signer t)) by (right; exists (CSToken t); split; [exact Ht|reflexivity]).
  assert (I' : signer_of a' (r_signer t')) by (right; exists (CSToken t'); split; [exact Ht'|reflexivity]).
  destruct (attributes_determined _ _ _ _ _ _ Ho Ho' I I' Hs) as (Hm & _).
  unfold content_matches in M, M'. rewrite M, M' in Hm. injection Hm as Hm.
  destruct (list_eq_dec Byte.byte_eq_dec (sd_octets (r_data t)) (sd_octets (r_data t'))) as [Eo|No].
  - left. exact (tst_determined _ _ _ _ _ _ Ho Ho' Ht Ht' Eo).
  - right. split; [exact No|exact Hm].
Qed.

Theorem der_nesting n b : (length b <= n)%nat -> der_loader_with n b = der_loader b.
Proof.
  intros Hn. unfold der_loader_with, der_loader. destruct (parse_tlv b) as [[t r]|] eqn:P; [|reflexivity]. cbn [rbind].
  destruct (contents_of ModelSpc.ContentInfo Untagged t) as [c|] eqn:C; [|reflexivity]. cbn [rbind]. f_equal.
  apply parse_tlv_shorter in P. apply contents_of_shorter in C.
  destruct (nesting n (length b)) as (_ & _ & N & _). apply N; lia.
Qed.

Theorem der_errors depth pe b e : lz_from_envelope der_loader depth pe b = Err e -> In (e_class e) (ValueError :: parse_errors).
Proof.
  intros H. destruct (C67_errors VE der_loader depth pe b e (reads_der b) H) as [V|V]; [left; symmetry; exact V|right; exact V].
Qed.
Lemma complete_errors depth b e : complete der_loader depth true b = Err e -> In (e_class e) (ValueError :: parse_errors).
Proof.
  unfold complete. destruct (lz_from_envelope der_loader depth true b) as [a|e'] eqn:H.
  - intros K. left. destruct (der_loader b) as [[t [[s|]|]]|]; try discriminate K; injection K as <-; reflexivity.
  - intros [= <-]. eapply der_errors. exact H.
Qed.

Theorem der_file E depth mode expected ign v w :
  well_formed w v ->
  exists N x,
    (forall fuel, (N <= fuel)%nat -> lz_pe_open_verify der_loader E depth fuel mode expected ign v w = x) /\
    forall e, snd x = Err e ->
      In (e_class e) (ValueError :: SignedPEParseError :: AuthenticodeNotSignedError :: parse_errors ++ verify_errors) \/
      (e_class e = AttributeError /\ ~ known_names E expected) \/ foreign silent E (w_stores w) e.
Proof.
  intros Hw. destruct (c56 (complete der_loader depth true) E depth mode expected ign v w Hw) as (N & x & H1 & H2).
  exists N, x. split.
  - intros fuel Hf. rewrite <- (agree_verify der_loader (complete der_loader depth true) depth (complete_spec der_loader depth true)).
    apply H1. exact Hf.
  - assert (W : forall k, In k (ValueError :: parse_errors) ->
              In k (ValueError :: SignedPEParseError :: AuthenticodeNotSignedError :: parse_errors ++ verify_errors)).
    { intros k [<-|Hk]; [left; reflexivity|]. do 3 right. apply in_or_app. left. exact Hk. }
    intros e He. destruct (H2 e He) as [(l & _ & [K|(b & K)])|[[_ K]|(l & _ & _ & [K|[K|K]])]].
    + left. destruct K as [K|K]; [right; left; exact K|]. do 3 right. apply in_or_app. left. exact K.
    + left. apply W. eapply complete_errors. exact K.
    + left. rewrite K. do 2 right. left. reflexivity.
    + right. left. exact K.
    + left. do 3 right. apply in_or_app. right. exact K.
    + destruct K as [b K|k K|k s d h K I|k s d h K I|k s d h K I|ts m o K|ts m o c is ku eku y K I|s l' cs I1 I2 I3].
      * left. apply W. eapply complete_errors. exact K.
      * right. right. eapply foreign_key. exact K.
      * right. right. eapply foreign_rsa; eassumption.
      * right. right. eapply foreign_dsa; eassumption.
      * right. right. eapply foreign_ecdsa; eassumption.
      * right. right. eapply foreign_setup. eassumption.
      * right. right. eapply foreign_validate; eassumption.
      * right. right. eapply foreign_store; eassumption.
Qed.
