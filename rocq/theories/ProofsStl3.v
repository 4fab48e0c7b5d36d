(** Certificate trust lists that are held by a file. *)
From Verif Require Import Base Bytes Monad ModelX509 ModelContext ModelPkcs7 ModelLazy ModelCtl ModelDer ModelSpc ModelDecode ModelStl
  SpecContext SpecPkcs7 SpecCtl SpecStl SpecEnvelope ProofsEnvelope ProofsEnvelope2 ProofsX509 ProofsX509b ProofsCTL ProofsStl ProofsCtl2.

Lemma choices_can_read ts cs : Forall2 choice_says ts cs -> can_read ts cs.
Proof.
  intros F. destruct (choices_read _ _ F) as (xs & E & A). unfold can_read. rewrite E. clear E F ts.
  induction A as [|x c xs cs A F (found & IH1 & IH2)]; [exists []; split; [reflexivity|constructor]|].
  destruct x as [lz|k], c as [c|k']; cbn [ag_choice] in A; try contradiction.
  - exists (c :: found). cbn [map lz_certificates rbind]. rewrite A. cbn [rbind]. rewrite IH1. split; [reflexivity|constructor; exact IH2].
  - exists found. cbn [map lz_certificates rbind]. split; [exact IH1|constructor; exact IH2].
Qed.
Lemma certificates_held o cs : certificates_mean (Forall2 choice_says) o cs -> certificates_mean can_read o cs.
Proof. destruct o as [x|]; cbn [certificates_mean]; [|auto]. intros (ts & E & F). exists ts. split; [exact E|exact (choices_can_read _ _ F)]. Qed.
Lemma stl_held data body version alg v cs : stl_file (Forall2 choice_says) data body version alg v cs -> stl_file can_read data body version alg v cs.
Proof.
  intros (o & b & x & typ & certs & crls & signers & H1 & H2 & H3 & H4 & H5 & H6). exists o, b, x, typ, certs, crls, signers.
  repeat (split; [assumption|]). exact (certificates_held _ _ H6).
Qed.
Lemma trust_list_held data alg cs r : holds_trust_list data alg cs r -> holds_list can_read data alg cs r.
Proof.
  intros [(v & F & M)|(version & b & v & N & F & L)].
  - left. exists v. split; [exact (stl_held _ _ _ _ _ _ F)|exact M].
  - right. exists version, b, v. split; [exact N|]. split; [exact (stl_held _ _ _ _ _ _ F)|exact L].
Qed.

Lemma opened data alg cs r t : holds_trust_list data alg cs r ->
  der_from_stl_file data = Ok t <->
  get_digest_algorithm alg = Ok (tl_digest_alg t) /\ tl_certificates t = the_certificates cs /\
  tl_usage t = rl_usage r /\ tl_identifier t = rl_identifier r /\ tl_sequence t = rl_sequence r /\
  tl_this_update t = rl_this_update r /\ tl_next_update t = rl_next_update r /\
  parse_ctl (rl_algorithm r) (rl_subjects r) = Ok (tl_ctl t).
Proof.
  intro H. unfold der_from_stl_file. rewrite (file_means CertificateTrustListParseError _ _ _ _ (trust_list_held _ _ _ _ H)).
  pose proof (c60_file (fun _ => Ok (StlSigned [alg] "microsoft_ctl" (Some r) cs)) [] t) as F.
  unfold from_stl_file in F. cbn [rbind] in F. rewrite F. split.
  - intros (a0 & c & certs & E & G). injection E as <- <- <-. exact G.
  - intro G. exists alg, r, cs. split; [reflexivity|exact G].
Qed.

Lemma c72_parsed data alg cs r t : holds_trust_list data alg cs r -> der_from_stl_file data = Ok t ->
  parse_ctl (rl_algorithm r) (rl_subjects r) = Ok (tl_ctl t).
Proof. intros H Ht. apply (proj1 (opened _ _ _ _ _ H) Ht). Qed.

Lemma algorithm_ok n : (exists x, get_digest_algorithm n = Ok x) <->
  In (alg_name n) ["md5"; "sha1"; "sha256"; "sha384"; "sha512"] /\ alg_has_params n = false.
Proof.
  unfold get_digest_algorithm. destruct (str_mem (alg_name n) accepted_digest_algorithms) eqn:E; cbn [negb].
  - apply str_mem_in in E. destruct (alg_has_params n); split.
    + intros [x H]. discriminate H.
    + intros [_ H]. discriminate H.
    + intros _. split; [|reflexivity]. unfold accepted_digest_algorithms in E. cbn in *. tauto.
    + intros _. eauto.
  - split; [intros [x H]; discriminate H|]. intros [H _]. exfalso.
    assert (In (alg_name n) accepted_digest_algorithms) as I by (unfold accepted_digest_algorithms; cbn in *; tauto).
    apply str_mem_in in I. congruence.
Qed.

Lemma c72_readable data alg cs r : holds_trust_list data alg cs r ->
  (exists t, der_from_stl_file data = Ok t) <->
  (forall n, In n [alg; rl_algorithm r] ->
     In (alg_name n) ["md5"; "sha1"; "sha256"; "sha384"; "sha512"] /\ alg_has_params n = false) /\
  Forall (fun e => Forall well_formed (rs_attributes e)) (rl_subjects r).
Proof.
  intro H. split.
  - intros [t Ht]. apply (opened _ _ _ _ _ H) in Ht. destruct Ht as (Ha & _ & _ & _ & _ & _ & _ & Hp).
    destruct (proj1 (c60_readable _ _) (ex_intro _ _ Hp)) as [Hl Hw]. split; [|exact Hw].
    intros n [<-|[<-|[]]]; apply algorithm_ok; eauto.
  - intros [Hn Hw].
    destruct (proj2 (algorithm_ok alg) (Hn _ (or_introl eq_refl))) as [x Hx].
    destruct (proj2 (c60_readable (rl_algorithm r) (rl_subjects r))
      (conj (proj2 (algorithm_ok _) (Hn _ (or_intror (or_introl eq_refl)))) Hw)) as [t Ht].
    exists (mkTrustList x (the_certificates cs) (rl_usage r) (rl_identifier r) (rl_sequence r) (rl_this_update r) (rl_next_update r) t).
    apply (opened _ _ _ _ _ H). cbn. auto 9.
Qed.

Lemma c72_read data alg cs r t : holds_trust_list data alg cs r -> der_from_stl_file data = Ok t ->
  tl_digest_alg t = alg_name alg /\ tl_certificates t = the_certificates cs /\
  tl_usage t = rl_usage r /\ tl_identifier t = rl_identifier r /\ tl_sequence t = rl_sequence r /\
  tl_this_update t = rl_this_update r /\ tl_next_update t = rl_next_update r /\
  ctl_algorithm (tl_ctl t) = alg_name (rl_algorithm r) /\
  NoDup (map ts_identifier (subjects (tl_ctl t))) /\
  forall s, In s (subjects (tl_ctl t)) <-> exists e, last_entry (rl_subjects r) (rs_identifier e) e /\ SpecCtl.reads e s.
Proof.
  intros H Ht. destruct (proj1 (opened _ _ _ _ _ H) Ht) as (Ha & Hc & Hu & Hi & Hs & Htu & Hnu & Hp).
  assert (tl_digest_alg t = alg_name alg).
  { unfold get_digest_algorithm in Ha. destruct (negb _); [discriminate Ha|]. destruct (alg_has_params alg); [discriminate Ha|].
    injection Ha as Ha. symmetry. exact Ha. }
  destruct (parse_ctl_parts _ _ _ Hp) as [Hal _]. destruct (c60_subjects _ _ _ Hp) as [N S].
  auto 12.
Qed.
