(** Proofs about names that are decoded on demand during verification, continued: signatures
    and files. *)
From Verif Require Import Base Monad ModelFile ModelFingerprint ModelPE ModelX509 SpecX509 ProofsX509 ModelContext SpecContext
  ProofsContext ProofsContext2 ModelPkcs7 ModelAuthenticode SpecAuthenticode ProofsSigner ProofsSigner2 ProofsVerify ProofsVerify2
  ProofsVerify3 ProofsVerify4 SpecExact ModelName SpecName ProofsName ModelDemand SpecDemand ProofsDemand.
From Verif Require ProofsDemand2.

Notation meq := ProofsDemand2.meq.
Notation rel := ProofsDemand2.rel.
Notation nkeep := ProofsDemand2.keep.
Notation nkeeps := ProofsDemand2.keeps.

Definition counter_error : exn :=
  mkExn AuthenticodeCounterSignerError "An error occurred while validating the countersignature".

Section demand.
Context (E : env) (U : names) (H : Prop).
Context (F : faithful U) (N : foreign_names U).
Context (HR : H -> rooted E).

(** ** The check of a countersignature *)
Section counter.
Context (J : world -> Prop) (x : nat) (JL : forall r w, J w -> J (fst (store_load r w)))
  (JP : forall c w, J w -> J (fst (put_context x c w))).

Lemma meq_check a c tr : fine_signer U H (signer_of c) ->
  meq U H J (nd_check_countersigner E U a c x) (check_countersigner E a c x tr).
Proof.
  intros Fi. unfold nd_check_countersigner, check_countersigner.
  destruct (negb (check_message_digest E c _)); [apply ProofsDemand2.meq_keeps, ProofsDemand2.keeps_raise|].
  apply ProofsDemand2.meq_bind; [apply ProofsDemand2.meq_keeps, ProofsDemand2.keeps_set_timestamp; assumption|]. intros _.
  apply ProofsDemand2.meq_bind; [|intros _; apply ProofsDemand2.meq_keeps, ProofsDemand2.keeps_ret].
  destruct c as [i|t]; cbn [nd_cs_verify cs_verify signer_of] in *; [now apply ProofsDemand2.meq_signer|].
  unfold nd_rsd_verify, rsd_verify. destruct (negb (option_bytes_eqb _ _)); [apply ProofsDemand2.meq_keeps, ProofsDemand2.keeps_raise|].
  unfold mbind at 1, mret. now apply ProofsDemand2.meq_signer.
Qed.
End counter.

(** ** Signatures *)
Section signature.
Context (J : world -> Prop) (JL : forall r w, J w -> J (fst (store_load r w)))
  (JP : forall x c w, J w -> J (fst (put_context x c w)))
  (JS : forall s w, J w -> J (fst (alloc_store s w)))
  (JC : forall c w, J w -> J (fst (alloc_context c w)))
  (JF : forall w w', same_objects w w' -> J w -> J w').

Lemma keeps_alloc d : nkeeps U H J (alloc_store (embedded_store d)).
Proof.
  intros w [I1 I2]. split; [now apply JS|]. intros h r s Hs T. unfold alloc_store in Hs. cbn [fst w_stores] in Hs.
  destruct (Nat.lt_ge_cases r (length (w_stores w))) as [L|L].
  - rewrite nth_error_app1 in Hs by exact L. exact (I2 h r s Hs T).
  - rewrite nth_error_app2 in Hs by exact L. destruct (r - length (w_stores w))%nat as [|[|k]]; try discriminate.
    injection Hs as <-. discriminate.
Qed.
Lemma keeps_new l u k : nkeeps U H J (new_context l u k).
Proof.
  unfold new_context. destruct (kw_valid k); [|apply ProofsDemand2.keeps_raise]. intros w [I1 I2]. split; [now apply JC|exact I2].
Qed.
Lemma keeps_add y r : nkeeps U H J (add_store y r).
Proof.
  apply ProofsDemand2.keeps_bind; [apply ProofsDemand2.keeps_get_context|]. intros c w [I1 I2]. split; [now apply JP|exact I2].
Qed.
Lemma keeps_prepare a v : nkeeps U H J (prepare_contexts a v).
Proof.
  apply ProofsDemand2.keeps_bind; [apply keeps_alloc|]. intros certs. apply ProofsDemand2.keeps_bind.
  - destruct (va_context v); [apply ProofsDemand2.keeps_ret|apply keeps_new].
  - intros x. destruct (va_cs_context v); [apply ProofsDemand2.keeps_ret|].
    destruct (asi_cs (asd_signer a)) as [c|]; [|apply ProofsDemand2.keeps_ret].
    destruct (String.eqb (va_mode v) "ignore"); [apply ProofsDemand2.keeps_ret|].
    apply ProofsDemand2.keeps_bind; [apply keeps_new|]. intros y. destruct c as [i|t]; [apply ProofsDemand2.keeps_ret|].
    apply ProofsDemand2.keeps_bind; [apply keeps_alloc|]. intros more.
    apply ProofsDemand2.keeps_bind; [apply keeps_add|]. intros _. apply ProofsDemand2.keeps_ret.
Qed.
Lemma keeps_file w w' : same_objects w w' -> nkeep U H J w -> nkeep U H J w'.
Proof. intros A [I1 I2]. split; [eapply JF; eassumption|]. intros h. unfold legible_trust. rewrite (proj1 A). exact (I2 h). Qed.
Lemma keeps_digests fuel a expected : nkeeps U H J (check_digests E fuel a expected).
Proof.
  intros w I. destruct (check_digests E fuel a expected w) as [w' r] eqn:D. cbn [fst].
  eapply keeps_file; [eapply check_digests_objects; exact D|exact I].
Qed.

Definition fine_signature (a : asd) : Prop := H -> legible_signature U a.

(** The countersignature was disregarded because of a name. *)
Definition disregarded (a : asd) (v : vargs) (fuel : nat) (expected : option bytes) (w : world) (x : nat) (w2 : world) : Prop :=
  permissive (va_mode v) /\
  exists y c w0 w1 e, prepare_contexts a v w = (w0, Ok (x, Some y)) /\ check_digests E fuel a expected w0 = (w1, Ok tt) /\
    asi_cs (asd_signer a) = Some c /\ nd_check_countersigner E U a c y w1 = (w2, Err e) /\ undecodable U e.

Lemma asd_cases fuel a expected v w : fine_signature a -> nkeep U H J w ->
  rel U H J (nd_asd_verify E U fuel a expected v w) (asd_verify E fuel a expected v w) \/
  (~ H /\ va_mode v = "strict" /\ (exists c, asi_cs (asd_signer a) = Some c) /\ (exists e, undecodable U e) /\
   exists w', nd_asd_verify E U fuel a expected v w = (w', Err counter_error) /\ nkeep U H J w') \/
  (~ H /\ exists x w2, disregarded a v fuel expected w x w2 /\
   nd_asd_verify E U fuel a expected v w = nd_signer_verify E U true (asi_info (asd_signer a)) x None w2 /\
   rel U H J (nd_asd_verify E U fuel a expected v w) (signer_verify E true (asi_info (asd_signer a)) x None w2)).
Proof.
  intros Fa I. unfold nd_asd_verify, asd_verify, mbind.
  pose proof (keeps_prepare a v w I) as I0. destruct (prepare_contexts a v w) as [w0 [[x y]|e]] eqn:P; cbn [fst snd] in *;
    [|left; now apply ProofsDemand2.rel_same].
  pose proof (keeps_digests fuel a expected w0 I0) as I1. destruct (check_digests E fuel a expected w0) as [w1 [[]|e]] eqn:D; cbn [fst] in *;
    [|left; now apply ProofsDemand2.rel_same].
  assert (fine_signer U H (asi_info (asd_signer a))) as Fi by (intros h; apply (Fa h)).
  assert (forall t w3, nkeep U H J w3 -> rel U H J (nd_signer_verify E U true (asi_info (asd_signer a)) x t w3)
    (signer_verify E true (asi_info (asd_signer a)) x t w3)) as G.
  { intros t. apply ProofsDemand2.meq_signer; auto. }
  unfold nd_countersignature_time, countersignature_time. destruct (asi_cs (asd_signer a)) as [c|] eqn:Ec; [|left; now apply G].
  destruct (String.eqb_spec (va_mode v) "ignore") as [Ei|Ei]; [left; now apply G|].
  destruct y as [y|]; [|left; now apply ProofsDemand2.rel_same].
  assert (fine_signer U H (signer_of c)) as Fc by (intros h; apply (proj2 (Fa h)); exact Ec).
  destruct (meq_check J y JL (JP y) a c (va_trusted v) Fc w1 I1) as [[R I2]|(w2 & e & R & B & I2)].
  - rewrite R. left. destruct (check_countersigner E a c y (va_trusted v) w1) as [w2 [[]|e]]; cbn [fst] in I2; [now apply G|].
    destruct (catches Exception_ e); [|now apply ProofsDemand2.rel_same].
    destruct (String.eqb (va_mode v) "strict"); [now apply ProofsDemand2.rel_same|now apply G].
  - rewrite R. destruct (bad_foreign U H N e B) as [O _]. unfold catches. rewrite O. destruct B as [B1 B2]. right.
    destruct (String.eqb_spec (va_mode v) "strict") as [Es|Es].
    + left. split; [exact B2|]. split; [exact Es|]. split; [now exists c|]. split; [now exists e|]. exists w2. split; [reflexivity|exact I2].
    + right. split; [exact B2|]. exists x, w2. split.
      * split; [split; assumption|]. exists y, c, w0, w1, e. auto.
      * split; [reflexivity|]. now apply G.
Qed.
End signature.
End demand.
