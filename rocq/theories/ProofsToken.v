(** Proofs about the verification of signers and time-stamp tokens on their own. *)
From Verif Require Import Base Bytes Monad ModelFile ModelFingerprint ModelPE SpecFingerprint SpecPE
  ModelX509 SpecX509 ProofsFingerprint ProofsX509b ProofsPE ProofsPE2 ProofsPE3 ModelContext SpecContext ProofsContext ProofsContext2
  ModelPkcs7 ModelAuthenticode SpecPkcs7 SpecAuthenticode ProofsSigner ProofsSigner2 ProofsVerify ProofsVerify2 ProofsVerify3
  ProofsVerify5 SpecSignedPE SpecComplete ProofsComplete ProofsComplete2 SpecExact ProofsExact ProofsExact2.

(** ** Signers *)

Theorem signer_cases E auth i x st w cx l :
  lawful E -> nth_error (w_contexts w) x = Some cx -> stores_at w (x_stores cx) l -> sound l ->
  (exists chains, snd (signer_verify E auth i x st w) = Ok chains /\ chains_of E i cx l (exempted auth) st chains /\
     forall other, chains_of E i cx l (exempted auth) st other -> other = chains) \/
  ((forall chains, ~ chains_of E i cx l (exempted auth) st chains) /\
   exists e, snd (signer_verify E auth i x st w) = Err e /\ ordinary e).
Proof.
  intros Lw Hx Hr (Rd & U). destruct (signer_verify_pure E auth i x st w cx l Hx Hr Rd) as (w' & _ & ->). cbn [snd].
  exact (p_signer_search E auth i l st Lw U cx).
Qed.

(** ** Tokens *)

Lemma token_given E t given trusted w cx l :
  token_context w t given trusted cx l ->
  content_matches E (r_data t) (r_signer t) ->
  exists w1 x, nth_error (w_contexts w1) x = Some cx /\ stores_at w1 (x_stores cx) l /\
    rsd_verify E t given trusted w = signer_verify E false (r_signer t) x None w1.
Proof.
  intros C M. unfold rsd_verify. unfold content_matches in M.
  rewrite (proj2 (option_bytes_eqb_spec (content_digest E (r_data t)) (si_message_digest (r_signer t)))) by exact M.
  cbn [negb]. unfold mbind, token_context in *. destruct given as [x|].
  - exists w, x. destruct C as [Hx Hr]. auto.
  - destruct C as (ts & Ht & -> & ->). unfold alloc_store, new_context. cbn.
    eexists _, _. split; [|split; [|reflexivity]].
    + cbn [w_contexts]. rewrite nth_error_app2, Nat.sub_diag by lia. reflexivity.
    + apply Forall2_cons; [|apply Forall2_cons; [|apply Forall2_nil]]; cbn [w_stores].
      * rewrite nth_error_app1; [exact Ht|]. apply nth_error_Some. congruence.
      * rewrite nth_error_app2, Nat.sub_diag by lia. reflexivity.
Qed.

Lemma token_context_fun w t given trusted cx l cx' l' :
  token_context w t given trusted cx l -> token_context w t given trusted cx' l' -> cx' = cx /\ l' = l.
Proof.
  unfold token_context. destruct given as [x|].
  - intros [H R] [H' R']. assert (cx' = cx) as -> by congruence. split; [reflexivity|].
    clear H H'. unfold stores_at in *. revert l' R'.
    induction R as [|r s rs l0 Hr R IH]; intros k R'; inversion R'; subst; [reflexivity|]. f_equal; [congruence|]. now apply IH.
  - intros (ts & H & -> & ->) (ts' & H' & -> & ->). split; congruence.
Qed.

Theorem token_cases E t given trusted w cx l :
  lawful E -> token_context w t given trusted cx l -> sound l ->
  (exists chains, snd (rsd_verify E t given trusted w) = Ok chains /\ token_authentic E w t given trusted chains /\
     forall other, token_authentic E w t given trusted other -> other = chains) \/
  ((forall chains, ~ token_authentic E w t given trusted chains) /\
   exists e, snd (rsd_verify E t given trusted w) = Err e /\ ordinary e).
Proof.
  intros Lw C So.
  assert (Inv : forall chains, token_authentic E w t given trusted chains ->
    content_matches E (r_data t) (r_signer t) /\ chains_of E (r_signer t) cx l none_exempt None chains).
  { intros chains (M & cx' & l' & C' & Ch). destruct (token_context_fun _ _ _ _ _ _ _ _ C C') as [-> ->]. auto. }
  destruct (option_bytes_eqb (content_digest E (r_data t)) (si_message_digest (r_signer t))) eqn:Q.
  - assert (M : content_matches E (r_data t) (r_signer t)).
    { unfold content_matches. apply option_bytes_eqb_spec in Q. rewrite Q. reflexivity. }
    destruct (token_given E t given trusted w cx l C M) as (w1 & x & Hx & Hr & ->).
    destruct (signer_cases E false (r_signer t) x None w1 cx l Lw Hx Hr So) as [(chains & R & Ch & Un)|(N & e & R & O)].
    + left. exists chains. split; [exact R|]. split; [split; [exact M|]; exists cx, l; auto|].
      intros other Ho. apply Un, Inv, Ho.
    + right. split; [|exists e; auto]. intros chains Hc. exact (N chains (proj2 (Inv _ Hc))).
  - right. split.
    + intros chains (M & _). unfold content_matches in M. rewrite M in Q.
      assert (option_bytes_eqb (content_digest E (r_data t)) (Some (e_hash E (sd_digest_alg (r_data t)) (sd_octets (r_data t)))) = true)
        by (apply option_bytes_eqb_spec; reflexivity). congruence.
    + unfold rsd_verify. rewrite Q. cbn [negb]. eexists. split; reflexivity.
Qed.

(** ** Hashes computed from the file *)

Lemma check_computed E a w :
  exists N, forall fuel, (N <= fuel)%nat ->
  (exists h, expected_hash E (f_bytes (w_file w)) a None h /\
     (forall h', expected_hash E (f_bytes (w_file w)) a None h' -> h' = h) /\
     forall fuel', snd (check_digests E fuel a None w) = snd (check_digests E fuel' a (Some h) w)) \/
  ((forall h, ~ expected_hash E (f_bytes (w_file w)) a None h) /\
   exists e, snd (check_digests E fuel a None w) = Err e /\ e <> out_of_fuel).
Proof.
  destruct (compute_hash_enough E (sd_digest_alg (asd_data a)) w) as [N H].
  destruct (check_digests_enough E a None w) as [N' H'].
  exists (N + N')%nat. intros fuel Hf. specialize (H fuel ltac:(lia)). specialize (H' fuel ltac:(lia)).
  unfold check_digests in *. cbv zeta in *. unfold mbind in *. cbn [expected_hash] in *.
  destruct (asd_pe a).
  2:{ right. split; [intros h [[=] _]|]. destruct (negb _); [eexists; split; [reflexivity|discriminate]|].
      destruct (negb _); (eexists; split; [reflexivity|discriminate]). }
  destruct (compute_hash E fuel (sd_digest_alg (asd_data a)) w) as [w1 r] eqn:Ec.
  destruct (compute_hash_spec _ _ _ _ _ _ Ec) as (_ & _ & _ & C & D). cbn [snd] in H. destruct r as [h|e].
  - left. exists h. split; [auto|]. split.
    + intros h' [_ A]. destruct (D h' A) as [[= <-]|[=]]. reflexivity.
    + intros fuel'. clear - Ec. destruct (negb (String.eqb _ (sp_digest_alg _))); [reflexivity|].
      destruct (negb (String.eqb _ (si_digest_alg _))); [reflexivity|]. rewrite Ec. cbn [mret]. repeat match goal with |- context [if ?b then _ else _] => destruct b end; reflexivity.
  - right. split.
    + intros h [_ A]. destruct (D h A) as [[=]|[= ->]]. now apply H.
    + destruct (negb (String.eqb _ (sp_digest_alg _))); [eexists; split; [reflexivity|discriminate]|].
      destruct (negb (String.eqb _ (si_digest_alg _))); [eexists; split; [reflexivity|discriminate]|]. rewrite Ec. cbn [snd] in *. exists e. split; [reflexivity|congruence].
Qed.

Theorem c64_computed E a v w : lawful E -> tidy w v a ->
  exists N, forall fuel, (N <= fuel)%nat -> forall chains,
  snd (asd_verify E fuel a None v w) = Ok chains <->
  exists h, expected_hash E (f_bytes (w_file w)) a None h /\ authentic E w v a h chains.
Proof.
  intros Lw T.
  destruct (kwargs_cases a v w) as [(Kw & w1 & x & y & P)|(NK & w1 & e & P & O)].
  2:{ exists 0%nat. intros fuel _ chains. unfold asd_verify, mbind. rewrite P. split; [discriminate|]. intros (h & _ & Q & _). contradiction. }
  assert (Fw : f_bytes (w_file w1) = f_bytes (w_file w)).
  { exact (proj1 (prepare_grows _ _ _ _ _ P)). }
  destruct (usable_situation _ _ _ (tidy_usable _ _ _ T)) as (cx & l & oc & Si).
  destruct (check_computed E a w1) as [N H]. exists N. intros fuel Hf chains.
  rewrite <- Fw. destruct (H fuel Hf) as [(h & X & Un & Q)|(NX & e & Q & _)].
  - transitivity (authentic E w v a h chains).
    + rewrite <- (c64_exact E 0 a h v w chains Lw T).
      rewrite !(asd_verify_pure E _ a _ v w w1 x y cx l oc Si (fun _ => proj1 T) P). rewrite (Q 0%nat). reflexivity.
    + split; [eauto|]. intros (h' & X' & A). now rewrite <- (Un h' X').
  - rewrite (asd_verify_pure E _ a _ v w w1 x y cx l oc Si (fun _ => proj1 T) P), Q. cbn [rbind].
    split; [discriminate|]. intros (h & X & _). now elim (NX h).
Qed.

(** ** The statements *)

Lemma cases_exact {A} (P : A -> Prop) (r : res A) a :
  (exists b, r = Ok b /\ P b /\ forall o, P o -> o = b) \/ ((forall b, ~ P b) /\ exists e, r = Err e /\ ordinary e) ->
  r = Ok a <-> P a.
Proof.
  intros [(b & -> & H & U)|(N & e & -> & _)].
  - split; [now intros [= <-]|]. intros Q. now rewrite (U _ Q).
  - split; [discriminate|]. intros Q. now elim (N a).
Qed.

Theorem c65_signer E i x st w cx l chains : lawful E ->
  nth_error (w_contexts w) x = Some cx -> stores_at w (x_stores cx) l -> sound l ->
  snd (signer_verify E true i x st w) = Ok chains <-> chains_of E i cx l lifetime st chains.
Proof. intros. apply cases_exact. now apply (signer_cases E true). Qed.
Theorem c65_plain E i x st w cx l chains : lawful E ->
  nth_error (w_contexts w) x = Some cx -> stores_at w (x_stores cx) l -> sound l ->
  snd (signer_verify E false i x st w) = Ok chains <-> chains_of E i cx l none_exempt st chains.
Proof. intros. apply cases_exact. now apply (signer_cases E false). Qed.
Theorem c65_token E t given trusted w cx l chains : lawful E -> token_context w t given trusted cx l -> sound l ->
  snd (rsd_verify E t given trusted w) = Ok chains <-> token_authentic E w t given trusted chains.
Proof. intros. apply cases_exact. now apply (token_cases _ _ _ _ _ cx l). Qed.
Theorem c65_decided E t given trusted w cx l : lawful E -> token_context w t given trusted cx l -> sound l ->
  (forall chains, ~ token_authentic E w t given trusted chains) ->
  exists e, snd (rsd_verify E t given trusted w) = Err e /\ ordinary e.
Proof.
  intros Lw C S N. destruct (token_cases E t given trusted w cx l Lw C S) as [(ch & _ & A & _)|(_ & e & H)]; [now elim (N ch)|eauto].
Qed.
Theorem c65_content E t given trusted w : ~ content_matches E (r_data t) (r_signer t) ->
  exists e, rsd_verify E t given trusted w = (w, Err e) /\ e_class e = AuthenticodeCounterSignerError.
Proof.
  intros N. unfold rsd_verify. destruct (option_bytes_eqb _ _) eqn:Q; cbn [negb].
  - elim N. apply option_bytes_eqb_spec in Q. exact Q.
  - eexists. split; reflexivity.
Qed.
