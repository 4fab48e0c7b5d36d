(** Proofs about files from their octets on. *)
From Verif Require Import Base Monad ModelFile ModelFingerprint ModelPE SpecFingerprint SpecPE ProofsPE ProofsPE2 ProofsPE3
  ModelX509 SpecX509 ModelContext ModelPkcs7 ModelLazy ModelAuthenticode ModelLazyFile ModelDecode SpecPkcs7 ProofsPkcs7
  SpecAuthenticode SpecSignedPE ProofsSignedPE SpecDer ProofsLazy ProofsLazy2 SpecEnvelope ProofsEnvelope2 SpecOctets
  SpecFrame SpecComplete SpecExact ProofsExact2 SpecWhole ProofsDecode4.

Lemma tabulates_table f es : tabulates (f_bytes f) es -> terminates_with (fun n => cert_table n f) (es, None).
Proof.
  intros (opt & size & magic & addr & len & U & C & En & T).
  destruct (c09 f) as [_ H]. destruct (H _ _ _ U) as (d & D & _ & _ & Ct & _).
  eapply (c15 f d (mkRel addr len)); [exact D| |exact En|exact T].
  apply Ct. exact C.
Qed.

Lemma unfolds_nested : forall a l, unfolds a l -> recursive_nested true a = l.
Proof.
  fix IH 3. intros a l [d s i cs nested pe ls F]. cbn [recursive_nested]. f_equal.
  revert nested ls F. fix IH2 3. intros nested ls F. destruct F as [|x y xs ys Hx Hs]; [reflexivity|].
  cbn [flat_map concat]. rewrite (IH _ _ Hx). f_equal. exact (IH2 _ _ Hs).
Qed.

Lemma holds_opens depth b a : holds_signature depth b a -> lz_from_envelope der_loader depth true b = Ok a.
Proof.
  intros (r & S & R & H). rewrite (says_read _ _ _ _ S). unfold from_envelope. cbn [rbind ci_type ci_content].
  rewrite String.eqb_refl. cbn [rbind]. apply parse_asd_complete; assumption.
Qed.

Lemma entries_iter load depth : (forall b, from_envelope load depth true b = lz_from_envelope der_loader depth true b) ->
  forall es l, entries_hold depth es l -> forall found, (found = true \/ l <> []) ->
  pure_iter load depth true None es found = (l, None).
Proof.
  intros L es l H. induction H as [|c es l R T H IH|c es a la l R T Ho U H IH]; intros found F; cbn [pure_iter].
  - destruct F as [->|F]; [reflexivity|congruence].
  - rewrite R. cbn [negb Z.eqb Pos.eqb]. destruct (Z.eqb_spec (ce_type c) 2); [contradiction|]. apply IH. exact F.
  - rewrite R, T. cbn [negb Z.eqb Pos.eqb]. rewrite L, (holds_opens _ _ _ Ho), (IH true) by (left; reflexivity).
    rewrite (unfolds_nested _ _ U). reflexivity.
Qed.

Lemma signed_iterates load depth ign f l :
  (forall b, from_envelope load depth true b = lz_from_envelope der_loader depth true b) ->
  signed_file depth (f_bytes f) l -> terminates_with (fun k => iterate load depth true ign k f) (l, None).
Proof.
  intros L (Ne & es & T & H). pose proof (iterate_pure load depth true ign f _ _ (tabulates_table _ _ T)) as P. cbv zeta in P.
  rewrite (entries_iter _ _ L _ _ H) in P by (right; exact Ne). exact P.
Qed.

Lemma c79_read depth ign f l :
  signed_file depth (f_bytes f) l -> terminates_with (fun k => octets_iterate depth ign k f) (l, None).
Proof.
  intros H. pose (load := complete der_loader depth true).
  assert (L : forall b, from_envelope load depth true b = lz_from_envelope der_loader depth true b) by (intro; apply complete_spec).
  pose proof (signed_iterates load depth ign f l L H) as T. unfold terminates_with in *.
  destruct T as (N & T). exists N. intros k Hk. specialize (T k Hk). unfold octets_iterate, iterate in *.
  destruct (signed_pe_init f) as [f' flen]. rewrite <- (agree_iter der_loader load depth L). exact T.
Qed.

Lemma terminates_unique {A} (g : nat -> option A) x y : terminates_with g x -> terminates_with g y -> x = y.
Proof.
  intros (N & H) (N' & H'). specialize (H (N + N')%nat). specialize (H' (N + N')%nat).
  rewrite H in H' by apply Nat.le_add_r. specialize (H' ltac:(rewrite Nat.add_comm; apply Nat.le_add_r)). congruence.
Qed.

Theorem c79_verdict E depth mode expected ign v w l :
  lawful E -> signed_file depth (f_bytes (w_file w)) l -> shareable w v l -> (forall a, In a l -> tidy w v a) ->
  forall out, octets_settle E depth expected ign v mode w (Ok out) <->
    known_names E expected /\ accepted_as E w v expected mode l out.
Proof.
  intros Lw S Sh Ti out. pose (load := complete der_loader depth true).
  assert (L : forall b, from_envelope load depth true b = lz_from_envelope der_loader depth true b) by (intro; apply complete_spec).
  pose proof (signed_iterates load depth ign (w_file w) l L S) as T.
  assert (Q : octets_settle E depth expected ign v mode w (Ok out) <-> settles load E depth expected ign v mode w (Ok out)).
  { unfold octets_settle, settles, lz_verify_result, verify_result.
    split; intros (N & H); exists N; intros fuel Hf; specialize (H fuel Hf);
      rewrite <- H; rewrite (agree_verify der_loader load depth L); reflexivity. }
  rewrite Q, (c64_file load E depth mode expected ign v w Lw).
  - split.
    + intros (l' & T' & _ & K & Ac). pose proof (terminates_unique _ _ _ T T') as U. injection U as <-. split; assumption.
    + intros [K Ac]. exists l. destruct S as [Ne _]. repeat split; assumption.
  - intros l' T'. pose proof (terminates_unique _ _ _ T T') as U. injection U as <-. split; assumption.
Qed.

Theorem c79_decided E depth mode expected ign v w l :
  lawful E -> well_formed w v ->
  signed_file depth (f_bytes (w_file w)) l -> shareable w v l -> (forall a, In a l -> tidy w v a) ->
  (exists out, octets_settle E depth expected ign v mode w (Ok out) /\ accepted_as E w v expected mode l out) \/
  ((forall out, known_names E expected -> ~ accepted_as E w v expected mode l out) /\
   exists e, octets_settle E depth expected ign v mode w (Err e)).
Proof.
  intros Lw W S Sh Ti. destruct (der_file E depth mode expected ign v w W) as (N & [[w' d'] r] & H & _).
  assert (R : octets_settle E depth expected ign v mode w r).
  { exists N. intros fuel Hf. unfold lz_verify_result. rewrite (H fuel Hf). reflexivity. }
  pose proof (c79_verdict E depth mode expected ign v w l Lw S Sh Ti) as V.
  destruct r as [out|e].
  - left. exists out. split; [exact R|]. apply V in R. tauto.
  - right. split; [|exists e; exact R]. intros out K Ac. destruct (proj2 (V out) (conj K Ac)) as (N' & H').
    destruct R as (N2 & R). specialize (R (N' + N2)%nat ltac:(rewrite Nat.add_comm; apply Nat.le_add_r)).
    specialize (H' (N' + N2)%nat ltac:(apply Nat.le_add_r)). congruence.
Qed.
