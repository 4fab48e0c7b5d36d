(** Files, while a store cannot be read. *)
From Verif Require Import Base Bytes Monad ModelFile ModelX509 SpecX509 ModelContext SpecContext ProofsCTL ProofsContext ModelPkcs7
  ModelAuthenticode SpecAuthenticode SpecSignedPE SpecComplete SpecExact SpecUnread ProofsPE2 ProofsVerify ProofsVerify2 ProofsSignedPE2 ProofsFrame ProofsUnread.

Theorem unread_reliance E fuel a h v w s :
  relies_on w v s -> (va_mode v = "strict" \/ forall c, ~ considered a v c) -> unreadable s ->
  exists e, snd (asd_verify E fuel a (Some h) v w) = Err e.
Proof.
  intros Rl M Hu. destruct (asd_verify E fuel a (Some h) v w) as [w' [chains|e]] eqn:H; [|now exists e]. exfalso.
  destruct (asd_verify_steps _ _ _ _ _ _ _ _ H) as (w1 & x & y & w2 & w3 & st & P & D & T & V).
  apply digests_world in D. subst w2.
  assert (exists r, blocked r x w1) as [r B].
  { destruct (prepare_shape _ _ _ _ _ _ P) as (ss & ks & Es & Ek & _ & Ex & _). unfold relies_on in Rl.
    destruct (va_context v) as [x0|].
    - destruct Rl as (cx & r & Nx & I & R). exists r. subst x. split.
      + exists s. split; [|exact Hu]. rewrite Es. now apply nth_app_some.
      + exists cx. split; [|exact I]. rewrite Ek. now apply nth_app_some.
    - exists (va_trusted v). subst x. split.
      + exists s. split; [|exact Hu]. rewrite Es. now apply nth_app_some.
      + eexists. split; [rewrite Ek; now rewrite nth_app_at|]. now left. }
  apply (strict_time _ _ _ _ _ _ _ r x T M) in B.
  pose proof (stops_signer r x E true (asi_info (asd_signer a)) st w3 B) as Q. now rewrite V in Q.
Qed.

Lemma relies_objects w w' v s : same_objects w w' -> relies_on w v s -> relies_on w' v s.
Proof. intros (A1 & A2 & _). unfold relies_on. now rewrite A1, A2. Qed.

Theorem unread_file load E depth fuel mode expected ign v w s :
  relies_on w v s -> unreadable s -> (va_mode v = "strict" \/ va_mode v = "ignore") -> conjunctive mode ->
  exists e, verify_result load E depth fuel mode expected ign v w = Err e.
Proof.
  intros Rl Hu M Cj. unfold verify_result.
  assert (Ev : every mode = true) by (unfold every; destruct Cj as [->| ->]; reflexivity).
  assert (Mo : forall a, va_mode v = "strict" \/ forall c, ~ considered a v c).
  { intro a. destruct M as [M|M]; [now left|]. right. intros c [_ C]. contradiction. }
  destruct (iterate load depth true ign fuel (w_file w)) as [[l x]|] eqn:Ei.
  - destruct (open_eq load E depth fuel mode expected ign v w l x Ei) as (w1 & O1 & Q).
    rewrite (Q fuel (Nat.le_refl _)). clear Q.
    destruct x as [e|]; [now exists e|]. destruct l as [|a0 l0]; [eexists; reflexivity|]. remember (a0 :: l0) as l.
    destruct (select_signed_datas mode l) as [sel|e] eqn:Es; [|now exists e].
    pose proof (calculate_objects E fuel sel (supplied_dict expected) w1) as O2.
    destruct (calculate_expected_hashes E fuel sel (supplied_dict expected) w1) as [w2 [hs|e]]; cbn [fst] in O2; [|now exists e].
    assert (sel <> []) as Ne.
    { subst l. revert Es. unfold select_signed_datas. destruct Cj as [->| ->]; cbn [String.eqb Ascii.eqb Bool.eqb]; intro Es; injection Es as <-; discriminate. }
    destruct sel as [|b sel]; [now elim Ne|]. cbn [verify_loop].
    pose proof (relies_objects _ _ _ _ (same_objects_trans _ _ _ O1 O2) Rl) as R2. unfold verify_one at 1.
    destruct (dict_get _ _) as [h|].
    + destruct (unread_reliance E fuel b h v w2 s R2 (Mo b) Hu) as [e He].
      destruct (asd_verify E fuel b (Some h) v w2) as [w3 r3]. cbn [snd] in He. subst r3. rewrite Ev.
      destruct (catches Exception_ e); exists e; reflexivity.
    + unfold mraise, merr. cbn [fst snd]. rewrite Ev. eexists. reflexivity.
  - unfold iterate in Ei. unfold pe_open_verify. rewrite signed_pe_init_eq in *. unfold pe_verify, signed_datas, mbind.
    cbn [w_file w_stores w_contexts].
    destruct (iter_signed_datas _ _ _ _ _ _ _) as [p|]; [discriminate Ei|]. eexists. reflexivity.
Qed.
