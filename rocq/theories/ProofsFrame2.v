(** Proofs about repeated verifications and about the modes. *)
From Verif Require Import Base Bytes Monad ModelFile ModelFingerprint ModelPE SpecFingerprint SpecPE
  ModelX509 SpecX509 ProofsFingerprint ProofsPE ProofsPE2 ProofsPE3 ModelContext SpecContext ProofsContext ProofsContext2
  ModelPkcs7 ModelAuthenticode SpecPkcs7 SpecAuthenticode ProofsSigner ProofsSigner2 ProofsVerify ProofsVerify2 ProofsVerify3
  ProofsVerify5 SpecSignedPE ProofsSignedPE ProofsSignedPE2 ProofsSignedPE3 SpecComplete ProofsComplete2 ProofsWhole ProofsWhole2
  SpecFrame ProofsFrame.

Lemma same_view_readable1 s s' : same_view s s' -> readable s -> readable s'.
Proof.
  intros V R. assert (Q : Forall readable [s']) by (apply (same_view_readable [s]); [apply Forall2_cons; [exact V|apply Forall2_nil]|apply Forall_cons; [exact R|apply Forall_nil]]).
  now inversion Q.
Qed.
Lemma default_usable w v a : default_contexts v -> readable_trust w v -> usable w v a.
Proof.
  intros (D1 & D2) (ts & H & R). assert (Sh : forall d, readable (shipped d)) by (intros d l Q; discriminate Q). split.
  - unfold signer_context. rewrite D1. do 2 eexists. split; [exists ts; split; [exact H|split; reflexivity]|].
    repeat apply Forall_cons; auto.
  - intros c _. unfold counter_context. rewrite D2. destruct c as [i|t].
    + do 2 eexists. split; [exists ts; split; [exact H|split; reflexivity]|]. repeat apply Forall_cons; auto.
    + do 2 eexists. split; [exists ts; split; [exact H|split; reflexivity]|]. repeat apply Forall_cons; auto.
Qed.
Lemma default_distinct v : default_contexts v -> distinct_contexts v.
Proof. intros (D1 & _) x y Q. congruence. Qed.

Lemma chosen_fun mode l s s' : chosen mode l s -> chosen mode l s' -> s = s'.
Proof.
  intros (A1 & A2 & A3) (B1 & B2 & B3). destruct (string_dec mode "first") as [F|F].
  - destruct (A1 F) as (a & r & -> & ->). destruct (B1 F) as (a' & r' & Q & ->). congruence.
  - destruct (string_dec mode "best") as [G|G].
    + rewrite (A2 G), (B2 G). reflexivity.
    + rewrite (A3 F G), (B3 F G). reflexivity.
Qed.
Lemma chosen_ne mode l s : l <> [] -> chosen mode l s -> s <> [].
Proof.
  intros Ne (A1 & A2 & A3). destruct (string_dec mode "first") as [F|F].
  - destruct (A1 F) as (a & r & _ & ->). discriminate.
  - destruct (string_dec mode "best") as [G|G].
    + rewrite (A2 G). now apply best_ne.
    + now rewrite (A3 F G).
Qed.

Section settled.
Context (load : loader) (E : env) (depth : nat) (expected : option (dict bytes)) (ign : bool) (v : vargs).

Notation gives := (settles load E depth expected ign v).

Lemma gives_fun mode w r r' : gives mode w r -> gives mode w r' -> r = r'.
Proof. intros [N H] [N' H']. rewrite <- (H (N + N')%nat ltac:(lia)). apply H'. lia. Qed.

Lemma iterate_terminates f : exists l x, terminates_with (fun k => iterate load depth true ign k f) (l, x).
Proof.
  destruct (c17 load depth true f) as (es & tail & n & l & x & _ & Hi & _). destruct Hi as [N Hi].
  pose proof (Hi N (Nat.le_refl _)) as H0. rewrite iterate_eq in H0.
  destruct (iter_loop _ _ _ N _ _ _ _) as [[f1 [l1 x1]]|] eqn:El; [|discriminate].
  do 2 eexists. exists N. intros k Hk. rewrite iterate_eq.
  rewrite (loop_mono load depth true _ _ _ Hk _ _ _ _ El). reflexivity.
Qed.

Lemma settled f : default_contexts v ->
  (exists e, forall w mode, w_file w = f -> gives mode w (Err e)) \/
  (exists l hash, l <> [] /\ forall mode w, w_file w = f -> readable_trust w v ->
     exists sel r, chosen mode l sel /\ outcome (alone E v hash sel w) (conj_mode mode) r /\ gives mode w r).
Proof.
  intros D. destruct (iterate_terminates f) as (l & x & Hi).
  destruct x as [e|].
  { left. exists e. intros w mode Hw. subst f. destruct Hi as [N Hi]. exists N. intros fuel Hf.
    destruct (open_eq load E depth N mode expected ign v w _ _ (Hi N ltac:(lia))) as (w1 & _ & Q).
    unfold verify_result. now rewrite (Q fuel Hf). }
  destruct l as [|a0 l0].
  { left. eexists. intros w mode Hw. subst f. destruct Hi as [N Hi]. exists N. intros fuel Hf.
    destruct (open_eq load E depth N mode expected ign v w _ _ (Hi N ltac:(lia))) as (w1 & _ & Q).
    unfold verify_result. rewrite (Q fuel Hf). reflexivity. }
  remember (a0 :: l0) as l. assert (Ne : l <> []) by (subst l; discriminate).
  destruct (provided_hashes E (map fst (supplied_dict expected))) as [ks|e] eqn:Ep.
  2:{ left. exists e. intros w mode Hw. destruct (select_spec mode l Ne) as (sel & Es & _).
    { intros a Ha. now apply (table_accepted _ _ _ _ _ _ _ Hi Ha). }
    subst f. destruct Hi as [N Hi]. exists N. intros fuel Hf.
    destruct (open_eq load E depth N mode expected ign v w _ _ (Hi N ltac:(lia))) as (w1 & _ & Q).
    unfold verify_result. rewrite (Q fuel Hf), Es. destruct l as [|a l1]; [now elim Ne|].
    unfold calculate_expected_hashes. cbv zeta. rewrite Ep. reflexivity. }
  right. exists l.
  assert (Kn : known_names E expected).
  { intros d k h -> Hk. apply (provided_known _ _ _ Ep). cbn [supplied_dict]. change k with (fst (k, h)). now apply in_map. }
  assert (R : forall mode w, w_file w = f -> readable_trust w v ->
    exists sel hash, chosen mode l sel /\ due_hashes E (f_bytes f) expected sel hash /\
    exists N, forall fuel, (N <= fuel)%nat ->
    exists b, (b = true <-> conjunctive mode) /\
      outcome (alone E v hash sel w) b (verify_result load E depth fuel mode expected ign v w)).
  { intros mode w Hw Rt. subst f. apply c20_alone; auto.
    - apply default_shareable; apply D.
    - intros a _. now apply default_usable.
    - intros a c _ _. now apply default_distinct. }
  (* the hashes do not depend on the mode *)
  assert (G : exists hash, forall mode w sel hash', w_file w = f -> readable_trust w v -> chosen mode l sel ->
     due_hashes E (f_bytes f) expected sel hash' -> forall a, In a sel -> hash (digest_of a) = hash' (digest_of a)).
  { destruct (c20 load E depth "all" expected ign v (mkWorld [] [] f) l Hi Ne Kn) as (sel0 & hash & C0 & Hh & _).
    assert (sel0 = l) by (apply C0; discriminate). subst sel0. cbn [w_file] in Hh.
    exists hash. intros mode w sel hash' Hw Rt Hc Hd a Ha. eapply due_fun; [|apply Hd, Ha]. apply Hh. now apply (chosen_incl mode l sel). }
  destruct G as (hash & G). exists hash. split; [exact Ne|]. intros mode w Hw Rt.
  destruct (R mode w Hw Rt) as (sel & hash' & Hc & Hd & N & HN).
  assert (Ea : alone E v hash' sel w = alone E v hash sel w).
  { apply map_ext_in. intros a Ha. now rewrite (G mode w sel hash' Hw Rt Hc Hd a Ha). }
  destruct (HN N (Nat.le_refl _)) as (b & Hb & Ho). rewrite Ea in Ho.
  exists sel, (verify_result load E depth N mode expected ign v w). split; [exact Hc|].
  rewrite (conj_mode_reflect mode b Hb). split; [exact Ho|].
  exists N. intros fuel Hf. destruct (HN fuel Hf) as (b' & Hb' & Ho'). rewrite Ea in Ho'.
  assert (b' = b) by (destruct b, b'; try reflexivity; exfalso; destruct Hb, Hb'; intuition congruence). subst b'.
  eapply outcome_fun; [|exact Ho'|exact Ho]. intros Q. apply map_eq_nil in Q. now apply (chosen_ne mode l sel).
Qed.

Theorem c62 f w w' mode :
  default_contexts v -> readable_trust w v -> history w w' ->
  exists r, gives mode (with_file f w) r /\ gives mode (with_file f w') r.
Proof.
  intros D Rt H. pose proof (history_seen _ _ H) as Sn.
  destruct (settled f D) as [(e & He)|(l & hash & Ne & Hs)].
  - exists (Err e). auto.
  - destruct (Hs mode (with_file f w) eq_refl Rt) as (sel & r & Hc & Ho & Hg).
    assert (Rt' : readable_trust w' v).
    { destruct Rt as (ts & Hts & R). destruct (Sn _ _ Hts) as (ts' & Hts' & V). exists ts'. split; [exact Hts'|].
      apply (same_view_readable1 ts); assumption. }
    destruct (Hs mode (with_file f w') eq_refl Rt') as (sel' & r' & Hc' & Ho' & Hg').
    rewrite (chosen_fun _ _ _ _ Hc' Hc) in *.
    assert (Ea : alone E v hash sel (with_file f w') = alone E v hash sel (with_file f w)).
    { apply map_ext_in. intros a Ha. f_equal. symmetry.
      destruct (verdict_similar E 0 v (with_file f w) (with_file f w') a (Some (hash (digest_of a)))) as [Q|[Q _]]; auto.
      - now apply seen_similar.
      - now apply default_usable.
      - intros c _. now apply default_distinct.
      - discriminate Q. }
    rewrite Ea in Ho'. assert (r' = r) as ->.
    { eapply outcome_fun; [|exact Ho'|exact Ho]. intros Q. apply map_eq_nil in Q. now apply (chosen_ne mode l sel). }
    exists r. auto.
Qed.
End settled.

Section modes.
Context (load : loader) (E : env) (depth : nat) (expected : option (dict bytes)) (ign : bool) (v : vargs) (w : world).
Hypothesis D : default_contexts v.
Hypothesis Rt : readable_trust w v.
Notation gives := (settles load E depth expected ign v).

Lemma any_conj mode : any_mode mode -> conj_mode mode = false.
Proof.
  intros (A & B & _). destruct (conj_mode mode) eqn:C; [|reflexivity]. apply conj_mode_spec in C as [->| ->]; congruence.
Qed.
Lemma outcome_ok_conj {A B} (vs : list (A * res B)) out :
  outcome vs true (Ok out) -> map (fun ab => (fst ab, Ok (snd ab))) out = vs.
Proof. intros H. inversion H; assumption. Qed.
Lemma outcome_first {A B} (x : A * res B) vs a (b : B) : x = (a, Ok b) -> outcome (x :: vs) false (Ok [(a, b)]).
Proof. intros ->. apply (one_holds _ [] a b vs); [reflexivity|apply Forall_nil]. Qed.

Theorem c63_settles mode : exists r, gives mode w r.
Proof.
  destruct (settled load E depth expected ign v (w_file w) D) as [(e & He)|(l & hash & Ne & Hs)]; [eauto|].
  destruct (Hs mode w eq_refl Rt) as (sel & r & _ & _ & G). eauto.
Qed.

Lemma first_strongest (l : list asd) : l <> [] ->
  exists pre x post, l = pre ++ x :: post /\
    (forall y, In y l -> strength (digest_of y) <= strength (digest_of x)) /\
    (forall y, In y pre -> strength (digest_of y) < strength (digest_of x)).
Proof.
  induction l as [|a l IH]; intros Ne; [congruence|]. destruct l as [|b l].
  { exists [], a, []. split; [reflexivity|]. split; [intros y [<-|[]]; lia|intros y []]. }
  destruct IH as (pre & x & post & Q & H1 & H2); [discriminate|].
  destruct (Z_lt_le_dec (strength (digest_of a)) (strength (digest_of x))) as [L|L].
  - exists (a :: pre), x, post. rewrite Q. split; [reflexivity|]. rewrite <- Q. split.
    + intros y [<-|Hy]; [lia|auto].
    + intros y [<-|Hy]; auto.
  - exists [], a, (b :: l). split; [reflexivity|]. split; [|intros y []].
    intros y [<-|Hy]; [lia|]. specialize (H1 y Hy). lia.
Qed.

Theorem c63_all out : gives "all" w (Ok out) ->
  exists a chains rest, out = (a, chains) :: rest /\
    gives "first" w (Ok [(a, chains)]) /\
    (forall mode, any_mode mode -> gives mode w (Ok [(a, chains)])) /\
    exists pre x post, out = pre ++ x :: post /\ gives "best" w (Ok [x]) /\
      (forall y, In y out -> strength (digest_of (fst y)) <= strength (digest_of (fst x))) /\
      (forall y, In y pre -> strength (digest_of (fst y)) < strength (digest_of (fst x))).
Proof.
  intros G. destruct (settled load E depth expected ign v (w_file w) D) as [(e & He)|(l & hash & Ne & Hs)].
  { pose proof (gives_fun _ _ _ _ _ _ _ _ _ _ G (He w "all" eq_refl)) as Q. discriminate Q. }
  destruct (Hs "all" w eq_refl Rt) as (sel & r & Hc & Ho & G').
  rewrite <- (gives_fun _ _ _ _ _ _ _ _ _ _ G G') in Ho. clear G' r.
  assert (sel = l) as -> by (apply Hc; discriminate). clear Hc.
  apply outcome_ok_conj in Ho. unfold alone in Ho.
  assert (El : l = map fst out).
  { transitivity (map fst (map (fun a => (a, snd (asd_verify E 0 a (Some (hash (digest_of a))) v w))) l)).
    - rewrite map_map. symmetry. apply map_id.
    - rewrite <- Ho, map_map. reflexivity. }
  assert (Ok1 : forall y, In y out -> snd (asd_verify E 0 (fst y) (Some (hash (digest_of (fst y)))) v w) = Ok (snd y)).
  { rewrite El, map_map in Ho. clear - Ho. induction out as [|z out IH]; intros y Hy; [destruct Hy|].
    cbn [map] in Ho. injection Ho as H1 H2. destruct Hy as [<-|Hy]; [symmetry; exact H1|]. exact (IH H2 y Hy). }
  destruct out as [|[a chains] rest]; [cbn [map] in El; congruence|].
  exists a, chains, rest. split; [reflexivity|]. cbn [map fst] in El. split; [|split].
  - destruct (Hs "first" w eq_refl Rt) as (s & r & Hc & Ho' & G'). destruct Hc as (Hc & _).
    destruct (Hc eq_refl) as (a' & l' & E1 & ->). assert (a' = a) as -> by congruence.
    assert (r = Ok [(a, chains)]) as <-; [|exact G'].
    eapply outcome_fun; [|exact Ho'|].
    + discriminate.
    + apply all_hold. unfold alone. cbn [map fst snd]. do 2 f_equal. symmetry. exact (Ok1 (a, chains) (or_introl eq_refl)).
  - intros mode Hm. destruct (Hs mode w eq_refl Rt) as (s & r & Hc & Ho' & G').
    assert (s = l) as -> by (apply Hc; apply Hm). rewrite (any_conj mode Hm) in Ho'.
    assert (r = Ok [(a, chains)]) as <-; [|exact G'].
    eapply outcome_fun; [|exact Ho'|].
    + unfold alone. rewrite El. discriminate.
    + unfold alone. rewrite El. apply outcome_first. f_equal. exact (Ok1 (a, chains) (or_introl eq_refl)).
  - destruct (first_strongest l Ne) as (pre & x & post & Q & H1 & H2).
    destruct (Hs "best" w eq_refl Rt) as (s & r & Hc & Ho' & G'). destruct Hc as (_ & Hc & _). specialize (Hc eq_refl).
    assert (exists s', s = x :: s') as (s' & Es).
    { rewrite Hc. set (g := fun a0 => forallb _ l).
      assert (Fp : filter g pre = []).
      { clear - H2 Q. assert (forall y, In y pre -> g y = false) as H.
        { intros y Hy. unfold g. destruct (forallb _ l) eqn:F; [|reflexivity]. rewrite forallb_forall in F.
          assert (In x l) as Hx by (rewrite Q; apply in_or_app; right; now left). specialize (F x Hx). cbv beta in F.
          apply Z.leb_le in F. specialize (H2 y Hy). lia. }
        clear - H. induction pre as [|y pre IH]; [reflexivity|]. cbn [filter].
        rewrite (H y (or_introl eq_refl)). apply IH. intros z Hz. apply H. now right. }
      assert (Gx : g x = true). { unfold g. apply forallb_forall. intros y Hy. apply Z.leb_le. auto. }
      exists (filter g post). rewrite Q at 1. rewrite filter_app, Fp. cbn [filter app]. now rewrite Gx. }
    assert (Sp : exists pre' cx post', (a, chains) :: rest = pre' ++ (x, cx) :: post' /\ map fst pre' = pre).
    { rewrite Q in El. change (a :: map fst rest) with (map fst ((a, chains) :: rest)) in El.
      remember ((a, chains) :: rest) as out. clear - El. revert out El. induction pre as [|p pre IH]; intros [|[b c] out] El; try discriminate El.
      - cbn [map app fst] in El. injection El as -> _. exists [], c, out. split; reflexivity.
      - cbn [map app fst] in El. injection El as -> El. destruct (IH out El) as (pre' & cx & post' & -> & <-).
        exists ((b, c) :: pre'), cx, post'. split; reflexivity. }
    destruct Sp as (pre' & cx & post' & Eo & Ep). exists pre', (x, cx), post'. split; [exact Eo|].
    split; [|split].
    + assert (r = Ok [(x, cx)]) as <-; [|exact G'].
      eapply outcome_fun; [|exact Ho'|].
      * rewrite Es. discriminate.
      * rewrite Es. unfold alone. change (conj_mode "best") with false. apply outcome_first. f_equal.
        apply (Ok1 (x, cx)). rewrite Eo. apply in_or_app. right. now left.
    + intros y Hy. cbn [fst]. apply H1. rewrite El. change (a :: map fst rest) with (map fst ((a, chains) :: rest)). now apply in_map.
    + intros y Hy. cbn [fst]. apply H2. rewrite <- Ep. now apply in_map.
Qed.

Theorem c63_first out mode : any_mode mode -> gives "first" w (Ok out) -> gives mode w (Ok out).
Proof.
  intros Hm G. destruct (settled load E depth expected ign v (w_file w) D) as [(e & He)|(l & hash & Ne & Hs)].
  { pose proof (gives_fun _ _ _ _ _ _ _ _ _ _ G (He w "first" eq_refl)) as Q. discriminate Q. }
  destruct (Hs "first" w eq_refl Rt) as (sel & r & Hc & Ho & G').
  rewrite <- (gives_fun _ _ _ _ _ _ _ _ _ _ G G') in Ho. clear G' r.
  destruct Hc as (Hc & _). destruct (Hc eq_refl) as (a & l' & El & ->). apply outcome_ok_conj in Ho.
  destruct out as [|[a' c] [|? ?]]; try discriminate Ho. unfold alone in Ho. cbn [map fst snd] in Ho. injection Ho as -> Hv.
  destruct (Hs mode w eq_refl Rt) as (s & r & Hc' & Ho' & G').
  assert (s = l) as -> by (apply Hc'; apply Hm). rewrite (any_conj mode Hm) in Ho'.
  assert (r = Ok [(a, c)]) as <-; [|exact G'].
  eapply outcome_fun; [|exact Ho'|].
  - unfold alone. rewrite El. discriminate.
  - unfold alone. rewrite El. apply outcome_first. now rewrite <- Hv.
Qed.

(** If no signature is accepted in the mode "any", none is in any mode. *)
Theorem c63_none e mode mode' : any_mode mode -> gives mode w (Err e) -> issubclass (e_class e) Exception_ = true ->
  exists e', gives mode' w (Err e') /\ issubclass (e_class e') Exception_ = true.
Proof.
  intros Hm G Hx. destruct (settled load E depth expected ign v (w_file w) D) as [(e' & He)|(l & hash & Ne & Hs)].
  { pose proof (gives_fun _ _ _ _ _ _ _ _ _ _ G (He w mode eq_refl)) as Q. injection Q as ->. eauto. }
  destruct (Hs mode w eq_refl Rt) as (sel & r & Hc & Ho & G').
  rewrite <- (gives_fun _ _ _ _ _ _ _ _ _ _ G G') in Ho. clear G' r.
  assert (sel = l) as -> by (apply Hc; apply Hm). rewrite (any_conj mode Hm) in Ho.
  assert (F : Forall fails (alone E v hash l w)).
  { inversion Ho as [| | |pre a e0 E1 F|pre a e0 post E1 F I]; [exact F|congruence]. }
  destruct (Hs mode' w eq_refl Rt) as (s & r & Hc' & Ho' & G').
  assert (F' : Forall fails (alone E v hash s w)).
  { apply Forall_forall. intros y Hy. unfold alone in Hy. apply in_map_iff in Hy as (a & <- & Ha).
    rewrite Forall_forall in F. apply F. unfold alone. apply in_map_iff. exists a. split; [reflexivity|].
    now apply (chosen_incl mode' l s). }
  assert (Nv : alone E v hash s w <> []).
  { intros Q. apply map_eq_nil in Q. now apply (chosen_ne mode' l s). }
  assert (K : forall y, In y (alone E v hash s w) -> exists e', snd y = Err e' /\ issubclass (e_class e') Exception_ = true).
  { intros y Hy. rewrite Forall_forall in F'. exact (F' y Hy). }
  destruct Ho' as [o Q|pre a e' post Q P|pre a b post Q P|pre a e' Q P|pre a e' post Q P I].
  - destruct o as [|y o]; [symmetry in Q; now elim Nv|]. exfalso. destruct (K (fst y, Ok (snd y))) as (e' & Q' & _).
    { rewrite <- Q. now left. } discriminate Q'.
  - exists e'. split; [exact G'|]. destruct (K (a, Err e')) as (e1 & Q' & I1).
    { rewrite Q. apply in_or_app. right. now left. } cbn [snd] in Q'. congruence.
  - exfalso. destruct (K (a, Ok b)) as (e1 & Q' & _). { rewrite Q. apply in_or_app. right. now left. } discriminate Q'.
  - exists e'. split; [exact G'|]. destruct (K (a, Err e')) as (e1 & Q' & I1).
    { rewrite Q. apply in_or_app. right. now left. } cbn [snd] in Q'. congruence.
  - exists e'. split; [exact G'|]. destruct (K (a, Err e')) as (e1 & Q' & I1).
    { rewrite Q. apply in_or_app. right. now left. } cbn [snd] in Q'. congruence.
Qed.
End modes.

Theorem c61_unchanged load E depth fuel mode expected ign v w ts :
  default_contexts v -> nth_error (w_stores w) (va_trusted v) = Some ts -> ready ts ->
  let w' := fst (fst (pe_open_verify load E depth fuel mode expected ign v w)) in
  f_bytes (w_file w') = f_bytes (w_file w) /\
  (forall r s, nth_error (w_stores w) r = Some s -> nth_error (w_stores w') r = Some s) /\
  (forall x c, nth_error (w_contexts w) x = Some c -> nth_error (w_contexts w') x = Some c).
Proof.
  intros (D1 & D2) Hts R w'. destruct (iterate_terminates load depth ign (w_file w)) as (l & x & Hi).
  destruct (c61 load E depth fuel mode expected ign v w l x Hi) as (A & B & C). fold w' in A, B, C.
  assert (P : forall x, ~ passed v x) by (intros y [Q|Q]; congruence).
  split; [exact A|]. split.
  - intros r s Hs. destruct (B r s Hs) as [Q|(Hr & s' & Q & (lo & L1 & L2 & L3))]; [exact Q|].
    destruct Hr as [(y & cx & Hp & _)|(Hr & _)]; [now elim (P y)|].
    subst r. rewrite Hts in Hs. injection Hs as <-. destruct R as [R|R]; congruence.
  - intros y c Hc. destruct (C y c Hc) as [Q|(Hp & _)]; [exact Q|now elim (P y)].
Qed.
