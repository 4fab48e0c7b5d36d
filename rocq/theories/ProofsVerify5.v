(** Independence of verifications, and the trust anchors. *)
From Verif Require Import Base Bytes Monad ModelFile ModelFingerprint
  ModelPE SpecPE ModelX509 SpecX509
  ProofsX509 ProofsX509b ModelContext SpecContext ProofsCTL ProofsContext ProofsContext2 ModelPkcs7 ProofsPkcs7b
  ModelAuthenticode SpecAuthenticode ProofsSigner ProofsSigner2 ProofsVerify ProofsVerify2 ProofsVerify3 ProofsVerify4.
From Coq Require Import ZifyBool ZifyNat.

(** ** The references to the stores do not matter *)

Definition with_stores (rs : list nat) (cx : context) : context :=
  mkContext rs (x_timestamp cx) (x_key_usages cx) (x_ekus cx) (x_optional_eku cx) (x_opts cx).

Lemma p_store_refs E rs cx s chain : p_store E (with_stores rs cx) s chain = p_store E cx s chain.
Proof. reflexivity. Qed.

Lemma p_trust_refs E rs cx chain l : p_trust E (with_stores rs cx) chain l = p_trust E cx chain l.
Proof.
  unfold p_trust. f_equal.
  assert (G : forall last, p_trust_loop E (with_stores rs cx) chain l last = p_trust_loop E cx chain l last).
  { induction l as [|s l IH]; intros last; cbn [p_trust_loop]; [reflexivity|]. rewrite p_store_refs.
    destruct (p_store E cx s chain) as [[]|e]; [reflexivity|apply IH|].
    destruct (catches _ e); [apply IH|]. destruct (catches VerificationError e); [apply IH|reflexivity]. }
  apply G.
Qed.

Lemma p_verify_refs E rs l c cx :
  p_verify E l c (with_stores rs cx) = (with_stores rs (fst (p_verify E l c cx)), snd (p_verify E l c cx)).
Proof.
  unfold p_verify. cbn [with_stores x_timestamp x_opts x_key_usages x_optional_eku].
  destruct (e_mk_validation E (roots l) (x_timestamp cx) (x_opts cx) c (intermediates l)); [|reflexivity]. cbn [fst snd].
  change (after_usages (with_stores rs cx)) with (with_stores rs (after_usages cx)). f_equal.
  change (asked_usages (with_stores rs cx)) with (asked_usages cx).
  destruct (match e_validate E _ _ _ c _ _ _ _ with Ok _ => _ | Err _ => _ end) as [ids|]; cbn [rbind]; [|reflexivity].
  destruct (map_ids _ ids) as [ch|]; cbn [rbind]; [|reflexivity]. now rewrite p_trust_refs.
Qed.

Lemma p_issuer_refs E auth i st rs l c cx :
  p_issuer E auth i st l c (with_stores rs cx) =
  (with_stores rs (fst (p_issuer E auth i st l c cx)), snd (p_issuer E auth i st l c cx)).
Proof.
  unfold p_issuer. cbn [with_stores x_opts]. destruct (verify_issuer_signature _ _ _ _); [|reflexivity].
  rewrite <- p_verify_refs. f_equal. now destruct (effective auth st c).
Qed.

Lemma p_signer_refs E auth i st rs l cs cx :
  p_signer E auth i st l cs (with_stores rs cx) =
  (with_stores rs (fst (p_signer E auth i st l cs cx)), snd (p_signer E auth i st l cs cx)).
Proof.
  unfold p_signer, mbind.
  assert (G : forall cs acc cx, mfold (p_body E auth i st l) cs acc (with_stores rs cx) =
    (with_stores rs (fst (mfold (p_body E auth i st l) cs acc cx)), snd (mfold (p_body E auth i st l) cs acc cx))).
  { clear. induction cs as [|c cs IH]; intros acc cx; cbn [mfold]; [reflexivity|]. unfold mbind.
    assert (p_body E auth i st l c acc (with_stores rs cx) =
      (with_stores rs (fst (p_body E auth i st l c acc cx)), snd (p_body E auth i st l c acc cx))) as ->.
    { unfold p_body. rewrite p_issuer_refs. destruct (p_issuer E auth i st l c cx) as [cx1 [ch|e]]; [reflexivity|].
      cbn [fst snd]. now destruct (catches VerificationError e). }
    destruct (p_body E auth i st l c acc cx) as [cx1 [a|e]]; cbn [fst snd]; [apply IH|reflexivity]. }
  rewrite G. destruct (mfold (p_body E auth i st l) cs ([], FNone) cx) as [cx1 [[chs f]|e]]; cbn [fst snd]; [|reflexivity].
  destruct f; cbn; try reflexivity; destruct chs; reflexivity.
Qed.

(** Contexts that differ in the references only, or also in the timestamp. *)
Definition alike (cx cx' : context) : Prop := exists rs, cx' = with_stores rs cx.
Definition alike_untimed (cx cx' : context) : Prop := exists rs t, cx' = with_stores rs (at_time t cx).

Lemma p_counter_alike E a c l l' cy cy' :
  Forall2 same_view l l' -> alike_untimed cy cy' -> snd (p_counter E a c l' cy') = snd (p_counter E a c l cy).
Proof.
  intros V (rs & t & ->). unfold p_counter. destruct (negb _); [reflexivity|]. cbv zeta.
  change (at_time (cs_signing_time c) (with_stores rs (at_time t cy))) with (with_stores rs (at_time (cs_signing_time c) cy)).
  assert (G : forall i, snd (match p_signer E false i None l' (candidates E i l') (with_stores rs (at_time (cs_signing_time c) cy)) with
                 | (cy2, Ok _) => (cy2, Ok tt)
                 | (cy2, Err e) => (cy2, Err e)
                 end) =
            snd (match p_signer E false i None l (candidates E i l) (at_time (cs_signing_time c) cy) with
                 | (cy2, Ok _) => (cy2, Ok tt)
                 | (cy2, Err e) => (cy2, Err e)
                 end)).
  { intros i. rewrite (p_signer_view E false i None l l' _ V), p_signer_refs.
    destruct (p_signer E false i None l _ _) as [cy2 [ch|e]]; reflexivity. }
  destruct c as [i|tk]; [apply G|]. destruct (negb _); [reflexivity|apply G].
Qed.

(** ** What a verification leaves behind *)

Definition similar (v : vargs) (w w' : world) : Prop :=
  grows w w' /\
  (forall x cx, va_context v = Some x -> nth_error (w_contexts w) x = Some cx -> nth_error (w_contexts w') x = Some cx) /\
  (forall y cy, va_cs_context v = Some y -> nth_error (w_contexts w) y = Some cy ->
     exists t, nth_error (w_contexts w') y = Some (at_time t cy)).

Lemma similar_refl v w : similar v w w.
Proof.
  split; [apply grows_refl|]. split; [auto|]. intros y cy _ H. exists (x_timestamp cy). now rewrite at_time_same.
Qed.

Lemma similar_trans v a b c : similar v a b -> similar v b c -> similar v a c.
Proof.
  intros (A1 & A2 & A3) (B1 & B2 & B3). split; [eapply grows_trans; eassumption|]. split; [eauto|].
  intros y cy Hy H. destruct (A3 y cy Hy H) as (t & H1). destruct (B3 y _ Hy H1) as (t' & H2). exists t'. exact H2.
Qed.

Lemma evolved_repeatable T cx cx' : repeatable cx -> evolved T cx cx' -> cx' = at_time (x_timestamp cx') cx.
Proof.
  intros [R1 R2] (A1 & A2 & A3 & A4 & A5 & _).
  assert (U : forall u, (forall u0, u = Some u0 -> u_oneshot u0 = false) -> used_usages u = u).
  { intros [[o us]|] H; [|reflexivity]. specialize (H _ eq_refl). cbn in *. subst o. reflexivity. }
  rewrite (U _ R1) in A4. rewrite (U _ R2) in A5.
  destruct cx as [a b c d e f], cx' as [a' b' c' d' e' f']. cbn in *. unfold at_time. cbn.
  destruct A4, A5; subst; reflexivity.
Qed.

Lemma prepare_any a v w w1 r :
  prepare_contexts a v w = (w1, r) ->
  grows w w1 /\ exists ks, w_contexts w1 = w_contexts w ++ ks.
Proof.
  rewrite prepare_eq. cbv zeta. intros H.
  assert (G : forall ss ks, grows w (mkWorld (w_stores w ++ ss) ks (w_file w))).
  { intros ss ks. now apply grows_alloc. }
  destruct (match va_context v with None => negb (kw_valid (va_kwargs v)) | Some _ => false end).
  { injection H as <- _. split; [apply G|]. exists []. now rewrite app_nil_r. }
  assert (D : forall ks', exists ks, (w_contexts w ++ ks') = w_contexts w ++ ks) by eauto.
  destruct (va_cs_context v); [injection H as <- _; split; [apply G|apply D]|].
  destruct (asi_cs (asd_signer a)) as [c|]; [|injection H as <- _; split; [apply G|apply D]].
  destruct (String.eqb (va_mode v) "ignore"); [injection H as <- _; split; [apply G|apply D]|].
  destruct (kw_valid (va_kwargs v)); [|injection H as <- _; split; [apply G|apply D]].
  destruct c as [i|t]; injection H as <- _; cbn [w_contexts].
  - split; [apply G|]. rewrite <- app_assoc. apply D.
  - split; [rewrite <- app_assoc; apply G|]. rewrite <- app_assoc. apply D.
Qed.

Lemma similar_prepare a v w w1 r : prepare_contexts a v w = (w1, r) -> similar v w w1.
Proof.
  intros P. destruct (prepare_any _ _ _ _ _ P) as (G & ks & Ek). split; [assumption|]. rewrite Ek. split.
  - intros x cx _ H. now apply nth_app_some.
  - intros y cy _ H. exists (x_timestamp cy). rewrite at_time_same. now apply nth_app_some.
Qed.

Lemma similar_objects v w w' : same_objects w w' -> similar v w w'.
Proof.
  intros O. pose proof O as (_ & Ek & _). split; [now apply same_objects_grows|]. rewrite Ek. split; [auto|].
  intros y cy _ H. exists (x_timestamp cy). now rewrite at_time_same.
Qed.

Lemma asd_verify_similar E fuel a expected v w w' r :
  shareable w v [a] -> asd_verify E fuel a expected v w = (w', r) -> similar v w w'.
Proof.
  intros [Sx0 Sy0] H. unfold asd_verify, mbind in H.
  assert (Sx : forall x cx, va_context v = Some x -> nth_error (w_contexts w) x = Some cx ->
     repeatable cx /\ forall a0 c, In a0 [a] -> ~ considered a0 v c).
  { intros x cx Hx Hcx. destruct (Sx0 x Hx) as (cx0 & H0 & H1). rewrite H0 in Hcx. now injection Hcx as <-. }
  assert (Sy : forall y cy, va_cs_context v = Some y -> nth_error (w_contexts w) y = Some cy -> repeatable cy).
  { intros y cy Hy Hcy. destruct (Sy0 y Hy) as (cy0 & H0 & H1). rewrite H0 in Hcy. now injection Hcy as <-. }
  destruct (prepare_contexts a v w) as [w1 p] eqn:P. pose proof (similar_prepare _ _ _ _ _ P) as S1.
  destruct p as [[x y]|e]; [|injection H as <- _; assumption]. cbn [fst snd] in H.
  destruct (check_digests E fuel a expected w1) as [w2 d] eqn:D.
  pose proof (check_digests_objects _ _ _ _ _ _ _ D) as O.
  pose proof (similar_trans _ _ _ _ S1 (similar_objects v _ _ O)) as S2.
  destruct d as [[]|e]; [|injection H as <- _; assumption].
  destruct (prepare_shape _ _ _ _ _ _ P) as (ss & ks & Es & Ek & _ & Ex & Hy & Hc & Hn).
  destruct (countersignature_time E a v y w2) as [w3 t] eqn:C.
  assert (S3 : similar v w w3 /\ (forall st, t = Ok st -> (forall c, ~ considered a v c) -> st = None)).
  { destruct (counter_time_run _ _ _ _ _ _ _ C) as [(_ & -> & ->)|[(k & K & _ & -> & m & ->)|(k & y0 & r0 & K & Ey & Hk & R)]].
    - split; [assumption|]. intros st Ht. now injection Ht as <-.
    - split; [assumption|]. discriminate.
    - split; [|intros st _ N; now elim (N k)].
      assert (Kp : keeps (fun _ => True) y0 w2 w3) by (revert Hk; now apply pres_check_countersigner).
      destruct Kp as (V & _ & Kn & Ky). destruct S2 as (G & S2 & S3). split; [eapply grows_trans; [exact G|now apply views_grows]|].
      split.
      + intros x0 cx Hx0 Hcx. destruct (Sx x0 cx Hx0 Hcx) as [_ N]. now elim (N a k (or_introl eq_refl)).
      + intros y1 cy Hy1 Hcy. assert (y1 = y0) as ->.
        { assert (y = va_cs_context v) by (apply Hc; congruence). congruence. }
        destruct (S3 y0 cy Hy1 Hcy) as (t0 & H0). destruct (Ky _ H0) as (cy' & H1 & Ev).
        rewrite H1. exists (x_timestamp cy'). f_equal. apply (evolved_repeatable _ _ _ (Sy y0 cy Hy1 Hcy : repeatable (at_time t0 cy)) Ev). }
  destruct S3 as [S3 Hst]. destruct t as [st|e]; [|injection H as <- _; assumption].
  assert (Kp : keeps (fun t => st = t /\ st <> None) x w3 w').
  { revert H. apply pres_signer_verify. intros t ->. split; [reflexivity|discriminate]. }
  destruct Kp as (V & _ & Kn & Kx). destruct S3 as (G & S3 & S4).
  split; [eapply grows_trans; [exact G|now apply views_grows]|].
  assert (Same : forall z cz, (va_context v = None \/ (va_context v <> Some z)) -> nth_error (w_contexts w) z = Some cz -> z <> x).
  { intros z cz Hz Hcz Ezx. subst z. rewrite Ex in Hz, Hcz. destruct (va_context v) as [x0|].
    - destruct Hz as [Hz|Hz]; [discriminate Hz|now elim Hz].
    - apply nth_some_lt in Hcz. lia. }
  assert (Own : forall x0 cx, va_context v = Some x0 -> nth_error (w_contexts w) x0 = Some cx -> nth_error (w_contexts w') x0 = Some cx).
  { intros x0 cx Hx0 Hcx. destruct (Sx x0 cx Hx0 Hcx) as [R N]. specialize (S3 x0 cx Hx0 Hcx).
    assert (x0 = x) as -> by (rewrite Ex, Hx0; reflexivity).
    destruct (Kx _ S3) as (cx' & H1 & Ev). rewrite H1. f_equal.
    assert (st = None) as -> by (apply (Hst st eq_refl); intros c; apply (N a c); now left).
    rewrite (evolved_repeatable _ _ _ R Ev). destruct Ev as (_ & _ & _ & _ & _ & [Et|[_ Et]]); [|now elim Et].
    rewrite Et. apply at_time_same. }
  split; [exact Own|]. intros y0 cy Hy0 Hcy. destruct (S4 y0 cy Hy0 Hcy) as (t0 & H0).
  destruct (Nat.eq_dec y0 x) as [Eyx|Nyx].
  - destruct (va_context v) as [x0|] eqn:Ex0.
    + rewrite Ex in Eyx. subst y0. rewrite (Own x0 cy eq_refl Hcy). exists (x_timestamp cy). now rewrite at_time_same.
    + exfalso. eapply (Same y0 cy); eauto.
  - rewrite (Kn y0 Nyx). eauto.
Qed.

Lemma shareable_similar v w w' l : shareable w v l -> similar v w w' -> shareable w' v l.
Proof.
  intros [Sx Sy] (_ & S1 & S2). split.
  - intros x Hx. destruct (Sx x Hx) as (cx & H & R). exists cx. split; [now apply S1|assumption].
  - intros y Hy. destruct (Sy y Hy) as (cy & H & R). destruct (S2 y cy Hy H) as (t & H1).
    exists (at_time t cy). split; [assumption|exact R].
Qed.

Lemma shareable_incl v w l l' : (forall a, In a l' -> In a l) -> shareable w v l -> shareable w v l'.
Proof.
  intros I [Sx Sy]. split; [|assumption]. intros x Hx. destruct (Sx x Hx) as (cx & H & R & N). exists cx. eauto.
Qed.

Lemma after_verifying_similar E fuel v jobs : forall w,
  shareable w v (map fst jobs) -> similar v w (after_verifying E fuel v jobs w).
Proof.
  induction jobs as [|[a expected] jobs IH]; intros w S; cbn [after_verifying]; [apply similar_refl|].
  destruct (asd_verify E fuel a expected v w) as [w' r] eqn:H. cbn [fst].
  assert (S1 : similar v w w').
  { eapply asd_verify_similar; [|exact H]. eapply shareable_incl; [|exact S]. intros b [<-|[]]. now left. }
  eapply similar_trans; [exact S1|]. apply IH. eapply shareable_similar; [|exact S1].
  eapply shareable_incl; [|exact S]. intros b Hb. now right.
Qed.

(** ** The verdict in a similar world *)

Lemma grows_nth_stores w w' rs l : grows w w' -> stores_at w rs l -> exists l', stores_at w' rs l' /\ Forall2 same_view l l'.
Proof. apply grows_refs. Qed.

Lemma alike_refl cx : alike cx cx.
Proof. exists (x_stores cx). now destruct cx. Qed.

Lemma signer_similar v w w' a cx l :
  similar v w w' -> signer_context w a v cx l ->
  exists cx' l', signer_context w' a v cx' l' /\ Forall2 same_view l l' /\ alike cx cx'.
Proof.
  intros (G & S1 & _) S. unfold signer_context in *. destruct (va_context v) as [x|].
  - destruct S as [H1 H2]. destruct (grows_nth_stores _ _ _ _ G H2) as (l' & H3 & V).
    exists cx, l'. split; [split; [now apply S1|assumption]|]. split; [assumption|apply alike_refl].
  - destruct S as (ts & H1 & -> & ->). pose proof G as (_ & _ & G3). destruct (G3 _ _ H1) as (ts' & H2 & V).
    do 2 eexists. split; [exists ts'; split; [exact H2|]; split; reflexivity|].
    split; [constructor; [assumption|apply same_views_refl]|]. eexists. reflexivity.
Qed.

Lemma counter_similar v w w' a c cy l :
  similar v w w' -> counter_context w a c v cy l ->
  exists cy' l', counter_context w' a c v cy' l' /\ Forall2 same_view l l' /\ alike_untimed cy cy'.
Proof.
  intros (G & _ & S2) S. unfold counter_context in *. destruct (va_cs_context v) as [y|].
  - destruct S as [H1 H2]. destruct (S2 y cy eq_refl H1) as (t & H3).
    destruct (grows_nth_stores _ _ _ _ G H2) as (l' & H4 & V).
    exists (at_time t cy), l'. split; [split; assumption|]. split; [assumption|].
    exists (x_stores cy), t. reflexivity.
  - destruct S as (ts & H1 & S). pose proof G as (_ & _ & G3). destruct (G3 _ _ H1) as (ts' & H2 & V).
    destruct c as [i|tk]; destruct S as [-> ->]; do 2 eexists; (split; [exists ts'; split; [exact H2|]; split; reflexivity|]);
      (split; [constructor; [assumption|apply same_views_refl]|]);
      eexists; exists (kw_timestamp (va_kwargs v)); reflexivity.
Qed.

Lemma considered_dec a v : (exists c, considered a v c) \/ (forall c, ~ considered a v c).
Proof.
  unfold considered. destruct (asi_cs (asd_signer a)) as [c|].
  - destruct (String.eqb_spec (va_mode v) "ignore") as [E|N].
    + right. intros c0 [_ H]. contradiction.
    + left. eauto.
  - right. intros c [H _]. discriminate H.
Qed.

Lemma usable_situation w v a : usable w v a -> exists cx l oc, situation w a v cx l oc.
Proof.
  intros [(cx & l & S & R) C]. exists cx, l. destruct (considered_dec a v) as [[c K]|N].
  - destruct (C c K) as (cy & ly & Hc & Ry). exists (Some (c, cy, ly)). split; [assumption|]. split; [assumption|]. auto.
  - exists None. split; [assumption|]. split; assumption.
Qed.

Lemma prepare_verdict a v w w' :
  (exists w1 w1' x x' y y', prepare_contexts a v w = (w1, Ok (x, y)) /\ prepare_contexts a v w' = (w1', Ok (x', y'))) \/
  (exists w1 w1' e, prepare_contexts a v w = (w1, Err e) /\ prepare_contexts a v w' = (w1', Err e)).
Proof.
  rewrite !prepare_eq. cbv zeta.
  destruct (match va_context v with None => negb (kw_valid (va_kwargs v)) | Some _ => false end).
  { right. do 3 eexists. split; reflexivity. }
  destruct (va_cs_context v) as [y0|]; [left; do 6 eexists; split; reflexivity|].
  destruct (asi_cs (asd_signer a)) as [c|]; [|left; do 6 eexists; split; reflexivity].
  destruct (String.eqb (va_mode v) "ignore"); [left; do 6 eexists; split; reflexivity|].
  destruct (kw_valid (va_kwargs v)); [|right; do 3 eexists; split; reflexivity].
  destruct c; left; do 6 eexists; split; reflexivity.
Qed.

Theorem verdict_similar E fuel v w w' a expected :
  similar v w w' -> usable w v a ->
  (forall c, considered a v c -> distinct_contexts v) ->
  snd (asd_verify E fuel a expected v w) = snd (asd_verify E fuel a expected v w') \/
  (expected = None /\
   (snd (asd_verify E fuel a expected v w) = Err out_of_fuel \/
    snd (asd_verify E fuel a expected v w') = Err out_of_fuel)).
Proof.
  intros Sim U D. destruct (usable_situation _ _ _ U) as (cx & l & oc & S & R & C).
  destruct (signer_similar _ _ _ _ _ _ Sim S) as (cx' & l' & S' & V & (rs & ->)).
  assert (C' : exists oc', situation w' a v (with_stores rs cx) l' oc' /\
            p_result E a (va_mode v) (with_stores rs cx) l' oc' = p_result E a (va_mode v) cx l oc).
  { unfold p_result, situation. destruct oc as [[[c cy] ly]|].
    - destruct C as (K & Cc & Ry). destruct (counter_similar _ _ _ _ _ _ _ Sim Cc) as (cy' & ly' & Cc' & Vy & Ay).
      exists (Some (c, cy', ly')). split.
      + split; [assumption|]. split; [eapply same_view_readable; eassumption|]. split; [assumption|].
        split; [assumption|eapply same_view_readable; eassumption].
      + rewrite (p_counter_alike E a c ly ly' cy cy' Vy Ay).
        destruct (p_mode (va_mode v) c (snd (p_counter E a c ly cy))) as [st|]; cbn [rbind]; [|reflexivity].
        now rewrite (p_signer_view E true _ st l l' _ V), p_signer_refs.
    - exists None. split.
      + split; [assumption|]. split; [eapply same_view_readable; eassumption|assumption].
      + cbn [rbind]. now rewrite (p_signer_view E true _ None l l' _ V), p_signer_refs. }
  destruct C' as (oc' & S2 & Er).
  assert (D1 : forall o, situation w a v cx l o -> o <> None -> distinct_contexts v).
  { intros [[[c cy] ly]|] (_ & _ & K) N; [|now elim N]. apply (D c), K. }
  assert (D2 : forall o, situation w' a v (with_stores rs cx) l' o -> o <> None -> distinct_contexts v).
  { intros [[[c cy] ly]|] (_ & _ & K) N; [|now elim N]. apply (D c), K. }
  destruct (prepare_verdict a v w w') as [(w1 & w1' & x & x' & y & y' & P & P')|(w1 & w1' & e & P & P')].
  - rewrite (asd_verify_pure E fuel a expected v w w1 x y cx l oc); [|split; auto|apply D1; split; auto|assumption].
    rewrite (asd_verify_pure E fuel a expected v w' w1' x' y' (with_stores rs cx) l' oc'); [|assumption|now apply D2|assumption].
    rewrite Er.
    destruct (prepare_shape _ _ _ _ _ _ P) as (_ & _ & _ & _ & E1 & _).
    destruct (prepare_shape _ _ _ _ _ _ P') as (_ & _ & _ & _ & E2 & _).
    destruct (check_digests_det E fuel fuel a expected w1 w1') as [Ed|[En Ed]].
    + rewrite E1, E2. apply Sim.
    + rewrite Ed. now left.
    + right. split; [assumption|]. destruct Ed as [->| ->]; auto.
  - left. unfold asd_verify, mbind. now rewrite P, P'.
Qed.

Theorem c33 E fuel v jobs w a expected :
  shareable w v (a :: map fst jobs) -> usable w v a ->
  snd (asd_verify E fuel a expected v w) = snd (asd_verify E fuel a expected v (after_verifying E fuel v jobs w)) \/
  (expected = None /\
   (snd (asd_verify E fuel a expected v w) = Err out_of_fuel \/
    snd (asd_verify E fuel a expected v (after_verifying E fuel v jobs w)) = Err out_of_fuel)).
Proof.
  intros Sh U. apply verdict_similar; [|assumption|].
  - apply after_verifying_similar. eapply shareable_incl; [|exact Sh]. intros b Hb. now right.
  - intros c K x y Hx Hy. exfalso. destruct Sh as [Sx _]. destruct (Sx x Hx) as (cx & _ & _ & N).
    exact (N a c (or_introl eq_refl) K).
Qed.

(** ** C34 *)

Section validator.
Context (mk : list cert -> option datetime -> vopts -> cert -> list cert -> res unit).
Context (validate : list cert -> option datetime -> vopts -> cert -> list cert -> list string -> list string -> bool -> res (list Z)).
Context (E : env).

(** The other validator agrees when it is called with the certificates of [l]. *)
Definition agrees (l : list store) : Prop :=
  (forall t o c, mk (roots l) t o c (intermediates l) = e_mk_validation E (roots l) t o c (intermediates l)) /\
  (forall t o c ku eku b, validate (roots l) t o c (intermediates l) ku eku b =
                          e_validate E (roots l) t o c (intermediates l) ku eku b).

Lemma agrees_view l l' : Forall2 same_view l l' -> agrees l -> agrees l'.
Proof.
  intros V. unfold agrees, roots, intermediates.
  pose proof (same_view_filter (fun b => b) l l' V) as F1. pose proof (same_view_filter negb l l' V) as F2.
  cbn beta in F1. now rewrite F1, F2.
Qed.

Lemma verify_trust_other x chain w :
  verify_trust (with_validator mk validate E) x chain w = verify_trust E x chain w.
Proof.
  unfold verify_trust, mbind. destruct (get_context x w) as [w1 [cx|e]]; [|reflexivity].
  assert (G : forall rs last k, verify_trust_loop (with_validator mk validate E) x chain rs last k = verify_trust_loop E x chain rs last k).
  { induction rs as [|r rs IH]; intros last k; cbn [verify_trust_loop]; [reflexivity|].
    change (store_verify_trust (with_validator mk validate E) r chain x k) with (store_verify_trust E r chain x k).
    destruct (store_verify_trust E r chain x k) as [k1 [[]|e]]; [reflexivity|apply IH|].
    destruct (catches _ e); [apply IH|]. destruct (catches VerificationError e); [apply IH|reflexivity]. }
  now rewrite G.
Qed.

Lemma context_verify_other x c w cx l :
  nth_error (w_contexts w) x = Some cx -> refs w (x_stores cx) l -> agrees l ->
  context_verify (with_validator mk validate E) x c w = context_verify E x c w.
Proof.
  intros Hc Hr [A1 A2]. unfold context_verify, mbind. rewrite (get_context_ok _ _ _ Hc).
  destruct (iter_stores_spec (x_stores cx) w l Hr) as [(w1 & l1 & A & Hr1 & V & R & E1)|(w1 & e & A & E1)];
    rewrite E1; [|reflexivity].
  pose proof (pick_by_stores w1 (fun b => b) _ _ _ Hr1 V) as P1. cbn beta in P1.
  change (fun r => store_trusted w1 r) with (store_trusted w1) in P1. rewrite P1.
  rewrite (pick_by_stores w1 negb _ _ _ Hr1 V). fold (roots l) (intermediates l).
  cbn [with_validator e_mk_validation e_validate]. unfold mres at 1. rewrite A1.
  unfold mres at 4.
  destruct (e_mk_validation E (roots l) (x_timestamp cx) (x_opts cx) c (intermediates l)); [|reflexivity].
  assert (Hc1 : nth_error (w_contexts w1) x = Some cx) by (destruct A as (-> & _); assumption).
  destruct (read_usages w1 x cx Hc1) as (w2 & Eu1 & Eu2).
  unfold mtry. rewrite !Eu1, !Eu2, !A2. unfold mres.
  destruct (e_validate E _ _ _ c _ _ _ _) as [ids|e].
  - destruct (map_ids _ ids) as [ch|]; [|reflexivity]. now rewrite verify_trust_other.
  - destruct (catches Exception_ e); [|reflexivity].
    destruct (raise_fmt c CertificateVerificationError "Chain verification failed") as [ids|]; [|reflexivity].
    destruct (map_ids _ ids) as [ch|]; [|reflexivity]. now rewrite verify_trust_other.
Qed.

Lemma signer_verify_other auth i x st w cx l :
  nth_error (w_contexts w) x = Some cx -> refs w (x_stores cx) l -> agrees l ->
  signer_verify (with_validator mk validate E) auth i x st w = signer_verify E auth i x st w.
Proof.
  intros Hc Hr Ag.
  assert (Hissuer : forall k c, keeps (fun _ => True) x w k ->
     verify_issuer (with_validator mk validate E) auth i x st c k = verify_issuer E auth i x st c k).
  { intros k c (V & _ & _ & Kx). destruct (Kx _ Hc) as (cx1 & Hc1 & Ev).
    rewrite (verify_issuer_step _ _ _ _ _ _ _ _ Hc1), (verify_issuer_step E _ _ _ _ _ _ _ Hc1).
    change (verify_issuer_signature (with_validator mk validate E) i c (v_allow_legacy (x_opts cx1)))
      with (verify_issuer_signature E i c (v_allow_legacy (x_opts cx1))).
    destruct (verify_issuer_signature E i c (v_allow_legacy (x_opts cx1))); [|reflexivity].
    destruct (views_refs _ _ _ _ V Hr) as (l1 & Hr1 & Vl).
    apply (context_verify_other _ _ _ (later (effective auth st c) cx1) l1).
    - now apply (with_context_nth _ cx1).
    - assert (x_stores (later (effective auth st c) cx1) = x_stores cx) as ->.
      { destruct Ev as (Ev & _). now destruct (effective auth st c). }
      exact Hr1.
    - eapply agrees_view; eassumption. }
  set (b' := build_chain_body (with_validator mk validate E) auth i x st).
  set (b := build_chain_body E auth i x st).
  assert (Hb : forall k c acc, keeps (fun _ => True) x w k -> b' c acc k = b c acc k).
  { intros k c acc K. unfold b', b, build_chain_body. now rewrite Hissuer. }
  assert (Hp : forall c acc, preserves (fun _ => True) x (b c acc)).
  { intros c acc k k' r H. unfold b, build_chain_body in H.
    destruct (verify_issuer E auth i x st c k) as [k1 [ch|e]] eqn:Ei;
      pose proof (pres_verify_issuer (fun _ => True) x E auth i st c (fun _ _ => I) _ _ _ Ei) as K.
    - injection H as <- _. assumption.
    - destruct (catches VerificationError e); injection H as <- _; assumption. }
  assert (Hitems : forall q l seen acc k, keeps (fun _ => True) x w k ->
     find_items (with_validator mk validate E) q b' l seen acc k = find_items E q b l seen acc k).
  { intros q. induction l0 as [|c l0 IH]; intros seen acc k K; cbn [find_items]; [reflexivity|].
    change (query_matches (with_validator mk validate E) q c) with (query_matches E q c).
    destruct (query_matches E q c); [|now apply IH]. destruct (cert_mem c seen); [now apply IH|].
    unfold mbind. rewrite (Hb k c acc K). destruct (b c acc k) as [k1 [acc1|e]] eqn:Ek; [|reflexivity].
    apply IH. eapply keeps_trans; [exact K|]. eapply Hp. exact Ek. }
  assert (Hstores : forall q rs seen acc k, keeps (fun _ => True) x w k ->
     find_stores (with_validator mk validate E) q b' rs seen acc k = find_stores E q b rs seen acc k).
  { intros q. induction rs as [|r rs IH]; intros seen acc k K; cbn [find_stores]; [reflexivity|].
    unfold mbind. destruct (store_iter r k) as [k1 [l1|e]] eqn:Es; [|reflexivity].
    assert (K1 : keeps (fun _ => True) x w k1).
    { eapply keeps_trans; [exact K|]. eapply pres_store_iter. exact Es. }
    rewrite (Hitems q l1 seen acc k1 K1). destruct (find_items E q b l1 seen acc k1) as [k2 [p|e]] eqn:Ei; [|reflexivity].
    apply IH. eapply keeps_trans; [exact K1|]. eapply (pres_find_items _ _ E q b Hp). exact Ei. }
  unfold signer_verify, build_chain, for_certificates, mbind. rewrite (get_context_ok _ _ _ Hc).
  fold b' b. rewrite (Hstores _ _ _ _ _ (keeps_refl _ _ _)). reflexivity.
Qed.

Lemma check_countersigner_other a c y tr w cy l :
  nth_error (w_contexts w) y = Some cy -> refs w (x_stores cy) l -> agrees l ->
  check_countersigner (with_validator mk validate E) a c y tr w = check_countersigner E a c y tr w.
Proof.
  intros Hc Hr Ag. unfold check_countersigner.
  change (check_message_digest (with_validator mk validate E) c) with (check_message_digest E c).
  destruct (negb _); [reflexivity|]. unfold mbind. rewrite (set_timestamp_ok _ _ _ _ Hc).
  set (w1 := with_context y (at_time (cs_signing_time c) cy) w).
  assert (Hc1 : nth_error (w_contexts w1) y = Some (at_time (cs_signing_time c) cy)) by now apply (with_context_nth _ cy).
  assert (Hr1 : refs w1 (x_stores (at_time (cs_signing_time c) cy)) l) by exact Hr.
  destruct c as [i|t]; cbn [cs_verify].
  - now rewrite (signer_verify_other false i y None w1 _ l Hc1 Hr1 Ag).
  - unfold rsd_verify. change (content_digest (with_validator mk validate E) (r_data t)) with (content_digest E (r_data t)).
    destruct (negb _); [reflexivity|]. unfold mbind, mret.
    now rewrite (signer_verify_other false (r_signer t) y None w1 _ l Hc1 Hr1 Ag).
Qed.

Lemma asd_verify_other fuel a expected v w cx l :
  signer_context w a v cx l -> agrees l ->
  (forall c, considered a v c -> exists cy ly, counter_context w a c v cy ly /\ agrees ly) ->
  asd_verify (with_validator mk validate E) fuel a expected v w = asd_verify E fuel a expected v w.
Proof.
  intros S Ag Cg. unfold asd_verify, mbind.
  destruct (prepare_contexts a v w) as [w1 [[x y]|e]] eqn:P; [|reflexivity]. cbn [fst snd].
  change (check_digests (with_validator mk validate E) fuel a expected w1) with (check_digests E fuel a expected w1).
  destruct (check_digests E fuel a expected w1) as [w2 [[]|e]] eqn:D; [|reflexivity].
  assert (countersignature_time (with_validator mk validate E) a v y w2 = countersignature_time E a v y w2) as ->.
  { unfold countersignature_time. destruct (asi_cs (asd_signer a)) as [c|] eqn:Ec; [|reflexivity].
    destruct (String.eqb_spec (va_mode v) "ignore") as [|Ni]; [reflexivity|].
    assert (K : considered a v c) by (split; assumption).
    destruct (Cg c K) as (cy & ly & Hcy & Agy).
    destruct (at_counter _ _ _ _ _ _ _ _ _ _ _ _ _ P D K Hcy) as (y0 & -> & Hy & Hry).
    now rewrite (check_countersigner_other a c y0 (va_trusted v) w2 cy ly Hy Hry Agy). }
  destruct (countersignature_time E a v y w2) as [w3 [st|e]] eqn:C; [|reflexivity].
  destruct (at_signer _ _ _ _ _ _ _ _ _ _ _ _ _ _ P D C S) as (cx3 & l3 & Hx & Hr & V3 & _).
  apply (signer_verify_other true _ x st w3 cx3 l3 Hx Hr). eapply agrees_view; eassumption.
Qed.
End validator.

Theorem c34 mk validate E fuel a expected v w ts :
  va_context v = None -> va_cs_context v = None ->
  nth_error (w_stores w) (va_trusted v) = Some ts ->
  let anchors := if s_trusted ts then contents ts else [] in
  let others := if s_trusted ts then [] else contents ts in
  (forall t o c more,
     more = [] \/ (exists tk, asi_cs (asd_signer a) = Some (CSToken tk) /\ more = sd_certificates (r_data tk)) ->
     mk anchors t o c (others ++ sd_certificates (asd_data a) ++ more) =
     e_mk_validation E anchors t o c (others ++ sd_certificates (asd_data a) ++ more)) ->
  (forall t o c more ku eku b,
     more = [] \/ (exists tk, asi_cs (asd_signer a) = Some (CSToken tk) /\ more = sd_certificates (r_data tk)) ->
     validate anchors t o c (others ++ sd_certificates (asd_data a) ++ more) ku eku b =
     e_validate E anchors t o c (others ++ sd_certificates (asd_data a) ++ more) ku eku b) ->
  asd_verify (with_validator mk validate E) fuel a expected v w = asd_verify E fuel a expected v w.
Proof.
  intros Hx Hy Ht anchors others Hm Hv.
  assert (A1 : agrees mk validate E [ts; shipped (asd_data a)]).
  { unfold agrees, roots, intermediates. cbn [filter shipped s_trusted negb]. subst anchors others.
    destruct (s_trusted ts); cbn [negb map concat contents shipped s_items s_location]; rewrite ?app_nil_r.
    - split; [intros t o c; specialize (Hm t o c [] (or_introl eq_refl)); rewrite app_nil_r in Hm; exact Hm|].
      intros. specialize (Hv t o c [] ku eku b (or_introl eq_refl)).
      rewrite app_nil_r in Hv. exact Hv.
    - split; [intros t o c; specialize (Hm t o c [] (or_introl eq_refl)); rewrite app_nil_r in Hm; exact Hm|].
      intros. specialize (Hv t o c [] ku eku b (or_introl eq_refl)).
      rewrite app_nil_r in Hv. exact Hv. }
  apply (asd_verify_other mk validate E fuel a expected v w
           (default_context [va_trusted v; length (w_stores w)] "code_signing" (va_kwargs v)) [ts; shipped (asd_data a)]).
  - unfold signer_context. rewrite Hx. exists ts. auto.
  - exact A1.
  - intros c [Hc _]. unfold counter_context. rewrite Hy. destruct c as [i|tk].
    + do 2 eexists. split; [exists ts; split; [assumption|]; split; reflexivity|]. exact A1.
    + do 2 eexists. split; [exists ts; split; [assumption|]; split; reflexivity|].
      unfold agrees, roots, intermediates. cbn [filter shipped s_trusted negb]. subst anchors others.
      assert (Hm' := or_intror (ex_intro (fun tk0 => asi_cs (asd_signer a) = Some (CSToken tk0) /\
         sd_certificates (r_data tk) = sd_certificates (r_data tk0)) tk (conj Hc eq_refl)) : sd_certificates (r_data tk) = [] \/ _).
      destruct (s_trusted ts); cbn [negb map concat contents shipped s_items s_location]; rewrite ?app_nil_r;
        (split; [intros t o c; exact (Hm t o c (sd_certificates (r_data tk)) Hm')|]); intros; exact (Hv t o c (sd_certificates (r_data tk)) ku eku b Hm').
Qed.
