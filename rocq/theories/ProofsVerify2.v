(** What a successful AuthenticodeSignedData.verify establishes. *)
From Verif Require Import Base Bytes Monad ModelFile ModelFingerprint ModelPE SpecPE ModelX509 SpecX509
  ProofsX509 ProofsX509b ModelContext SpecContext ProofsCTL ProofsContext ProofsContext2 ModelPkcs7 ProofsPkcs7b
  ModelAuthenticode SpecAuthenticode ProofsSigner ProofsSigner2 ProofsVerify.
From Coq Require Import ZifyBool ZifyNat.

Lemma asd_verify_steps E fuel a expected v w w' chains :
  asd_verify E fuel a expected v w = (w', Ok chains) ->
  exists w1 x y w2 w3 st,
    prepare_contexts a v w = (w1, Ok (x, y)) /\ check_digests E fuel a expected w1 = (w2, Ok tt) /\
    countersignature_time E a v y w2 = (w3, Ok st) /\
    signer_verify E true (asi_info (asd_signer a)) x st w3 = (w', Ok chains).
Proof.
  unfold asd_verify, mbind. destruct (prepare_contexts a v w) as [w1 [[x y]|e]]; [|discriminate].
  destruct (check_digests E fuel a expected w1) as [w2 [[]|e]] eqn:Ed; [|discriminate]. cbn [fst snd].
  destruct (countersignature_time E a v y w2) as [w3 [st|e]] eqn:Et; [|discriminate].
  intros H. exists w1, x, y, w2, w3, st. repeat split; assumption.
Qed.

Lemma cs_time_stated c : cs_signing_time c = counter_stated_time c.
Proof. reflexivity. Qed.

Lemma counter_time_run E a v y w w' r :
  countersignature_time E a v y w = (w', r) ->
  ((forall c, ~ considered a v c) /\ w' = w /\ r = Ok None) \/
  (exists c, considered a v c /\ y = None /\ w' = w /\ exists m, r = raise AssertionError m) \/
  (exists c y0 r0, considered a v c /\ y = Some y0 /\
     check_countersigner E a c y0 (va_trusted v) w = (w', r0) /\
     match r0 with
     | Ok _ => r = Ok (counter_stated_time c)
     | Err e => if issubclass (e_class e) Exception_
                then (va_mode v = "strict" /\ exists m, r = raise AuthenticodeCounterSignerError m) \/
                     (va_mode v <> "strict" /\ r = Ok None)
                else r = Err e
     end).
Proof.
  unfold countersignature_time, considered. destruct (asi_cs (asd_signer a)) as [c|].
  2: { intros H. injection H as <- <-. left. split; [intros c [H _]; discriminate H|]. auto. }
  destruct (String.eqb_spec (va_mode v) "ignore") as [Ei|Ni].
  { intros H. injection H as <- <-. left. split; [intros c0 [_ H]; contradiction|]. auto. }
  destruct y as [y0|].
  2: { intros H. injection H as <- <-. right. left. exists c. repeat split; auto. eexists. reflexivity. }
  destruct (check_countersigner E a c y0 (va_trusted v) w) as [w1 r0] eqn:Ec. intros H.
  right. right. exists c, y0, r0. split; [auto|]. split; [reflexivity|].
  destruct r0 as [[]|e].
  - injection H as <- <-. auto.
  - unfold catches in H. destruct (issubclass (e_class e) Exception_).
    + destruct (String.eqb_spec (va_mode v) "strict") as [Es|Ns]; injection H as <- <-; (split; [assumption|]).
      * left. split; [assumption|]. eexists. reflexivity.
      * right. auto.
    + injection H as <- <-. auto.
Qed.

Lemma same_views_refl l : Forall2 same_view l l.
Proof. induction l; constructor; [apply same_view_refl|assumption]. Qed.

(** ** Soundness of the countersignature check *)

Lemma check_message_digest_covers E c data : check_message_digest E c data = true <-> covers E c data.
Proof.
  destruct c as [i|t]; cbn.
  - apply option_bytes_eqb_spec.
  - rewrite bytes_eqb_spec. split; congruence.
Qed.

Lemma stamped_none E auth i cx l t : ~ stamped E auth i None cx l t.
Proof. intros (_ & N & _). now apply N. Qed.

Lemma verified_accepted E auth i cx l chain :
  verified_chain E auth i None cx l chain -> signer_accepted E i cx l.
Proof.
  intros (c & cx' & H1 & H2 & H3 & H4 & _ & H5). exists chain, c, cx'.
  repeat (split; [assumption|]). split; [eapply evolved_mono; [|exact H4]; auto|]. split; [|assumption].
  destruct H4 as (_ & _ & _ & _ & _ & [H4|H4]); [assumption|]. now apply stamped_none in H4.
Qed.

Lemma check_countersigner_sound E a c y tr w w' cy l :
  nth_error (w_contexts w) y = Some cy -> refs w (x_stores cy) l ->
  check_countersigner E a c y tr w = (w', Ok tt) -> counter_holds E a c cy l.
Proof.
  intros Hc Hr. unfold check_countersigner.
  destruct (check_message_digest E c _) eqn:Em; cbn [negb]; [|discriminate].
  apply check_message_digest_covers in Em. unfold mbind. rewrite (set_timestamp_ok _ _ _ _ Hc).
  set (w1 := with_context y (at_time (cs_signing_time c) cy) w).
  assert (Hc1 : nth_error (w_contexts w1) y = Some (at_time (cs_signing_time c) cy)).
  { now apply (with_context_nth _ cy). }
  assert (Hr1 : refs w1 (x_stores (at_time (cs_signing_time c) cy)) l) by exact Hr.
  assert (G : forall i chains w2, signer_verify E false i y None w1 = (w2, Ok chains) ->
     signer_accepted E i (at_time (cs_signing_time c) cy) l).
  { intros i chains w2 H. destruct (signer_verify_sound _ _ _ _ _ _ _ _ _ _ Hc1 Hr1 H) as [_ S].
    destruct (S _ eq_refl) as [N F]. destruct chains as [|ch chains]; [now elim N|].
    inversion F; subst. eapply verified_accepted. eassumption. }
  destruct (cs_verify E c y tr w1) as [w2 [chains|e]] eqn:Ev; [|discriminate].
  intros _. split; [exact Em|]. rewrite <- cs_time_stated. destruct c as [i|t]; cbn [cs_verify counter_signer] in *.
  - split; [eapply G; exact Ev|discriminate].
  - unfold rsd_verify in Ev. destruct (option_bytes_eqb _ _) eqn:Eo; cbn [negb] in Ev; [|discriminate Ev].
    apply option_bytes_eqb_spec in Eo. split; [eapply G; exact Ev|].
    intros t0 Et. injection Et as <-. exact Eo.
Qed.

Lemma same_view_accepted E i cx l l' : Forall2 same_view l l' -> signer_accepted E i cx l' -> signer_accepted E i cx l.
Proof.
  intros V (chain & c & cx' & H1 & H2 & H3 & H4 & H5 & H6). exists chain, c, cx'.
  split; [now apply (same_view_in _ _ _ V)|]. repeat (split; [assumption|]).
  now apply (same_view_chain _ _ _ _ _ _ V).
Qed.

Lemma same_view_holds E a c cy l l' : Forall2 same_view l l' -> counter_holds E a c cy l' -> counter_holds E a c cy l.
Proof.
  intros V (H1 & H2 & H3). split; [assumption|]. split; [|assumption]. eapply same_view_accepted; eassumption.
Qed.

(** ** Between the preparation and the signer *)

(** The context of the signer when its chain is built: its timestamp is its own, or it is
    also the context of the countersigner. *)
Lemma at_signer E fuel a expected v w w1 x y w2 w3 st cx l :
  prepare_contexts a v w = (w1, Ok (x, y)) -> check_digests E fuel a expected w1 = (w2, Ok tt) ->
  countersignature_time E a v y w2 = (w3, Ok st) -> signer_context w a v cx l ->
  exists cx3 l3, nth_error (w_contexts w3) x = Some cx3 /\ refs w3 (x_stores cx3) l3 /\ Forall2 same_view l l3 /\
    evolved (fun t => exists c, considered a v c /\ t = counter_stated_time c) cx cx3 /\
    ((forall c, considered a v c -> exists cy ly, counter_context w a c v cy ly) -> distinct_contexts v -> cx3 = cx).
Proof.
  intros P D C S. destruct (prepare_signer _ _ _ _ _ _ _ _ P S) as [Hx Hr].
  destruct (check_digests_objects _ _ _ _ _ _ _ D) as (D1 & D2 & D3).
  assert (Hx2 : nth_error (w_contexts w2) x = Some cx) by now rewrite D2.
  assert (Hr2 : refs w2 (x_stores cx) l) by (unfold refs; now rewrite D1).
  destruct (counter_time_run _ _ _ _ _ _ _ C) as [(_ & -> & _)|[(c & _ & _ & _ & m & H)|(c & y0 & r0 & K & -> & H & _)]].
  - exists cx, l. split; [assumption|]. split; [assumption|]. split; [apply same_views_refl|].
    split; [apply evolved_refl|auto].
  - discriminate H.
  - assert (Kp : keeps (fun t => exists c, considered a v c /\ t = counter_stated_time c) y0 w2 w3).
    { revert H. apply pres_check_countersigner. exists c. auto. }
    destruct Kp as (V & _ & Kn & Ky). destruct (views_refs _ _ _ _ V Hr2) as (l3 & Hr3 & V3).
    destruct (Nat.eq_dec x y0) as [<-|Ne].
    + destruct (Ky _ Hx2) as (cx3 & Hx3 & Ev). exists cx3, l3. split; [assumption|].
      assert (x_stores cx3 = x_stores cx) as -> by apply Ev. repeat (split; [assumption|]).
      intros Hcc Hd. destruct (Hcc c K) as (cy & ly & Hcy).
      destruct (prepare_counter _ _ _ _ _ _ _ _ _ P K Hcy) as (y1 & Ey & _ & _ & Hne). injection Ey as <-.
      now elim (Hne cx l S Hd).
    + exists cx, l3. rewrite (Kn x Ne). repeat (split; [assumption|]). split; [apply evolved_refl|auto].
Qed.

(** The timestamps at which a chain may have been validated when the signing time is [st]. *)
Definition timing (E : env) (i : sinfo) (cx : context) (l : list store) (st : option datetime) (c : cert) (t : option datetime) : Prop :=
  (st <> None -> ~ lifetime c -> t = st) /\ (st = None -> t = x_timestamp cx) /\
  (t = x_timestamp cx \/
   (t = st /\ exists d, In d (concat (map contents l)) /\ named i d /\ signs E (v_allow_legacy (x_opts cx)) i d /\ ~ lifetime d)).

Lemma effective_lifetime st c : st <> None -> effective true st c = st -> ~ lifetime c.
Proof.
  intros N H L. apply lifetime_spec in L. unfold effective in H. rewrite L in H. cbn in H. congruence.
Qed.

Lemma effective_plain st c : ~ lifetime c -> effective true st c = st.
Proof.
  intros N. unfold effective. destruct (lifetime_signing c) eqn:L; [|reflexivity]. apply lifetime_spec in L. contradiction.
Qed.

Lemma verified_signed E i st cx l chain :
  verified_chain E true i st cx l chain -> signed_chain E i cx l (timing E i cx l st) chain.
Proof.
  intros (c & cx' & H1 & H2 & H3 & H4 & H5 & H6). exists c, cx'. repeat (split; [assumption|]).
  split; [eapply evolved_mono; [|exact H4]; auto|]. split; [|assumption].
  unfold timing. destruct H4 as (_ & _ & _ & _ & _ & H4). split; [|split].
  - intros N L. destruct st as [t|]; [|now elim N]. apply H5. now apply effective_plain.
  - intros ->. destruct H4 as [H4|H4]; [assumption|]. now apply stamped_none in H4.
  - destruct H4 as [H4|(H4 & N & d & D1 & D2 & D3 & D4)]; [now left|]. right. split; [congruence|].
    exists d. repeat (split; [assumption|]). eapply effective_lifetime; eassumption.
Qed.

(** Everything about the chains of a successful verification, given the state in which the
    signer is verified. *)
Lemma signer_chains E i x st w w' chains cx l :
  nth_error (w_contexts w) x = Some cx -> refs w (x_stores cx) l ->
  signer_verify E true i x st w = (w', Ok chains) ->
  chains <> [] /\ Forall (signed_chain E i cx l (timing E i cx l st)) chains.
Proof.
  intros Hc Hr H. destruct (signer_verify_sound _ _ _ _ _ _ _ _ _ _ Hc Hr H) as [_ S].
  destruct (S _ eq_refl) as [N F]. split; [assumption|]. eapply Forall_impl; [|exact F]. cbn beta.
  intros chain. apply verified_signed.
Qed.

Lemma signed_chain_view E i cx l l' (T T' : cert -> option datetime -> Prop) chain :
  Forall2 same_view l l' -> (forall c t, T c t -> T' c t) ->
  signed_chain E i cx l' T chain -> signed_chain E i cx l T' chain.
Proof.
  intros V I (c & cx' & H1 & H2 & H3 & H4 & H5 & H6). exists c, cx'.
  split; [now apply (same_view_in _ _ _ V)|]. repeat (split; [assumption|]). split; [now apply I|].
  now apply (same_view_chain _ _ _ _ _ _ V).
Qed.

Lemma timing_view E i cx l l' st c t : Forall2 same_view l l' -> timing E i cx l' st c t -> timing E i cx l st c t.
Proof.
  intros V (H1 & H2 & H3). split; [assumption|]. split; [assumption|].
  destruct H3 as [H3|(H3 & d & D1 & D2)]; [now left|]. right. split; [assumption|]. exists d.
  split; [now apply (same_view_in _ _ _ V)|assumption].
Qed.

(** ** C25, C26 *)

Theorem c25 E fuel a expected v w w' chains :
  asd_verify E fuel a expected v w = (w', Ok chains) ->
  algorithms_agree a /\
  expected_hash E (f_bytes (w_file w)) a expected (sp_digest (asd_spc a)) /\
  content_matches E (asd_data a) (asi_info (asd_signer a)).
Proof.
  intros H. destruct (asd_verify_steps _ _ _ _ _ _ _ _ H) as (w1 & x & y & w2 & w3 & st & P & D & _).
  destruct (prepare_shape _ _ _ _ _ _ P) as (_ & _ & _ & _ & Ef & _).
  rewrite <- Ef. eapply check_digests_ok. exact D.
Qed.

Theorem c26 E fuel a expected v w w' chains cx l :
  asd_verify E fuel a expected v w = (w', Ok chains) -> signer_context w a v cx l ->
  chains <> [] /\
  Forall (signed_chain E (asi_info (asd_signer a)) cx l
            (fun _ t => t = x_timestamp cx \/ exists c, considered a v c /\ t = counter_stated_time c)) chains.
Proof.
  intros H S. destruct (asd_verify_steps _ _ _ _ _ _ _ _ H) as (w1 & x & y & w2 & w3 & st & P & D & C & V).
  destruct (at_signer _ _ _ _ _ _ _ _ _ _ _ _ _ _ P D C S) as (cx3 & l3 & Hx & Hr & V3 & Ev & _).
  destruct (signer_chains _ _ _ _ _ _ _ _ _ Hx Hr V) as [N F]. split; [assumption|].
  eapply Forall_impl; [|exact F]. cbn beta. intros chain (c & cx' & H1 & H2 & H3 & H4 & (_ & Ht0 & H5) & H6).
  exists c, cx'. split; [now apply (same_view_in _ _ _ V3)|]. split; [assumption|].
  split. { assert (x_opts cx3 = x_opts cx) as <- by apply Ev. assumption. }
  split. { eapply evolved_trans; [eapply evolved_mono; [|exact Ev]; auto|exact H4]. }
  split; [|now apply (same_view_chain _ _ _ _ _ _ V3)].
  assert (St : st = None \/ exists c, considered a v c /\ st = counter_stated_time c).
  { destruct (counter_time_run _ _ _ _ _ _ _ C) as [(_ & _ & R)|[(k & _ & _ & _ & m & R)|(k & y0 & r0 & K & _ & _ & R)]].
    - injection R as ->. now left.
    - discriminate R.
    - destruct r0 as [[]|e]; [injection R as ->; right; eauto|].
      destruct (issubclass (e_class e) Exception_); [|discriminate R].
      destruct R as [(_ & m & R)|(_ & R)]; [discriminate R|]. injection R as ->. now left. }
  destruct Ev as (_ & _ & _ & _ & _ & Et).
  destruct H5 as [H5|(H5 & _)]; [rewrite H5; exact Et|].
  destruct St as [St|(k & K & St)]; [rewrite (Ht0 St); exact Et|]. right. exists k. split; [assumption|congruence].
Qed.

(** ** C28 *)

(** The state in which a countersignature is checked. *)
Lemma at_counter E fuel a expected v w w1 x y w2 c cy ly :
  prepare_contexts a v w = (w1, Ok (x, y)) -> check_digests E fuel a expected w1 = (w2, Ok tt) ->
  considered a v c -> counter_context w a c v cy ly ->
  exists y0, y = Some y0 /\ nth_error (w_contexts w2) y0 = Some cy /\ refs w2 (x_stores cy) ly.
Proof.
  intros P D K C. destruct (prepare_counter _ _ _ _ _ _ _ _ _ P K C) as (y0 & Ey & Hy & Hr & _).
  destruct (check_digests_objects _ _ _ _ _ _ _ D) as (D1 & D2 & D3).
  exists y0. split; [assumption|]. rewrite D2. split; [assumption|]. unfold refs. now rewrite D1.
Qed.

Theorem c28_ok E fuel a expected v w w' chains c cy ly :
  asd_verify E fuel a expected v w = (w', Ok chains) ->
  va_mode v = "strict" -> asi_cs (asd_signer a) = Some c -> counter_context w a c v cy ly ->
  counter_holds E a c cy ly.
Proof.
  intros H M Hc C. destruct (asd_verify_steps _ _ _ _ _ _ _ _ H) as (w1 & x & y & w2 & w3 & st & P & D & Ct & V).
  assert (K : considered a v c) by (split; [assumption|rewrite M; discriminate]).
  destruct (at_counter _ _ _ _ _ _ _ _ _ _ _ _ _ P D K C) as (y0 & Ey & Hy & Hr).
  destruct (counter_time_run _ _ _ _ _ _ _ Ct) as [(N & _)|[(k & _ & N & _)|(k & y1 & r0 & K1 & Ey1 & Hk & R)]].
  - now elim (N c).
  - congruence.
  - assert (k = c) as -> by (destruct K1 as [K1 _]; congruence). assert (y1 = y0) as -> by congruence.
    destruct r0 as [[]|e]; [eapply check_countersigner_sound; eassumption|].
    destruct (issubclass (e_class e) Exception_); [|discriminate R].
    destruct R as [(_ & m & R)|(N & _)]; [discriminate R|contradiction].
Qed.

Lemma kwargs_prepare a v w : kwargs_ok a v -> exists w1 x y, prepare_contexts a v w = (w1, Ok (x, y)).
Proof.
  rewrite prepare_eq. cbv zeta. unfold kwargs_ok, considered. intros H.
  destruct (va_context v) as [x|].
  - destruct (va_cs_context v) as [y|]; [eauto|].
    destruct (asi_cs (asd_signer a)) as [c|]; [|eauto]. destruct (String.eqb_spec (va_mode v) "ignore"); [eauto|].
    destruct (kw_valid (va_kwargs v)); [destruct c; eauto|].
    destruct H as [H|[_ [H|H]]]; [discriminate H|now elim H|]. now elim (H c).
  - destruct H as [H|[H _]]; [|now elim H]. rewrite H. cbn [negb].
    destruct (va_cs_context v) as [y|]; [eauto|].
    destruct (asi_cs (asd_signer a)) as [c|]; [|eauto]. destruct (String.eqb (va_mode v) "ignore"); [eauto|].
    destruct c; eauto.
Qed.

Theorem c28_fail E fuel a expected v w h c cy ly :
  va_mode v = "strict" -> asi_cs (asd_signer a) = Some c -> counter_context w a c v cy ly -> kwargs_ok a v ->
  algorithms_agree a -> expected_hash E (f_bytes (w_file w)) a expected h -> h = sp_digest (asd_spc a) ->
  content_matches E (asd_data a) (asi_info (asd_signer a)) ->
  ~ counter_holds E a c cy ly ->
  exists e, snd (asd_verify E fuel a expected v w) = Err e /\
    (e_class e = AuthenticodeCounterSignerError \/ issubclass (e_class e) Exception_ = false).
Proof.
  intros M Hc C Kw A1 A2 A3 A4 N. destruct (kwargs_prepare a v w Kw) as (w1 & x & y & P).
  destruct (prepare_shape _ _ _ _ _ _ P) as (_ & _ & _ & _ & Ef & _).
  assert (K : considered a v c) by (split; [assumption|rewrite M; discriminate]).
  unfold asd_verify, mbind. rewrite P.
  destruct (check_digests_fail E fuel a expected w1 h) as (_ & _ & G). rewrite Ef in G. specialize (G A1 A2 A3 A4).
  destruct (check_digests E fuel a expected w1) as [w2 r] eqn:D. cbn [snd] in G.
  destruct G as [->|[_ ->]]; [|exists out_of_fuel; split; [reflexivity|now right]].
  destruct (at_counter _ _ _ _ _ _ _ _ _ _ _ _ _ P D K C) as (y0 & Ey & Hy & Hr). cbn [snd fst].
  destruct (countersignature_time E a v y w2) as [w3 r] eqn:Et.
  destruct (counter_time_run _ _ _ _ _ _ _ Et) as [(N1 & _)|[(k & _ & N1 & _)|(k & y1 & r0 & K1 & Ey1 & Hk & R)]].
  - now elim (N1 c).
  - congruence.
  - assert (k = c) as -> by (destruct K1 as [K1 _]; congruence). assert (y1 = y0) as -> by congruence.
    destruct r0 as [[]|e]; [elim N; eapply check_countersigner_sound; eassumption|].
    destruct (issubclass (e_class e) Exception_) eqn:Ee.
    + destruct R as [(_ & m & ->)|(N1 & _)]; [|contradiction]. eexists. split; [reflexivity|]. now left.
    + subst r. exists e. split; [reflexivity|]. now right.
Qed.

(** ** C27 *)

Theorem c27 E fuel a expected v w :
  kwargs_ok a v ->
  (~ algorithms_agree a -> exists m, snd (asd_verify E fuel a expected v w) =
      raise AuthenticodeInconsistentDigestAlgorithmError m) /\
  (forall h, algorithms_agree a -> expected_hash E (f_bytes (w_file w)) a expected h ->
   h <> sp_digest (asd_spc a) \/ ~ content_matches E (asd_data a) (asi_info (asd_signer a)) ->
   (exists m, snd (asd_verify E fuel a expected v w) = raise AuthenticodeInvalidDigestError m) \/
   (expected = None /\ snd (asd_verify E fuel a expected v w) = Err out_of_fuel)).
Proof.
  intros Kw. destruct (kwargs_prepare a v w Kw) as (w1 & x & y & P).
  destruct (prepare_shape _ _ _ _ _ _ P) as (_ & _ & _ & _ & Ef & _).
  unfold asd_verify, mbind. rewrite P. split.
  - intros N. destruct (check_digests_fail E fuel a expected w1 []) as (G & _). destruct (G N) as [m G'].
    destruct (check_digests E fuel a expected w1) as [w2 r]. cbn [snd] in G'. subst r. exists m. reflexivity.
  - intros h A1 A2 A3. destruct (check_digests_fail E fuel a expected w1 h) as (_ & G & _). rewrite Ef in G.
    destruct (check_digests E fuel a expected w1) as [w2 r]. cbn [snd] in G.
    destruct (G A1 A2 A3) as [[m ->]|[En ->]]; [left; exists m; reflexivity|right; auto].
Qed.
