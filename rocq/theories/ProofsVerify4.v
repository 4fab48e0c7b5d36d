(** Countersignature modes, the time of validation, independence of verifications. *)
From Verif Require Import Base Bytes Monad ModelFile ModelFingerprint
  ModelPE SpecPE ModelX509 SpecX509
  ProofsX509 ProofsX509b ModelContext SpecContext ProofsCTL ProofsContext ProofsContext2 ModelPkcs7 ProofsPkcs7b
  ModelAuthenticode SpecAuthenticode ProofsSigner ProofsSigner2 ProofsVerify ProofsVerify2 ProofsVerify3.
From Coq Require Import ZifyBool ZifyNat.

(** ** C30 *)

Lemma with_cs_data o a : asd_data (with_cs o a) = asd_data a.
Proof. destruct a as [d s [i c n] p]; reflexivity. Qed.
Lemma with_cs_spc o a : asd_spc (with_cs o a) = asd_spc a.
Proof. destruct a as [d s [i c n] p]; reflexivity. Qed.
Lemma with_cs_pe o a : asd_pe (with_cs o a) = asd_pe a.
Proof. destruct a as [d s [i c n] p]; reflexivity. Qed.
Lemma with_cs_info o a : asi_info (asd_signer (with_cs o a)) = asi_info (asd_signer a).
Proof. destruct a as [d s [i c n] p]; reflexivity. Qed.
Lemma with_cs_cs o a : asi_cs (asd_signer (with_cs o a)) = o.
Proof. destruct a as [d s [i c n] p]; reflexivity. Qed.

Lemma check_digests_cs E fuel o a expected w :
  check_digests E fuel (with_cs o a) expected w = check_digests E fuel a expected w.
Proof. unfold check_digests. now rewrite with_cs_data, with_cs_spc, with_cs_pe, with_cs_info. Qed.

Theorem c30 E fuel a expected v w o1 o2 :
  va_mode v = "ignore" ->
  asd_verify E fuel (with_cs o1 a) expected v w = asd_verify E fuel (with_cs o2 a) expected v w.
Proof.
  intros M.
  assert (G : forall o, asd_verify E fuel (with_cs o a) expected v w = asd_verify E fuel (with_cs None a) expected v w).
  { intros o. unfold asd_verify, mbind.
    assert (prepare_contexts (with_cs o a) v w = prepare_contexts (with_cs None a) v w) as ->.
    { rewrite !prepare_eq, !with_cs_data, !with_cs_cs, M. cbv zeta.
      destruct (match va_context v with None => _ | Some _ => _ end); [reflexivity|].
      destruct (va_cs_context v); [reflexivity|]. destruct o; reflexivity. }
    destruct (prepare_contexts (with_cs None a) v w) as [w1 [[x y]|e]]; [|reflexivity].
    rewrite !check_digests_cs. destruct (check_digests E fuel a expected w1) as [w2 [[]|e]]; [|reflexivity].
    unfold countersignature_time. rewrite !with_cs_cs, !with_cs_info, M. destruct o; reflexivity. }
  now rewrite (G o1), (G o2).
Qed.

(** ** C29 *)

Lemma prepare_mode a v m w : m <> "ignore" -> va_mode v <> "ignore" ->
  prepare_contexts a (with_mode m v) w = prepare_contexts a v w.
Proof.
  intros Hm Hv. rewrite !prepare_eq. cbn [with_mode va_context va_cs_context va_trusted va_kwargs va_mode].
  destruct (String.eqb_spec m "ignore"); [contradiction|]. destruct (String.eqb_spec (va_mode v) "ignore"); [contradiction|].
  reflexivity.
Qed.

(** When the strict mode has no objection there is no difference. *)
Theorem c29_ok E fuel a expected v w w' r :
  permissive (va_mode v) ->
  asd_verify E fuel a expected (with_mode "strict" v) w = (w', r) ->
  (forall e, r = Err e -> e_class e <> AuthenticodeCounterSignerError) ->
  asd_verify E fuel a expected v w = (w', r).
Proof.
  intros [M1 M2] H N. unfold asd_verify, mbind in *. rewrite prepare_mode in H by (assumption || discriminate).
  destruct (prepare_contexts a v w) as [w1 [[x y]|e]]; [|assumption]. cbn [fst snd] in *.
  destruct (check_digests E fuel a expected w1) as [w2 [[]|e]]; [|assumption].
  unfold countersignature_time in *. destruct (asi_cs (asd_signer a)) as [c|]; [|assumption].
  cbn [with_mode va_mode va_trusted] in H. change (String.eqb "strict" "ignore") with false in H.
  change (String.eqb "strict" "strict") with true in H.
  destruct (String.eqb_spec (va_mode v) "ignore"); [contradiction|].
  destruct y as [y0|]; [|assumption].
  destruct (check_countersigner E a c y0 (va_trusted v) w2) as [w3 [[]|e]]; [assumption|].
  destruct (catches Exception_ e); [|assumption]. injection H as <- <-.
  elim (N _ eq_refl). reflexivity.
Qed.

Lemma signer_context_cs w o a v cx l : signer_context w (with_cs o a) v cx l <-> signer_context w a v cx l.
Proof. unfold signer_context. rewrite with_cs_data. tauto. Qed.

Lemma considered_none a v c : ~ considered (with_cs None a) v c.
Proof. intros [H _]. rewrite with_cs_cs in H. discriminate H. Qed.

Lemma kwargs_none a v : kwargs_ok a v -> kwargs_ok (with_cs None a) v.
Proof.
  intros [H|[H1 H2]]; [now left|]. right. split; [assumption|]. right. intros c. apply considered_none.
Qed.

Lemma p_result_cs E o a m cx l : p_result E (with_cs o a) m cx l None = p_result E a m cx l None.
Proof. unfold p_result. cbn [rbind]. now rewrite with_cs_info. Qed.

Lemma absent_pure E fuel a expected v w cx l :
  signer_context w a v cx l -> Forall readable l -> distinct_contexts v -> kwargs_ok a v ->
  exists w1 x y, prepare_contexts a v w = (w1, Ok (x, y)) /\
  snd (asd_verify E fuel (with_cs None a) expected v w) =
  (let? _ := snd (check_digests E fuel a expected w1) in p_result E a (va_mode v) cx l None).
Proof.
  intros S R D Kw. destruct (kwargs_prepare a v w Kw) as (w1 & x & y & P).
  destruct (kwargs_prepare (with_cs None a) v w (kwargs_none _ _ Kw)) as (w1' & x' & y' & P').
  exists w1, x, y. split; [assumption|].
  rewrite (asd_verify_pure E fuel (with_cs None a) expected v w w1' x' y' cx l None); [| |auto|assumption].
  - rewrite p_result_cs, check_digests_cs. rewrite (check_digests_file E fuel a expected w1 w1'); [reflexivity|].
    destruct (prepare_shape _ _ _ _ _ _ P) as (_ & _ & _ & _ & E1 & _).
    destruct (prepare_shape _ _ _ _ _ _ P') as (_ & _ & _ & _ & E2 & _). congruence.
  - split; [now apply signer_context_cs|]. split; [assumption|]. intros c. apply considered_none.
Qed.

(** When the strict mode reports the countersignature, it counts for nothing. *)
Theorem c29_fail E fuel a expected v w c cx l cy ly :
  permissive (va_mode v) -> asi_cs (asd_signer a) = Some c -> distinct_contexts v -> kwargs_ok a v ->
  signer_context w a v cx l -> counter_context w a c v cy ly -> Forall readable l -> Forall readable ly ->
  (~ counter_holds E a c cy ly ->
   snd (asd_verify E fuel a expected v w) = snd (asd_verify E fuel (with_cs None a) expected v w) \/
   exists e, snd (asd_verify E fuel a expected v w) = Err e /\ issubclass (e_class e) Exception_ = false) /\
  (forall e, snd (asd_verify E fuel a expected (with_mode "strict" v) w) = Err e ->
   e_class e = AuthenticodeCounterSignerError ->
   snd (asd_verify E fuel a expected v w) = snd (asd_verify E fuel (with_cs None a) expected v w) \/
   (counter_holds E a c cy ly /\ snd (asd_verify E fuel a expected v w) = Err e)).
Proof.
  intros [M1 M2] Hc D Kw S C R Ry.
  assert (K : considered a v c) by (split; assumption).
  destruct (absent_pure E fuel a expected v w cx l S R D Kw) as (w1 & x & y & P & EA). rewrite EA.
  assert (Si : situation w a v cx l (Some (c, cy, ly))) by (split; [assumption|]; split; [assumption|]; auto).
  rewrite (asd_verify_pure E fuel a expected v w w1 x y cx l (Some (c, cy, ly))) by auto.
  rewrite (asd_verify_pure E fuel a expected (with_mode "strict" v) w w1 x y cx l (Some (c, cy, ly))).
  2: { split; [exact S|]. split; [assumption|]. split; [split; [assumption|discriminate]|]. split; [exact C|assumption]. }
  2: { intros _. exact D. }
  2: { rewrite prepare_mode; [assumption|discriminate|assumption]. }
  destruct (check_digests E fuel a expected w1) as [w2 [[]|e]] eqn:Ed; cbn [snd rbind].
  2: { split; [intros _; now left|]. intros e' H _. injection H as <-. now left. }
  destruct (at_counter _ _ _ _ _ _ _ _ _ _ _ _ _ P Ed K C) as (y0 & _ & Hy & Hry).
  destruct (check_countersigner_pure E a c y0 (va_trusted v) w2 cy ly Hy Hry Ry) as (w3 & _ & E3).
  unfold p_result, p_mode. cbn [with_mode va_mode]. change (String.eqb "strict" "strict") with true.
  destruct (String.eqb_spec (va_mode v) "strict") as [|_]; [contradiction|].
  destruct (snd (p_counter E a c ly cy)) as [[]|e] eqn:Ep; cbn [rbind].
  - assert (Ch : counter_holds E a c cy ly) by (eapply check_countersigner_sound; eassumption).
    split; [intros N; contradiction|]. intros e H _. right. auto.
  - unfold catches. destruct (issubclass (e_class e) Exception_) eqn:Ee; cbn [rbind].
    + split; [intros _; now left|]. intros e' _ _. now left.
    + split; [intros _; right; exists e; auto|]. intros e' H Hc'. injection H as <-. rewrite Hc' in Ee. discriminate Ee.
Qed.

(** ** C31, C32 *)

Lemma asd_time E fuel a expected v w w' chains cx l :
  asd_verify E fuel a expected v w = (w', Ok chains) -> signer_context w a v cx l -> distinct_contexts v ->
  (forall c, considered a v c -> exists cy ly, counter_context w a c v cy ly) ->
  exists st, chains <> [] /\
    Forall (signed_chain E (asi_info (asd_signer a)) cx l (timing E (asi_info (asd_signer a)) cx l st)) chains /\
    (((forall c, ~ considered a v c) /\ st = None) \/
     (exists c, considered a v c /\
        (forall cy ly, counter_context w a c v cy ly -> counter_holds E a c cy ly) /\
        st = counter_stated_time c) \/
     (exists c, considered a v c /\ va_mode v <> "strict" /\ st = None /\
        exists e, snd (asd_verify E fuel a expected (with_mode "strict" v) w) = Err e /\
                  e_class e = AuthenticodeCounterSignerError)).
Proof.
  intros H S D Hcc. destruct (asd_verify_steps _ _ _ _ _ _ _ _ H) as (w1 & x & y & w2 & w3 & st & P & Dg & C & V).
  destruct (at_signer _ _ _ _ _ _ _ _ _ _ _ _ _ _ P Dg C S) as (cx3 & l3 & Hx & Hr & V3 & _ & Same).
  rewrite (Same Hcc D) in *. destruct (signer_chains _ _ _ _ _ _ _ _ _ Hx Hr V) as [N F]. exists st.
  split; [assumption|]. split.
  { eapply Forall_impl; [|exact F]. cbn beta. intros chain. apply signed_chain_view; [assumption|].
    intros c t. now apply timing_view. }
  destruct (counter_time_run _ _ _ _ _ _ _ C) as [(Nc & _ & R)|[(k & _ & _ & _ & m & R)|(k & y0 & r0 & K & Ey & Hk & R)]].
  - injection R as ->. auto.
  - discriminate R.
  - right. destruct r0 as [[]|e].
    + left. exists k. injection R as ->. split; [assumption|]. split; [|reflexivity]. intros cy ly Hcy.
      destruct (at_counter _ _ _ _ _ _ _ _ _ _ _ _ _ P Dg K Hcy) as (y1 & Ey1 & Hy & Hry).
      assert (y1 = y0) as -> by congruence. eapply check_countersigner_sound; eassumption.
    + right. exists k. split; [assumption|].
      destruct (issubclass (e_class e) Exception_) eqn:Ee; [|discriminate R].
      destruct R as [(_ & m & R)|(Ns & R)]; [discriminate R|]. injection R as ->.
      split; [assumption|]. split; [reflexivity|].
      destruct K as [K1 K2]. eexists. split; cycle 1.
      { instantiate (1 := mkExn AuthenticodeCounterSignerError _). reflexivity. }
      unfold asd_verify, mbind. rewrite prepare_mode by (assumption || discriminate). rewrite P, Dg. cbn [fst snd].
      unfold countersignature_time. rewrite K1. cbn [with_mode va_mode va_trusted].
      change (String.eqb "strict" "ignore") with false. rewrite Ey, Hk. unfold catches. rewrite Ee.
      change (String.eqb "strict" "strict") with true. reflexivity.
Qed.

Lemma timing_validated E i cx l st c t : timing E i cx l st c t -> validated_at cx st c t.
Proof.
  intros (H1 & H2 & H3). unfold validated_at. destruct st as [s|]; [|now apply H2]. split.
  - intros L. apply H1; [discriminate|assumption].
  - intros _. destruct H3 as [H3|[H3 _]]; auto.
Qed.

Lemma signed_chain_mono E i cx l (T T' : cert -> option datetime -> Prop) chain :
  (forall c t, T c t -> T' c t) -> signed_chain E i cx l T chain -> signed_chain E i cx l T' chain.
Proof. apply signed_chain_view. apply same_views_refl. Qed.

Theorem c31_none E fuel a expected v w w' chains cx l :
  asd_verify E fuel a expected v w = (w', Ok chains) -> signer_context w a v cx l -> distinct_contexts v ->
  (forall c, ~ considered a v c) ->
  Forall (signed_chain E (asi_info (asd_signer a)) cx l (validated_at cx None)) chains.
Proof.
  intros H S D Nc. destruct (asd_time _ _ _ _ _ _ _ _ _ _ H S D) as (st & _ & F & O).
  { intros c K. now elim (Nc c). }
  assert (st = None) as ->.
  { destruct O as [[_ O]|[(c & K & _)|(c & K & _)]]; [assumption|now elim (Nc c)|now elim (Nc c)]. }
  eapply Forall_impl; [|exact F]. cbn beta. intros chain. apply signed_chain_mono. apply timing_validated.
Qed.

Theorem c31_some E fuel a expected v w w' chains cx l c cy ly :
  asd_verify E fuel a expected v w = (w', Ok chains) -> signer_context w a v cx l -> distinct_contexts v ->
  considered a v c -> counter_context w a c v cy ly ->
  (counter_holds E a c cy ly /\
   Forall (signed_chain E (asi_info (asd_signer a)) cx l (validated_at cx (counter_stated_time c))) chains) \/
  (va_mode v <> "strict" /\
   (exists e, snd (asd_verify E fuel a expected (with_mode "strict" v) w) = Err e /\
              e_class e = AuthenticodeCounterSignerError) /\
   Forall (signed_chain E (asi_info (asd_signer a)) cx l (validated_at cx None)) chains).
Proof.
  intros H S D K C. destruct (asd_time _ _ _ _ _ _ _ _ _ _ H S D) as (st & _ & F & O).
  { intros k Kk. assert (k = c) as -> by (destruct K, Kk; congruence). eauto. }
  destruct O as [[Nc _]|[(k & Kk & Ch & ->)|(k & Kk & Ns & -> & Ce)]].
  - now elim (Nc c).
  - assert (k = c) as -> by (destruct K, Kk; congruence). left. split; [now apply Ch|].
    eapply Forall_impl; [|exact F]. cbn beta. intros chain. apply signed_chain_mono. apply timing_validated.
  - right. split; [assumption|]. split; [assumption|].
    eapply Forall_impl; [|exact F]. cbn beta. intros chain. apply signed_chain_mono. apply timing_validated.
Qed.

Theorem c32 E fuel a expected v w w' chains cx l :
  asd_verify E fuel a expected v w = (w', Ok chains) -> signer_context w a v cx l -> distinct_contexts v ->
  (forall c, considered a v c -> exists cy ly, counter_context w a c v cy ly) ->
  (forall c, In c (concat (map contents l)) -> named (asi_info (asd_signer a)) c ->
     signs E (v_allow_legacy (x_opts cx)) (asi_info (asd_signer a)) c -> lifetime c) ->
  Forall (signed_chain E (asi_info (asd_signer a)) cx l (fun _ t => t = x_timestamp cx)) chains.
Proof.
  intros H S D Hcc L. destruct (asd_time _ _ _ _ _ _ _ _ _ _ H S D Hcc) as (st & _ & F & _).
  eapply Forall_impl; [|exact F]. cbn beta. intros chain. apply signed_chain_mono.
  intros c t (_ & _ & [T|(_ & d & D1 & D2 & D3 & D4)]); [assumption|]. elim D4. now apply L.
Qed.
