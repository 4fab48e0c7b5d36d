(** Proofs about the verification of signers: what it preserves and what it establishes. *)
From Verif Require Import Base Bytes Monad ModelFile ModelX509 SpecX509 ProofsX509 ProofsX509b
  ModelContext SpecContext ProofsCTL ProofsContext ProofsContext2 ModelPkcs7 ProofsPkcs7b
  ModelAuthenticode SpecAuthenticode.
From Coq Require Import ZifyBool ZifyNat.

(** ** What is preserved *)

Definition views (w w' : world) : Prop :=
  w_file w' = w_file w /\ length (w_stores w') = length (w_stores w) /\
  forall r s, nth_error (w_stores w) r = Some s ->
    exists s', nth_error (w_stores w') r = Some s' /\ same_view s s'.

Lemma views_refl w : views w w.
Proof. apply advance_refl. Qed.

Lemma views_trans a b c : views a b -> views b c -> views a c.
Proof.
  intros (A1 & A2 & A3) (B1 & B2 & B3). split; [congruence|]. split; [congruence|].
  intros r s H. destruct (A3 r s H) as (s' & H' & V). destruct (B3 r s' H') as (s'' & H'' & V').
  exists s''. split; [assumption|]. eapply same_view_trans; eassumption.
Qed.

Lemma advance_views w w' : advance w w' <-> w_contexts w' = w_contexts w /\ views w w'.
Proof. unfold advance, views. tauto. Qed.

Lemma views_refs w w' rs l : views w w' -> refs w rs l -> exists l', refs w' rs l' /\ Forall2 same_view l l'.
Proof.
  intros A H. induction H as [|r s rs l Hr _ (l' & Hl & Hv)].
  - exists []. split; constructor.
  - destruct A as (_ & _ & A). destruct (A r s Hr) as (s' & Hs & Vs).
    exists (s' :: l'). split; constructor; assumption.
Qed.

Lemma exhaust_used u : exhaust u = used_usages u.
Proof. destruct u as [[[] l]|]; reflexivity. Qed.

Lemma used_idem u : used_usages (used_usages u) = used_usages u.
Proof. destruct u as [[[] l]|]; reflexivity. Qed.

Lemma evolved_refl T cx : evolved T cx cx.
Proof. unfold evolved. auto 10. Qed.

Lemma evolved_trans T a b c : evolved T a b -> evolved T b c -> evolved T a c.
Proof.
  intros (A1 & A2 & A3 & A4 & A5 & A6) (B1 & B2 & B3 & B4 & B5 & B6).
  split; [congruence|]. split; [congruence|]. split; [congruence|]. split.
  { destruct B4 as [->| ->], A4 as [->| ->]; rewrite ?used_idem; auto. }
  split.
  { destruct B5 as [->| ->], A5 as [->| ->]; rewrite ?used_idem; auto. }
  destruct B6 as [B6|B6]; [|auto]. destruct A6 as [A6|A6]; [left; congruence|right; congruence].
Qed.

Lemma evolved_mono (T T' : option datetime -> Prop) a b : (forall t, T t -> T' t) -> evolved T a b -> evolved T' a b.
Proof.
  intros H (A1 & A2 & A3 & A4 & A5 & A6). unfold evolved. repeat (split; [assumption|]).
  destruct A6; auto.
Qed.

Definition keeps (T : option datetime -> Prop) (x : nat) (w w' : world) : Prop :=
  views w w' /\ length (w_contexts w') = length (w_contexts w) /\
  (forall y, y <> x -> nth_error (w_contexts w') y = nth_error (w_contexts w) y) /\
  (forall cx, nth_error (w_contexts w) x = Some cx ->
     exists cx', nth_error (w_contexts w') x = Some cx' /\ evolved T cx cx').

Lemma keeps_refl T x w : keeps T x w w.
Proof.
  split; [apply views_refl|]. split; [reflexivity|]. split; [reflexivity|].
  intros cx H. exists cx. split; [assumption|apply evolved_refl].
Qed.

Lemma keeps_trans T x a b c : keeps T x a b -> keeps T x b c -> keeps T x a c.
Proof.
  intros (A1 & A2 & A3 & A4) (B1 & B2 & B3 & B4).
  split; [eapply views_trans; eassumption|]. split; [congruence|]. split.
  - intros y Hy. now rewrite B3, A3.
  - intros cx H. destruct (A4 _ H) as (cx' & H' & V). destruct (B4 _ H') as (cx'' & H'' & V').
    exists cx''. split; [assumption|]. eapply evolved_trans; eassumption.
Qed.

Lemma keeps_advance T x w w' : advance w w' -> keeps T x w w'.
Proof.
  intros A. apply advance_views in A. destruct A as [E V]. split; [assumption|]. rewrite E.
  split; [reflexivity|]. split; [reflexivity|]. intros cx H. exists cx. split; [assumption|apply evolved_refl].
Qed.

Lemma keeps_mono (T T' : option datetime -> Prop) x a b : (forall t, T t -> T' t) -> keeps T x a b -> keeps T' x a b.
Proof.
  intros H (A1 & A2 & A3 & A4). split; [assumption|]. split; [assumption|]. split; [assumption|].
  intros cx Hc. destruct (A4 _ Hc) as (cx' & H' & V). exists cx'. split; [assumption|].
  eapply evolved_mono; eassumption.
Qed.

Lemma keeps_put T x w cx cx' :
  nth_error (w_contexts w) x = Some cx -> evolved T cx cx' ->
  keeps T x w (with_context x cx' w).
Proof.
  intros H V. unfold with_context. split; [exact (views_refl w)|]. cbn [w_contexts].
  split; [apply length_list_set|]. split.
  - intros y Hy. rewrite nth_list_set. destruct (Nat.eqb_spec x y); [congruence|reflexivity].
  - intros c Hc. rewrite H in Hc. injection Hc as <-. exists cx'. split; [|assumption].
    now rewrite (nth_list_set_same _ _ _ _ H).
Qed.

Definition preserves (T : option datetime -> Prop) (x : nat) {A} (m : M world A) : Prop :=
  forall w w' r, m w = (w', r) -> keeps T x w w'.

Section preserves.
Context (T : option datetime -> Prop) (x : nat).

Lemma pres_ret {A} (a : A) : preserves T x (mret a).
Proof. intros w w' r H. injection H as <- _. apply keeps_refl. Qed.
Lemma pres_res {A} (a : res A) : preserves T x (mres a).
Proof. intros w w' r H. injection H as <- _. apply keeps_refl. Qed.
Lemma pres_err {A} e : preserves T x (@merr world A e).
Proof. intros w w' r H. injection H as <- _. apply keeps_refl. Qed.
Lemma pres_raise {A} k m : preserves T x (@mraise world A k m).
Proof. intros w w' r H. injection H as <- _. apply keeps_refl. Qed.
Lemma pres_bind {A B} (m : M world A) (f : A -> M world B) :
  preserves T x m -> (forall a, preserves T x (f a)) -> preserves T x (mbind m f).
Proof.
  intros Hm Hf w w' r H. unfold mbind in H. destruct (m w) as [w1 [a|e]] eqn:E.
  - eapply keeps_trans; [eapply Hm; exact E|eapply Hf; exact H].
  - injection H as <- _. eapply Hm; exact E.
Qed.
Lemma pres_try {A} (m : M world A) p h :
  preserves T x m -> (forall e, preserves T x (h e)) -> preserves T x (mtry m p h).
Proof.
  intros Hm Hh w w' r H. unfold mtry in H. destruct (m w) as [w1 [a|e]] eqn:E.
  - injection H as <- _. eapply Hm; exact E.
  - destruct (p e).
    + eapply keeps_trans; [eapply Hm; exact E|eapply Hh; exact H].
    + injection H as <- _. eapply Hm; exact E.
Qed.
Lemma pres_state {A} (f : world -> M world A) : (forall w, preserves T x (f w)) -> preserves T x (fun w => f w w).
Proof. intros Hf w w' r H. eapply Hf. exact H. Qed.

Lemma pres_get_context y : preserves T x (get_context y).
Proof.
  intros w w' r H. unfold get_context in H. destruct (nth_error (w_contexts w) y); injection H as <- _; apply keeps_refl.
Qed.
Lemma pres_get_store y : preserves T x (get_store y).
Proof.
  intros w w' r H. unfold get_store in H. destruct (nth_error (w_stores w) y); injection H as <- _; apply keeps_refl.
Qed.
Lemma pres_store_iter r : preserves T x (store_iter r).
Proof.
  intros w w' a H. destruct (nth_error (w_stores w) r) as [s|] eqn:E.
  - rewrite (store_iter_spec _ _ _ E) in H. injection H as <- _. apply keeps_advance. now apply advance_loaded.
  - unfold store_iter, store_load, mbind, get_store in H. rewrite E in H. injection H as <- _. apply keeps_refl.
Qed.
Lemma pres_iter_stores rs : preserves T x (iter_stores rs).
Proof.
  induction rs as [|r rs IH]; cbn [iter_stores]; [apply pres_ret|].
  apply pres_bind; [apply pres_store_iter|]. intros l. apply pres_bind; [assumption|]. intros l'. apply pres_ret.
Qed.
Lemma pres_read_ekus : preserves T x (read_ekus x).
Proof.
  intros w w' r H. unfold read_ekus, mbind, get_context in H.
  destruct (nth_error (w_contexts w) x) as [cx|] eqn:E; [|injection H as <- _; apply keeps_refl].
  unfold put_context, mret in H. injection H as <- _.
  apply (keeps_put T x w cx _ E). unfold evolved. cbn [x_stores x_timestamp x_key_usages x_ekus x_optional_eku x_opts].
  pose proof (exhaust_used (x_ekus cx)). auto 10.
Qed.
Lemma pres_read_key_usages : preserves T x (read_key_usages x).
Proof.
  intros w w' r H. unfold read_key_usages, mbind, get_context in H.
  destruct (nth_error (w_contexts w) x) as [cx|] eqn:E; [|injection H as <- _; apply keeps_refl].
  unfold put_context, mret in H. injection H as <- _.
  apply (keeps_put T x w cx _ E). unfold evolved. cbn [x_stores x_timestamp x_key_usages x_ekus x_optional_eku x_opts].
  pose proof (exhaust_used (x_key_usages cx)). auto 10.
Qed.
Lemma pres_set_timestamp t : T t -> preserves T x (set_timestamp x t).
Proof.
  intros Ht w w' r H. unfold set_timestamp, mbind, get_context in H.
  destruct (nth_error (w_contexts w) x) as [cx|] eqn:E; [|injection H as <- _; apply keeps_refl].
  unfold put_context in H. injection H as <- _.
  apply (keeps_put T x w cx _ E). unfold evolved. cbn. auto 10.
Qed.
Lemma pres_ctl_verify_trust E t chain : preserves T x (ctl_verify_trust E t chain x).
Proof.
  unfold ctl_verify_trust. destruct chain as [|root rest]; [apply pres_raise|].
  apply pres_bind; [apply pres_res|]. intros [s|]; [|apply pres_res].
  apply pres_bind; [apply pres_get_context|]. intros c. apply pres_bind; [apply pres_read_ekus|].
  intros u. apply pres_res.
Qed.
Lemma pres_store_verify_trust E r chain : preserves T x (store_verify_trust E r chain x).
Proof.
  unfold store_verify_trust. destruct chain as [|root rest]; [apply pres_raise|].
  apply pres_bind.
  - unfold store_is_trusted. apply pres_bind; [apply pres_get_store|]. intros s. apply pres_ret.
  - intros t. destruct (negb t); [apply pres_res|]. apply pres_bind; [apply pres_get_store|].
    intros s. destruct (s_ctl s); [|apply pres_ret].
    apply pres_bind; [apply pres_ctl_verify_trust|]. intros _. apply pres_ret.
Qed.
Lemma pres_verify_trust_loop E chain rs : forall last, preserves T x (verify_trust_loop E x chain rs last).
Proof.
  induction rs as [|r rs IH]; intros last; cbn [verify_trust_loop]; [apply pres_ret|].
  intros w w' a H. destruct (store_verify_trust E r chain x w) as [w1 [b|e]] eqn:E1;
    pose proof (pres_store_verify_trust E r chain _ _ _ E1) as K.
  - destruct b; [injection H as <- _; exact K|]. eapply keeps_trans; [exact K|]. eapply IH. exact H.
  - destruct (catches CertificateNotTrustedVerificationError e); [|destruct (catches VerificationError e)].
    + eapply keeps_trans; [exact K|]. eapply IH. exact H.
    + eapply keeps_trans; [exact K|]. eapply IH. exact H.
    + injection H as <- _. exact K.
Qed.
Lemma pres_verify_trust E chain : preserves T x (verify_trust E x chain).
Proof.
  unfold verify_trust. apply pres_bind; [apply pres_get_context|]. intros c.
  apply pres_bind; [apply pres_verify_trust_loop|]. intros [b o]. cbn [fst snd].
  destruct b; [apply pres_ret|]. destruct o; [apply pres_err|apply pres_raise].
Qed.
Lemma pres_context_verify E c : preserves T x (context_verify E x c).
Proof.
  unfold context_verify. apply pres_bind; [apply pres_get_context|]. intros cx.
  apply pres_bind; [apply pres_iter_stores|]. intros pairs.
  intros w0 w' r H. cbv beta zeta in H.
  match type of H with ?m w0 = _ => assert (P : preserves T x m); [|exact (P _ _ _ H)] end. clear.
  apply pres_bind; [apply pres_res|]. intros _. apply pres_bind.
  - apply pres_try; [|intros e; apply pres_res].
    apply pres_bind; [apply pres_read_key_usages|]. intros ku.
    apply pres_bind; [apply pres_read_ekus|]. intros eku. apply pres_res.
  - intros ids. apply pres_bind; [apply pres_res|]. intros chain.
    apply pres_bind; [apply pres_verify_trust|]. intros _. apply pres_ret.
Qed.
End preserves.

(** ** What a verified signer establishes *)

Lemma same_view_in l l' c :
  Forall2 same_view l l' -> (In c (concat (map contents l')) <-> In c (concat (map contents l))).
Proof. intros V. now rewrite (same_view_contents _ _ V). Qed.

Lemma same_view_filter (f : bool -> bool) l l' :
  Forall2 same_view l l' ->
  concat (map contents (filter (fun s => f (s_trusted s)) l')) =
  concat (map contents (filter (fun s => f (s_trusted s)) l)).
Proof.
  induction 1 as [|s s' l l' V _ IH]; [reflexivity|]. cbn [filter].
  destruct V as (V1 & V2 & _). rewrite V2. destruct (f (s_trusted s)); cbn [map concat]; [now rewrite V1, IH|assumption].
Qed.

Lemma same_view_accepts E l l' chain t u :
  Forall2 same_view l l' ->
  (exists s, In s l' /\ store_accepts E s (contents s) chain t u) ->
  (exists s, In s l /\ store_accepts E s (contents s) chain t u).
Proof.
  intros V (s' & Hs & A). induction V as [|s s1 l l' V _ IH]; [destruct Hs|]. destruct Hs as [->|Hs].
  - exists s. split; [now left|]. destruct V as (V1 & V2 & V3 & _). destruct A as (A1 & A2 & A3).
    unfold store_accepts. rewrite <- V1, <- V2, <- V3. auto.
  - destruct (IH Hs) as (s2 & Hs2 & A2). exists s2. split; [now right|assumption].
Qed.

Lemma same_view_chain E cx l l' c chain :
  Forall2 same_view l l' -> chain_accepted E cx l' c chain -> chain_accepted E cx l c chain.
Proof.
  intros V (A & B & C & D). unfold chain_accepted.
  pose proof (same_view_filter (fun b => b) l l' V) as F1. pose proof (same_view_filter negb l l' V) as F2.
  cbn beta in F1. unfold roots, intermediates in *. rewrite F1, F2 in A. rewrite F1, F2 in D. split; [assumption|]. split; [|split; [|assumption]].
  - intros d Hd. rewrite <- (same_view_in l l' d V). auto.
  - eapply same_view_accepts; eassumption.
Qed.

Lemma context_verify_setup E x c w w' chain cx l :
  nth_error (w_contexts w) x = Some cx -> refs w (x_stores cx) l ->
  context_verify E x c w = (w', Ok chain) ->
  e_mk_validation E (roots l) (x_timestamp cx) (x_opts cx) c (intermediates l) = Ok tt.
Proof.
  intros Hc Hr Hv. unfold context_verify, mbind in Hv. rewrite (get_context_ok _ _ _ Hc) in Hv.
  destruct (iter_stores_spec (x_stores cx) w l Hr) as [(w1 & l1 & A & Hr1 & V & R & E1)|(w1 & e & A & E1)];
    rewrite E1 in Hv; [|discriminate Hv].
  pose proof (pick_by_stores w1 (fun b => b) _ _ _ Hr1 V) as P1. cbn beta in P1.
  change (fun r => store_trusted w1 r) with (store_trusted w1) in P1. rewrite P1 in Hv.
  rewrite (pick_by_stores w1 negb _ _ _ Hr1 V) in Hv. fold (roots l) (intermediates l) in Hv.
  unfold mres at 1 in Hv. destruct (e_mk_validation E _ (x_timestamp cx) (x_opts cx) c _) as [[]|]; [reflexivity|discriminate Hv].
Qed.

Lemma context_verify_chain E x c w w' chain cx l :
  nth_error (w_contexts w) x = Some cx -> refs w (x_stores cx) l ->
  context_verify E x c w = (w', Ok chain) -> chain_accepted E cx l c chain.
Proof.
  intros Hc Hr Hv. destruct (context_verify_sound E x c w w' chain cx l Hc Hr Hv) as (ids & s & Ei & Hi & Hs & A).
  unfold chain_accepted, roots, intermediates. rewrite Ei.
  split; [|split; [|split; [|exact (context_verify_setup E x c w w' chain cx l Hc Hr Hv)]]].
  - f_equal. clear -Hi. induction Hi as [|i d ids ch [_ Hd] _ IH]; cbn; [reflexivity|]. now rewrite Hd, IH.
  - intros d Hd. clear -Hi Hd. induction Hi as [|i d' ids ch [Hin _] _ IH]; [destruct Hd|].
    destruct Hd as [<-|Hd]; [|auto]. destruct Hin as [<-|Hin]; auto.
  - exists s. split; [assumption|]. unfold asked_usages, after_usages in A. cbn [x_ekus] in A.
    unfold left_usages. destruct (x_ekus cx); exact A.
Qed.

(** When the signing time counts, and for whom. *)
Definition effective (authenticode : bool) (st : option datetime) (c : cert) : option datetime :=
  if authenticode && lifetime_signing c then None else st.

Lemma set_timestamp_ok w x cx t :
  nth_error (w_contexts w) x = Some cx -> set_timestamp x t w = (with_context x (at_time t cx) w, Ok tt).
Proof. intros H. unfold set_timestamp, mbind. now rewrite (get_context_ok _ _ _ H). Qed.

Lemma at_time_same cx : at_time (x_timestamp cx) cx = cx.
Proof. now destruct cx. Qed.

Definition later (t : option datetime) (cx : context) : context :=
  match t with Some t => at_time (Some t) cx | None => cx end.

Lemma verify_issuer_step E auth i x st c w cx :
  nth_error (w_contexts w) x = Some cx ->
  verify_issuer E auth i x st c w =
  match verify_issuer_signature E i c (v_allow_legacy (x_opts cx)) with
  | Err e => (w, Err e)
  | Ok _ => context_verify E x c (with_context x (later (effective auth st c) cx) w)
  end.
Proof.
  intros H. unfold verify_issuer, mbind at 1. rewrite (get_context_ok _ _ _ H). unfold mbind at 1, mres.
  destruct (verify_issuer_signature E i c (v_allow_legacy (x_opts cx))); [|reflexivity].
  fold (effective auth st c). unfold mbind. destruct (effective auth st c) as [t|]; cbn [later].
  - now rewrite (set_timestamp_ok _ _ _ _ H).
  - unfold mret. unfold with_context. rewrite list_set_same by assumption. now destruct w.
Qed.

(** A certificate that is named, signs, and to which the signing time applies. *)
Definition stamped E auth i st cx l (t : option datetime) : Prop :=
  st = t /\ st <> None /\
  exists c, In c (concat (map contents l)) /\ named i c /\ signs E (v_allow_legacy (x_opts cx)) i c /\
            effective auth st c = st.

Lemma later_evolved E auth i st cx0 cx l c :
  In c (concat (map contents l)) -> named i c -> signs E (v_allow_legacy (x_opts cx0)) i c ->
  evolved (stamped E auth i st cx0 l) cx (later (effective auth st c) cx).
Proof.
  intros H1 H2 H3. destruct (effective auth st c) as [t|] eqn:Ee; cbn [later]; [|apply evolved_refl].
  unfold evolved. cbn. repeat (split; [auto|]). right. unfold stamped.
  assert (st = Some t) as -> by (unfold effective in Ee; destruct (auth && lifetime_signing c); congruence).
  split; [reflexivity|]. split; [discriminate|]. exists c. auto.
Qed.

Lemma effective_cases auth st c : effective auth st c = st \/ effective auth st c = None.
Proof. unfold effective. destruct (auth && lifetime_signing c); auto. Qed.

Lemma with_context_nth x cx cx' w :
  nth_error (w_contexts w) x = Some cx -> nth_error (w_contexts (with_context x cx' w)) x = Some cx'.
Proof. intros H. unfold with_context. cbn [w_contexts]. now apply (nth_list_set_same _ _ cx). Qed.

(** The candidates met by a search all come from the stores. *)
Lemma find_stores_inv {A} E q (body : cert -> A -> M world A) (Inv : world -> Prop) (P : A -> Prop)
  (Q : cert -> Prop) rs :
  (forall w r s, Inv w -> In r rs -> nth_error (w_stores w) r = Some s ->
     Inv (with_store r (loaded s) w) /\ forall c, In c (contents s) -> Q c) ->
  (forall c a w w' b, Inv w -> P a -> Q c -> satisfies E q c -> body c a w = (w', b) ->
     Inv w' /\ forall a', b = Ok a' -> P a') ->
  forall seen acc w w' b, Inv w -> P acc ->
  find_stores E q body rs seen acc w = (w', b) -> Inv w' /\ forall a, b = Ok a -> P a.
Proof.
  intros Hl Hb. induction rs as [|r rs IH]; intros seen acc w w' b I Pa H; cbn [find_stores] in H.
  - injection H as <- <-. split; [assumption|]. intros a Ea. now injection Ea as <-.
  - unfold mbind at 1 in H. destruct (nth_error (w_stores w) r) as [s|] eqn:Es.
    2: { unfold store_iter, store_load, mbind, get_store in H. rewrite Es in H. injection H as <- <-.
         split; [assumption|discriminate]. }
    rewrite (store_iter_spec _ _ _ Es) in H.
    destruct (Hl w r s I (or_introl eq_refl) Es) as [I1 Hq].
    destruct (load_error s) as [e|]; [injection H as <- <-; split; [assumption|discriminate]|].
    unfold mbind at 1 in H. rewrite find_items_fold in H. unfold mbind at 1 in H.
    assert (G : forall l acc w w' b, (forall c, In c l -> Q c /\ satisfies E q c) -> Inv w -> P acc ->
                mfold body l acc w = (w', b) -> Inv w' /\ forall a, b = Ok a -> P a).
    { clear -Hb. induction l as [|c l IH]; intros acc w w' b Hq I Pa H; cbn [mfold] in H.
      - injection H as <- <-. split; [assumption|]. intros a Ea. now injection Ea as <-.
      - unfold mbind in H. destruct (body c acc w) as [w1 b1] eqn:Eb.
        destruct (Hq c (or_introl eq_refl)) as [Q1 Q2].
        destruct (Hb c acc w w1 b1 I Pa Q1 Q2 Eb) as [I1 Pb].
        destruct b1 as [a1|e1].
        + eapply IH; [|exact I1|now apply Pb|exact H]. intros d Hd. apply Hq. now right.
        + injection H as <- <-. split; [assumption|discriminate]. }
    destruct (mfold body _ acc (with_store r (loaded s) w)) as [w1 b1] eqn:Ef.
    assert (Hall : forall c, In c (fresh seen (filter (query_matches E q) (contents s))) -> Q c /\ satisfies E q c).
    { intros c Hc. eapply subseq_in in Hc; [|apply fresh_subseq]. apply filter_In in Hc. destruct Hc as [Hc Hm].
      split; [now apply Hq|now apply query_matches_spec]. }
    destruct (G _ _ _ _ _ Hall I1 Pa Ef) as [I2 P2].
    destruct b1 as [a1|e1]; [|injection H as <- <-; split; [assumption|discriminate]].
    unfold mret in H. cbn [fst snd] in H.
    eapply IH; [|exact I2|now apply P2|exact H].
    intros w2 r2 s2 Hi Hr. apply Hl; [assumption|now right].
Qed.

(** Where a verified chain comes from. *)
Definition verified_chain E auth i st cx l (chain : list cert) : Prop :=
  exists c cx', In c (concat (map contents l)) /\ named i c /\
    signs E (v_allow_legacy (x_opts cx)) i c /\
    evolved (stamped E auth i st cx l) cx cx' /\
    (forall t, effective auth st c = Some t -> x_timestamp cx' = Some t) /\
    chain_accepted E cx' l c chain.

Lemma named_satisfies E i c : satisfies E (by_issuer_serial i) c <-> named i c.
Proof.
  unfold satisfies, by_issuer_serial, named. cbn. split.
  - intros (_ & H1 & H2 & _). split; [now apply H2|now apply H1].
  - intros [H1 H2]. repeat split; try discriminate; intros ? Ei; injection Ei as <-; assumption.
Qed.

Lemma build_chain_sound E auth i x st w w' p cx l :
  nth_error (w_contexts w) x = Some cx -> refs w (x_stores cx) l ->
  for_certificates E x (by_issuer_serial i) (build_chain_body E auth i x st) ([], FNone) w = (w', p) ->
  keeps (stamped E auth i st cx l) x w w' /\
  forall a, p = Ok a -> Forall (verified_chain E auth i st cx l) (fst a) /\ (fst a <> [] -> snd a = FFalse).
Proof.
  intros Hc Hr H. unfold for_certificates, mbind in H. rewrite (get_context_ok _ _ _ Hc) in H.
  revert H. apply (find_stores_inv E (by_issuer_serial i) (build_chain_body E auth i x st)
    (keeps (stamped E auth i st cx l) x w)
    (fun a => Forall (verified_chain E auth i st cx l) (fst a) /\ (fst a <> [] -> snd a = FFalse))
    (fun c => In c (concat (map contents l)))).
  - intros w1 r s K Hi Hs. split.
    + eapply keeps_trans; [exact K|]. apply keeps_advance. now apply advance_loaded.
    + intros c Hcs. destruct K as (V & _). destruct (views_refs _ _ _ _ V Hr) as (l1 & Hr1 & V1).
      rewrite <- (same_view_in _ _ _ V1). apply in_concat. exists (contents s). split; [|assumption].
      apply in_map. clear -Hr1 Hi Hs. induction Hr1 as [|r1 s1 rs l1 H1 _ IH]; [destruct Hi|].
      destruct Hi as [->|Hi]; [left; congruence|right; auto].
  - intros c a w1 w2 b K [Pa Pf] Hin Hsat Hb. apply named_satisfies in Hsat.
    unfold build_chain_body in Hb.
    destruct (verify_issuer E auth i x st c w1) as [w3 r] eqn:Ev.
    pose proof K as (V & _ & _ & Kx). destruct (Kx _ Hc) as (cx1 & Hc1 & Ev1).
    assert (Hop : x_opts cx1 = x_opts cx) by apply Ev1.
    assert (Hst : x_stores cx1 = x_stores cx) by apply Ev1.
    assert (Hex : (exists e, w3 = w1 /\ r = Err e) \/
                  (signs E (v_allow_legacy (x_opts cx)) i c /\
                   context_verify E x c (with_context x (later (effective auth st c) cx1) w1) = (w3, r))).
    { rewrite (verify_issuer_step _ _ _ _ _ _ _ _ Hc1), Hop in Ev.
      destruct (verify_issuer_signature E i c (v_allow_legacy (x_opts cx))) as [[]|e] eqn:Es.
      - right. split; [now apply verify_issuer_signature_ok|exact Ev].
      - left. injection Ev as <- <-. eauto. }
    assert (G : keeps (stamped E auth i st cx l) x w w3 /\
                forall ch, r = Ok ch -> verified_chain E auth i st cx l ch).
    { destruct Hex as [(e & -> & ->)|[Hs Hv]]; [split; [assumption|discriminate]|].
      pose proof (later_evolved E auth i st cx cx1 l c Hin Hsat Hs) as L.
      pose proof (keeps_put _ _ _ _ _ Hc1 L) as K2.
      split.
      - eapply keeps_trans; [exact K|]. eapply keeps_trans; [exact K2|].
        eapply pres_context_verify. exact Hv.
      - intros ch ->. exists c, (later (effective auth st c) cx1).
        split; [assumption|]. split; [assumption|]. split; [assumption|].
        split; [eapply evolved_trans; eassumption|]. split.
        { intros t ->. reflexivity. }
        destruct (views_refs _ _ _ _ V Hr) as (l1 & Hr1 & V1).
        apply (same_view_chain _ _ _ _ _ _ V1).
        eapply (context_verify_chain E x c _ w3 ch); [eapply with_context_nth; exact Hc1| |exact Hv].
        assert (x_stores (later (effective auth st c) cx1) = x_stores cx) as ->.
        { destruct (effective auth st c); assumption. }
        exact Hr1. }
    destruct G as [K3 G]. destruct r as [ch|e].
    + injection Hb as <- <-. split; [assumption|]. intros a' Ea. injection Ea as <-. cbn [fst snd].
      split; [|reflexivity]. apply Forall_app. split; [assumption|]. constructor; [now apply G|constructor].
    + destruct (catches VerificationError e); injection Hb as <- <-; (split; [assumption|]); [|discriminate].
      intros a' Ea. injection Ea as <-. cbn [fst snd]. split; [assumption|].
      intros N. rewrite (Pf N). reflexivity.
  - apply keeps_refl.
  - split; [constructor|]. intros N. now contradiction N.
Qed.

Lemma signer_verify_sound E auth i x st w w' r cx l :
  nth_error (w_contexts w) x = Some cx -> refs w (x_stores cx) l ->
  signer_verify E auth i x st w = (w', r) ->
  keeps (stamped E auth i st cx l) x w w' /\
  forall chains, r = Ok chains -> chains <> [] /\ Forall (verified_chain E auth i st cx l) chains.
Proof.
  intros Hc Hr H. unfold signer_verify, build_chain, mbind in H.
  destruct (for_certificates E x (by_issuer_serial i) (build_chain_body E auth i x st) ([], FNone) w) as [w1 p] eqn:Ef.
  destruct (build_chain_sound _ _ _ _ _ _ _ _ _ _ Hc Hr Ef) as [K G].
  destruct p as [[chs f]|e]; [|injection H as <- <-; split; [assumption|discriminate]].
  destruct (G _ eq_refl) as [F _]. cbn [fst snd] in *.
  destruct f; try (injection H as <- <-; split; [assumption|discriminate]);
    unfold mret in H; destruct chs as [|ch chs]; injection H as <- <-; (split; [assumption|]);
    try discriminate; intros chains Ec; injection Ec as <-; (split; [discriminate|assumption]).
Qed.
