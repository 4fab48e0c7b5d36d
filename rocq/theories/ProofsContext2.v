(** Proofs about potential chains, trust decisions and store histories. *)
From Verif Require Import Base Bytes Monad ModelFile ModelX509 SpecX509 ProofsX509 ProofsX509b
  ModelContext SpecContext ProofsCTL ProofsContext.
From Coq Require Import ZifyBool ZifyNat FinFun.

(** ** Trust in stores *)

Definition trustedb (l : list store) (c : cert) : bool :=
  existsb (fun s => s_trusted s && cert_mem c (s_items s)) l.

Lemma trustedb_spec l c : trustedb l c = true <-> trusted_by l c.
Proof.
  unfold trustedb, trusted_by. rewrite existsb_exists. split.
  - intros (s & Hs & H). apply andb_true_iff in H. destruct H as [T H]. apply cert_mem_spec in H.
    destruct H as (d & Hd & Ed). exists s, d. auto.
  - intros (s & d & Hs & T & Hd & Ed). exists s. split; [assumption|]. rewrite T. cbn.
    apply cert_mem_spec. eauto.
Qed.

Lemma any_trusted_spec rs : forall w l c, refs w rs l -> any_trusted rs c w = (w, Ok (trustedb l c)).
Proof.
  induction rs as [|r rs IH]; intros w l c H; inversion H as [|? s ? l' Hr Hl]; subst; cbn [any_trusted].
  - reflexivity.
  - unfold mbind, store_is_trusted, mbind. rewrite (get_store_ok _ _ _ Hr). unfold mret.
    cbn [trustedb existsb]. destruct (s_trusted s && cert_mem c (s_items s)); cbn [orb]; [reflexivity|].
    now apply IH.
Qed.

Lemma is_trusted_spec w x l c : context_stores w x l -> is_trusted x c w = (w, Ok (trustedb l c)).
Proof.
  intros (cx & Hc & Hl). unfold is_trusted, mbind. rewrite (get_context_ok _ _ _ Hc).
  now apply any_trusted_spec.
Qed.

Lemma find_stores_ready {A} E q (body : cert -> A -> M world A) (f : cert -> A -> A) w :
  (forall c a, body c a w = (w, Ok (f c a))) ->
  forall rs l seen acc, refs w rs l -> Forall ready l ->
  find_stores E q body rs seen acc w =
  (w, Ok (fold_left (fun a c => f c a) (fresh seen (matching E q l)) acc)).
Proof.
  intros Hb. assert (Hf : forall l acc, mfold body l acc w = (w, Ok (fold_left (fun a c => f c a) l acc))).
  { induction l as [|c l IH]; intros acc; cbn [mfold fold_left]; [reflexivity|].
    unfold mbind. now rewrite Hb, IH. }
  induction rs as [|r rs IH]; intros l seen acc H R; inversion H as [|? s ? l' Hr Hl]; subst; cbn [find_stores].
  - reflexivity.
  - inversion R as [|? ? Rs Rl]; subst. unfold mbind at 1. rewrite (store_iter_ready _ _ _ Hr Rs).
    unfold mbind at 1. rewrite find_items_fold. unfold mbind at 1. rewrite Hf. unfold mret. cbn [fst snd].
    rewrite (IH _ _ _ Hl Rl). unfold matching. cbn [map concat].
    now rewrite filter_app, fresh_app, fold_left_app, (ready_contents _ Rs).
Qed.

(** ** Potential chains *)

Fixpoint pchains (E : env) (l : list store) (d : nat) (c : cert) : list (list cert) :=
  if trustedb l c then [[c]]
  else match d with
       | O => []
       | S d' => flat_map (fun k => map (fun ch => ch ++ [c])
                                      (filter (fun ch => negb (cert_mem c ch)) (pchains E l d' k)))
                          (fresh [] (matching E (by_subject (c_issuer c)) l))
       end.

Lemma fold_flat {B} (g : cert -> list B) l acc :
  fold_left (fun a c => a ++ g c) l acc = acc ++ flat_map g l.
Proof.
  revert acc; induction l as [|c l IH]; intros acc; cbn [fold_left flat_map]; [now rewrite app_nil_r|].
  now rewrite IH, <- app_assoc.
Qed.

Lemma potential_chains_pure E w x l d : forall c,
  context_stores w x l -> Forall ready l ->
  potential_chains E x d c w = (w, Ok (pchains E l d c)).
Proof.
  induction d as [|d IH]; intros c H R; cbn [potential_chains pchains]; unfold mbind at 1;
    rewrite (is_trusted_spec _ _ _ _ H); destruct (trustedb l c); try reflexivity.
  destruct H as (cx & Hc & Hl). unfold for_certificates, mbind at 1. rewrite (get_context_ok _ _ _ Hc).
  rewrite (find_stores_ready E _ _
    (fun k acc => acc ++ map (fun ch => ch ++ [c])
                         (filter (fun ch => negb (cert_mem c ch)) (pchains E l d k))) w) with (l := l); auto.
  - now rewrite fold_flat.
  - intros k a. unfold mbind. rewrite (IH k); [reflexivity| |assumption]. exists cx. auto.
Qed.

Lemma eqb_same_subject a b : cert_eqb a b = true -> rdns (c_subject a) = rdns (c_subject b).
Proof. intros H. apply cert_eqb_identity in H. apply H. Qed.

Lemma matching_subject E l n c :
  In c (fresh [] (matching E (by_subject n) l)) <->
  first_of (concat (map contents l)) c /\ rdns (c_subject c) = rdns n.
Proof.
  assert (Q : forall d, satisfies E (by_subject n) d <-> rdns (c_subject d) = rdns n).
  { intros d. unfold satisfies, by_subject; cbn. split.
    - intros (H & _). now apply H.
    - intros H. split; [intros ? Ei; now injection Ei as <-|]. repeat split; discriminate. }
  split.
  - intros H. destruct (find_certificates_facts E (by_subject n) l) as (_ & F2 & _ & F4 & _).
    rewrite Forall_forall in F2. pose proof (proj1 (Q c) (F2 c H)) as Sc. split; [|assumption].
    destruct (F4 c H) as (pre & post & -> & F). exists pre, post. split; [reflexivity|].
    eapply Forall_impl; [|exact F]. cbn beta. intros d Hd.
    destruct (cert_eqb d c) eqn:Ed; [|reflexivity]. apply Hd. apply Q.
    now rewrite (eqb_same_subject _ _ Ed).
  - intros [(pre & post & El & F) Hs]. apply fresh_first. unfold matching. rewrite El, filter_app.
    cbn [filter]. assert (query_matches E (by_subject n) c = true) as -> by (apply query_matches_spec, Q; assumption).
    eexists; eexists. split; [reflexivity|]. split; [|reflexivity].
    rewrite Forall_forall in *. intros d Hd. apply filter_In in Hd. apply F, Hd.
Qed.

Lemma linked_snoc l a b : linked (l ++ [a]) -> issued a b -> linked (l ++ [a; b]).
Proof.
  intros H I pre u v post E. destruct post as [|y post] using rev_ind.
  - assert (l ++ [a; b] = (l ++ [a]) ++ [b]) as E1 by (rewrite <- app_assoc; reflexivity).
    assert (pre ++ [u; v] = (pre ++ [u]) ++ [v]) as E2 by (rewrite <- app_assoc; reflexivity).
    rewrite E1, E2 in E. apply app_inj_tail in E. destruct E as [E <-].
    apply app_inj_tail in E. destruct E as [_ <-]. assumption.
  - assert (l ++ [a; b] = (l ++ [a]) ++ [b]) as E1 by (rewrite <- app_assoc; reflexivity).
    assert (pre ++ u :: v :: post ++ [y] = (pre ++ u :: v :: post) ++ [y]) as E2.
    { rewrite <- app_assoc. reflexivity. }
    rewrite E1, E2 in E. apply app_inj_tail in E. destruct E as [E _]. exact (H _ _ _ _ E).
Qed.

Lemma linked_prefix l m : linked (l ++ m) -> linked l.
Proof.
  intros H pre a b post E. apply (H pre a b (post ++ m)). rewrite E, <- app_assoc. reflexivity.
Qed.

Lemma all_different_app l m :
  all_different (l ++ m) <->
  all_different l /\ all_different m /\ (forall a b, In a l -> In b m -> cert_eqb a b = false).
Proof.
  unfold all_different. induction l as [|x l IH]; cbn [app].
  - split; [intros H; split; [constructor|split; [assumption|intros ? ? []]]|now intros (_ & H & _)].
  - split.
    + intros H. inversion H as [|? ? F R]; subst. apply IH in R. destruct R as (R1 & R2 & R3).
      apply Forall_app in F. destruct F as [F1 F2]. rewrite Forall_forall in F2.
      split; [constructor; assumption|]. split; [assumption|].
      intros a b [<-|Ha] Hb; auto.
    + intros (H1 & H2 & H3). inversion H1; subst. constructor.
      * apply Forall_app. split; [assumption|]. apply Forall_forall. intros b Hb. apply H3; [now left|assumption].
      * apply IH. split; [assumption|]. split; [assumption|]. intros a b Ha Hb. apply H3; [now right|assumption].
Qed.

Lemma cert_mem_false c l : cert_mem c l = false <-> forall d, In d l -> cert_eqb c d = false.
Proof.
  split.
  - intros H d Hd. destruct (cert_eqb c d) eqn:E; [|reflexivity].
    assert (cert_mem c l = true) by (apply cert_mem_spec; eauto). congruence.
  - intros H. destruct (cert_mem c l) eqn:E; [|reflexivity]. apply cert_mem_spec in E.
    destruct E as (d & Hd & Ed). rewrite (H d Hd) in Ed. discriminate Ed.
Qed.

Lemma pchains_spec E l d : forall c ch, In ch (pchains E l d c) <-> path_to l c d ch.
Proof.
  induction d as [|d IH]; intros c ch; cbn [pchains]; destruct (trustedb l c) eqn:T.
  1, 3: pose proof (proj1 (trustedb_spec _ _) T) as Tc.
  1, 2: cbn [In]; split;
    [ intros [<-|[]]; exists []; split; [reflexivity|]; split; [constructor|]; split;
      [ intros [|p [|q pre]] a b post Eq; discriminate Eq |]; split;
      [ constructor; constructor |]; split; [cbn; lia|];
      exists c, []; split; [reflexivity|]; split; [assumption|constructor]
    | intros (above & -> & _ & _ & _ & _ & root & rest & Er & _ & F); left;
      destruct above as [|a above]; [reflexivity|];
      injection Er as -> <-; exfalso; apply Forall_app in F; destruct F as [_ F];
      inversion F; contradiction ].
  - assert (Tc : ~ trusted_by l c) by (rewrite <- trustedb_spec; congruence).
    cbn [In]. split; [easy|].
    intros (above & -> & _ & _ & _ & L & root & rest & Er & Tr & _).
    destruct above as [|a above].
    + injection Er as <- _. contradiction.
    + rewrite app_length in L. cbn in L. lia.
  - assert (Tc : ~ trusted_by l c) by (rewrite <- trustedb_spec; congruence).
    rewrite in_flat_map. split.
    + intros (k & Hk & Hin). apply in_map_iff in Hin. destruct Hin as (ch' & <- & Hin).
      apply filter_In in Hin. destruct Hin as [Hin Hm]. apply negb_true_iff in Hm.
      apply IH in Hin. destruct Hin as (above & -> & F & Lk & AD & Len & root & rest & Er & Tr & Fr).
      apply matching_subject in Hk. destruct Hk as [Fk Sk].
      exists (above ++ [k]). split; [reflexivity|].
      split; [apply Forall_app; split; [assumption|constructor; [assumption|constructor]]|].
      split; [rewrite <- app_assoc; now apply linked_snoc|].
      split.
      { apply all_different_app. split; [assumption|]. split; [constructor; constructor|].
        intros a b Ha [<-|[]]. rewrite cert_eqb_sym. revert Ha. now apply cert_mem_false. }
      split; [rewrite !app_length in *; cbn [length] in *; lia|].
      exists root, (rest ++ [c]). split; [rewrite Er; reflexivity|]. split; [assumption|].
      apply Forall_app. split; [assumption|]. constructor; [assumption|constructor].
    + intros (above & -> & F & Lk & AD & Len & root & rest & Er & Tr & Fr).
      destruct above as [|k above _] using rev_ind.
      { injection Er as <- _. contradiction. }
      apply Forall_app in F. destruct F as [F1 F2]. inversion F2 as [|? ? Fk _]; subst.
      exists k. split.
      { apply matching_subject. split; [assumption|]. apply (Lk above k c []). rewrite <- app_assoc. reflexivity. }
      apply in_map_iff. exists (above ++ [k]). split; [reflexivity|]. apply filter_In.
      apply all_different_app in AD. destruct AD as (AD & _ & N). split.
      * apply IH. exists above. split; [reflexivity|]. split; [assumption|].
        split; [eapply linked_prefix; eassumption|]. split; [assumption|].
        split; [rewrite !app_length in *; cbn [length] in *; lia|].
        destruct rest as [|y rest _] using rev_ind.
        { apply (f_equal (@length _)) in Er. rewrite !app_length in Er. cbn [length] in Er. lia. }
        rewrite app_comm_cons in Er. apply app_inj_tail in Er. destruct Er as [Er <-].
        exists root, rest. split; [assumption|]. split; [assumption|]. apply Forall_app in Fr. apply Fr.
      * apply negb_true_iff, cert_mem_false. intros b Hb. rewrite cert_eqb_sym. apply N; [assumption|now left].
Qed.

Lemma NoDup_flat_map {A B} (f : A -> list B) l :
  NoDup l -> (forall a, In a l -> NoDup (f a)) ->
  (forall a b x, In a l -> In b l -> In x (f a) -> In x (f b) -> a = b) ->
  NoDup (flat_map f l).
Proof.
  induction l as [|a l IH]; intros N F D; cbn [flat_map]; [constructor|].
  inversion N; subst.
  assert (G : forall (u v : list B), NoDup u -> NoDup v -> (forall x, In x u -> ~ In x v) -> NoDup (u ++ v)).
  { clear. induction u as [|y u IH]; intros v Hu Hv Hd; [assumption|]. cbn [app]. inversion Hu; subst.
    constructor.
    - rewrite in_app_iff. intros [H|H]; [contradiction|]. exact (Hd y (or_introl eq_refl) H).
    - apply IH; auto. intros x Hx. apply Hd. now right. }
  apply G.
  - apply F. now left.
  - apply IH; auto.
    + intros b Hb. apply F. now right.
    + intros b c x Hb Hc. apply D; now right.
  - intros x Hx Hy. apply in_flat_map in Hy. destruct Hy as (b & Hb & Hy).
    assert (a = b) by (eapply D; [now left|now right|exact Hx|exact Hy]). subst. contradiction.
Qed.

Lemma all_different_NoDup l : all_different l -> NoDup l.
Proof.
  induction 1 as [|c l F _ IH]; constructor; [|assumption].
  intros H. rewrite Forall_forall in F. specialize (F c H). rewrite cert_eqb_refl in F. discriminate F.
Qed.

Lemma pchains_last E l d c ch : In ch (pchains E l d c) -> exists above, ch = above ++ [c].
Proof. intros H. apply pchains_spec in H. destruct H as (above & H & _). eauto. Qed.

Lemma pchains_NoDup E l d : forall c, NoDup (pchains E l d c).
Proof.
  induction d as [|d IH]; intros c; cbn [pchains]; destruct (trustedb l c).
  1, 3: constructor; [easy|constructor].
  - constructor.
  - apply NoDup_flat_map.
    + apply all_different_NoDup, fresh_different.
    + intros k _. apply FinFun.Injective_map_NoDup.
      * intros a b H. now apply app_inj_tail in H.
      * apply NoDup_filter, IH.
    + intros a b x _ _ Ha Hb. apply in_map_iff in Ha, Hb.
      destruct Ha as (ca & <- & Ha). destruct Hb as (cb & E' & Hb).
      apply app_inj_tail in E'. destruct E' as [-> _]. apply filter_In in Ha, Hb.
      destruct Ha as [Ha _]. destruct Hb as [Hb _]. apply pchains_last in Ha, Hb.
      destruct Ha as [u ->]. destruct Hb as [v Hv]. now apply app_inj_tail in Hv.
Qed.

(** ** Trust decisions *)

Definition stable (c : context) : Prop := exhaust (x_ekus c) = x_ekus c.

Lemma reusable_stable c : reusable c -> stable c.
Proof.
  unfold reusable, stable. destruct (x_ekus c) as [[o u]|]; [|reflexivity]. intros H.
  specialize (H _ eq_refl). cbn in H. subst o. reflexivity.
Qed.

Lemma read_ekus_stable w x c :
  nth_error (w_contexts w) x = Some c -> stable c ->
  read_ekus x w = (w, Ok (asked_usages c)).
Proof.
  intros H S. unfold read_ekus, mbind. rewrite (get_context_ok _ _ _ H).
  unfold put_context, mret. rewrite S. destruct c as [a b d e f g]; cbn [x_stores x_timestamp x_key_usages x_ekus x_optional_eku x_opts].
  rewrite list_set_same by assumption. destruct w; reflexivity.
Qed.

Lemma chain_last (root : cert) rest : exists pre ee, root :: rest = pre ++ [ee].
Proof.
  destruct (@exists_last _ (root :: rest)) as (pre & ee & ->); [discriminate|]. eauto.
Qed.

Lemma find_subject_algorithms E t c :
  (In (ctl_algorithm t) ["sha1"; "sha256"] /\
   find_subject E t c = Ok (dict_get (hex (list_identifier E (ctl_algorithm t) c)) (ctl_subjects t))) \/
  (~ In (ctl_algorithm t) ["sha1"; "sha256"] /\
   exists e, find_subject E t c = Err e /\ e_class e = CertificateTrustListParseError).
Proof.
  unfold find_subject. destruct (String.eqb_spec (ctl_algorithm t) "sha1") as [->|N1].
  - left. split; [now left|reflexivity].
  - destruct (String.eqb_spec (ctl_algorithm t) "sha256") as [->|N2].
    + left. split; [now right; left|reflexivity].
    + right. split; [intros [H|[H|[]]]; congruence|]. eexists. split; reflexivity.
Qed.

(** What a trust list answers. *)
Lemma ctl_verify_trust_spec E t root rest w x c :
  nth_error (w_contexts w) x = Some c -> stable c ->
  (ctl_verify_trust E t (root :: rest) x w = (w, Ok true) /\
   ctl_accepts E t (root :: rest) (asked_time E c) (asked_usages c)) \/
  (~ ctl_accepts E t (root :: rest) (asked_time E c) (asked_usages c) /\
   exists e, ctl_verify_trust E t (root :: rest) x w = (w, Err e) /\
     (In (ctl_algorithm t) ["sha1"; "sha256"] -> printable root -> datable E c (root :: rest) ->
      e_class e = CTLCertificateVerificationError) /\
     (e_class e = CTLCertificateVerificationError \/ e_class e = CertificateTrustListParseError \/
      e_class e = TypeError)).
Proof.
  intros Hc S. unfold ctl_verify_trust, mbind, mres.
  destruct (find_subject_algorithms E t root) as [[Ha ->]|(Ha & e & -> & He)].
  2: { right. split.
       - intros (r & rs & pre & ee & s & E1 & _ & E2 & _). contradiction.
       - exists e. split; [reflexivity|]. split; [intros; contradiction|]. auto. }
  destruct (dict_get _ (ctl_subjects t)) as [s|] eqn:Es.
  - rewrite (get_context_ok _ _ _ Hc), (read_ekus_stable _ _ _ Hc S).
    fold (asked_time E c).
    destruct (chain_last root rest) as (pre & ee & El).
    assert (G : ctl_accepts E t (root :: rest) (asked_time E c) (asked_usages c) <->
                entry_accepts s (c_valid_from ee) (asked_time E c) (asked_usages c)).
    { split.
      - intros (r & rs & pre' & ee' & s' & E1 & E2 & _ & E4 & E5).
        injection E1 as <- <-. rewrite Es in E4. injection E4 as <-.
        rewrite El in E2. apply app_inj_tail in E2. destruct E2 as [_ <-]. assumption.
      - intros H. exists root, rest, pre, ee, s. auto. }
    rewrite El in *. destruct (subject_verify_trust_cases s pre ee (asked_time E c) (asked_usages c))
      as [[-> H]|(e & -> & H & He)].
    + left. split; [reflexivity|]. now apply G.
    + right. split; [now rewrite G|]. exists e. split; [reflexivity|]. split.
      * intros _ _ [T1 T2]. destruct He as [[He _]|[_ He]]; [exact He|]. exfalso. apply He.
        apply aware_decides; [now apply (T2 pre)|exact T1].
      * unfold ctl_class, type_class in He. tauto.
  - right. split.
    { intros (r & rs & pre' & ee' & s' & E1 & E2 & _ & E4 & E5). injection E1 as <- <-. congruence. }
    unfold raise_fmt. destruct (cert_str root) as [[]|e] eqn:Ec; cbn [rbind].
    + eexists. split; [reflexivity|]. split; [reflexivity|]. left. reflexivity.
    + exists e. split; [reflexivity|]. pose proof (cert_str_error _ _ Ec) as He. split.
      * intros _ P _. exfalso. apply dn_total in P. destruct P as [u Hu]. unfold cert_str in Ec.
        rewrite Hu in Ec. discriminate Ec.
      * auto.
Qed.

Lemma store_verify_trust_spec E r s root rest w x c :
  nth_error (w_stores w) r = Some s -> nth_error (w_contexts w) x = Some c -> stable c ->
  (store_verify_trust E r (root :: rest) x w = (w, Ok true) /\
   store_accepts E s (s_items s) (root :: rest) (asked_time E c) (asked_usages c)) \/
  (~ store_accepts E s (s_items s) (root :: rest) (asked_time E c) (asked_usages c) /\
   exists e, store_verify_trust E r (root :: rest) x w = (w, Err e) /\
     ((~ holds s (s_items s) root /\
       (printable root -> e_class e = CertificateNotTrustedVerificationError) /\
       (e_class e = CertificateNotTrustedVerificationError \/ e_class e = TypeError)) \/
      (holds s (s_items s) root /\
       (supported s -> printable root -> datable E c (root :: rest) -> e_class e = CTLCertificateVerificationError) /\
       (e_class e = CTLCertificateVerificationError \/ e_class e = CertificateTrustListParseError \/
        e_class e = TypeError) /\
       exists t, s_ctl s = Some t /\ ctl_verify_trust E t (root :: rest) x w = (w, Err e)))).
Proof.
  intros Hr Hc S.
  assert (T : s_trusted s && cert_mem root (s_items s) = true <-> holds s (s_items s) root).
  { rewrite andb_true_iff, cert_mem_spec. reflexivity. }
  unfold store_verify_trust, store_is_trusted, mbind. rewrite (get_store_ok _ _ _ Hr). unfold mret.
  destruct (s_trusted s && cert_mem root (s_items s)) eqn:Et; cbn [negb].
  - destruct (proj1 T eq_refl) as [Ht (d & Hd & Ed)]. rewrite (get_store_ok _ _ _ Hr).
    destruct (s_ctl s) as [t|] eqn:Ec.
    + destruct (ctl_verify_trust_spec E t root rest w x c Hc S) as [[-> H]|(H & e & E' & He & He')].
      * left. split; [reflexivity|]. split; [assumption|]. split.
        { exists root, rest, d. auto. }
        intros t' Et'. rewrite Ec in Et'. now injection Et' as <-.
      * right. split.
        { intros (_ & _ & H'). specialize (H' t Ec). contradiction. }
        rewrite E'. exists e. split; [reflexivity|]. right. split; [now split; eauto|]. split.
        { intros Sp. apply He. now apply Sp. }
        split; [assumption|]. exists t. auto.
    + left. split; [reflexivity|]. split; [assumption|]. split.
      { exists root, rest, d. auto. }
      intros t Et'. congruence.
  - assert (N : ~ holds s (s_items s) root) by (rewrite <- T; discriminate).
    right. split.
    { intros (A & (r' & rs & d & E1 & E2 & E3) & _). injection E1 as <- <-. apply N. split; eauto. }
    unfold mres, raise_fmt. destruct (cert_str root) as [[]|e] eqn:Ec; cbn [rbind].
    + eexists. split; [reflexivity|]. left. split; [assumption|]. split; [reflexivity|]. left. reflexivity.
    + exists e. split; [reflexivity|]. left. split; [assumption|].
      pose proof (cert_str_error _ _ Ec) as He. split; [|auto].
      intros P. exfalso. apply dn_total in P. destruct P as [u Hu]. unfold cert_str in Ec.
      rewrite Hu in Ec. discriminate Ec.
Qed.

(** Acceptance is sound whatever goes wrong on the way. *)
Lemma verify_trust_loop_sound E x chain rs : forall w l last c w' b o,
  refs w rs l -> nth_error (w_contexts w) x = Some c -> stable c ->
  verify_trust_loop E x chain rs last w = (w', Ok (b, o)) ->
  w' = w /\ (b = true -> exists s, In s l /\ store_accepts E s (s_items s) chain (asked_time E c) (asked_usages c)).
Proof.
  induction rs as [|r rs IH]; intros w l last c w' b o H Hc S Hv; inversion H as [|? s ? l' Hr Hl]; subst;
    cbn [verify_trust_loop] in Hv.
  - injection Hv as <- <- <-. split; [reflexivity|discriminate].
  - destruct chain as [|root rest].
    + unfold store_verify_trust, mraise in Hv. discriminate Hv.
    + destruct (store_verify_trust_spec E r s root rest w x c Hr Hc S) as [[E1 A]|(N & e & E1 & _)];
        rewrite E1 in Hv.
      * injection Hv as <- <- <-. split; [reflexivity|]. intros _. exists s. split; [now left|assumption].
      * destruct (catches CertificateNotTrustedVerificationError e); [|destruct (catches VerificationError e); [|discriminate Hv]].
        -- destruct (IH _ _ _ _ _ _ _ Hl Hc S Hv) as [-> A]. split; [reflexivity|].
           intros Hb. destruct (A Hb) as (s' & Hs & A'). exists s'. split; [now right|assumption].
        -- destruct (IH _ _ _ _ _ _ _ Hl Hc S Hv) as [-> A]. split; [reflexivity|].
           intros Hb. destruct (A Hb) as (s' & Hs & A'). exists s'. split; [now right|assumption].
Qed.

Lemma verify_trust_sound E x chain w l c w' b :
  nth_error (w_contexts w) x = Some c -> refs w (x_stores c) l -> stable c ->
  verify_trust E x chain w = (w', Ok b) ->
  w' = w /\ b = true /\
  exists s, In s l /\ store_accepts E s (s_items s) chain (asked_time E c) (asked_usages c).
Proof.
  intros Hc H S Hv. unfold verify_trust, mbind in Hv. rewrite (get_context_ok _ _ _ Hc) in Hv.
  destruct (verify_trust_loop E x chain (x_stores c) None w) as [w1 [[b1 o]|e]] eqn:L; [|discriminate Hv].
  destruct (verify_trust_loop_sound _ _ _ _ _ _ _ _ _ _ _ H Hc S L) as [-> A].
  cbn [fst snd] in Hv. destruct b1.
  - injection Hv as <- <-. split; [reflexivity|]. split; [reflexivity|]. now apply A.
  - destruct o; discriminate Hv.
Qed.

(** Exact behaviour, when errors can be formatted and the trust lists are supported. *)
Definition last_error (E : env) (x : nat) (chain : list cert) (w : world) (l : list store) (root : cert)
  (last : option exn) (o : option exn) : Prop :=
  (exists pre s post t e, l = pre ++ s :: post /\ holds s (s_items s) root /\
     Forall (fun s => ~ holds s (s_items s) root) post /\ s_ctl s = Some t /\
     snd (ctl_verify_trust E t chain x w) = Err e /\ o = Some e /\
     e_class e = CTLCertificateVerificationError) \/
  (Forall (fun s => ~ holds s (s_items s) root) l /\ o = last).

Lemma verify_trust_loop_exact E x root rest rs : forall w l last c,
  refs w rs l -> nth_error (w_contexts w) x = Some c -> stable c ->
  printable root -> datable E c (root :: rest) -> Forall supported l ->
  (exists o, verify_trust_loop E x (root :: rest) rs last w = (w, Ok (true, o)) /\
   exists s, In s l /\ store_accepts E s (s_items s) (root :: rest) (asked_time E c) (asked_usages c)) \/
  (Forall (fun s => ~ store_accepts E s (s_items s) (root :: rest) (asked_time E c) (asked_usages c)) l /\
   exists o, verify_trust_loop E x (root :: rest) rs last w = (w, Ok (false, o)) /\
   last_error E x (root :: rest) w l root last o).
Proof.
  induction rs as [|r rs IH]; intros w l last c H Hc S P Da Sp; inversion H as [|? s ? l' Hr Hl]; subst;
    cbn [verify_trust_loop].
  - right. split; [constructor|]. exists last. split; [reflexivity|]. right. split; [constructor|reflexivity].
  - inversion Sp as [|? ? Ss Sl]; subst.
    destruct (store_verify_trust_spec E r s root rest w x c Hr Hc S) as [[E1 A]|(N & e & E1 & D)]; rewrite E1.
    + left. exists last. split; [reflexivity|]. exists s. split; [now left|assumption].
    + destruct D as [(Nh & He & _)|(Hh & He & _ & t & Et & Ev)].
      * specialize (He P).
        assert (catches CertificateNotTrustedVerificationError e = true) as ->
          by (unfold catches; rewrite He; reflexivity).
        destruct (IH w l' last c Hl Hc S P Da Sl) as [(o & Eo & s' & Hs & A)|(F & o & Eo & D)].
        -- left. exists o. split; [assumption|]. exists s'. split; [now right|assumption].
        -- right. split; [now constructor|]. exists o. split; [assumption|].
           destruct D as [(pre & s' & post & t & e' & -> & D)|[D ->]].
           ++ left. exists (s :: pre), s', post, t, e'. split; [reflexivity|assumption].
           ++ right. split; [now constructor|reflexivity].
      * specialize (He Ss P Da).
        assert (catches CertificateNotTrustedVerificationError e = false) as ->
          by (unfold catches; rewrite He; reflexivity).
        assert (catches VerificationError e = true) as -> by (unfold catches; rewrite He; reflexivity).
        destruct (IH w l' (Some e) c Hl Hc S P Da Sl) as [(o & Eo & s' & Hs & A)|(F & o & Eo & D)].
        -- left. exists o. split; [assumption|]. exists s'. split; [now right|assumption].
        -- right. split; [now constructor|]. exists o. split; [assumption|]. left.
           destruct D as [(pre & s' & post & t' & e' & -> & D)|[D ->]].
           ++ exists (s :: pre), s', post, t', e'. split; [reflexivity|assumption].
           ++ exists [], s, l', t, e. split; [reflexivity|]. split; [assumption|]. split; [assumption|].
              split; [assumption|]. rewrite Ev. auto.
Qed.

Lemma verify_trust_exact E x root rest w l c :
  nth_error (w_contexts w) x = Some c -> refs w (x_stores c) l -> stable c ->
  printable root -> datable E c (root :: rest) -> Forall supported l ->
  (verify_trust E x (root :: rest) w = (w, Ok true) /\
   exists s, In s l /\ store_accepts E s (s_items s) (root :: rest) (asked_time E c) (asked_usages c)) \/
  (Forall (fun s => ~ store_accepts E s (s_items s) (root :: rest) (asked_time E c) (asked_usages c)) l /\
   exists e, verify_trust E x (root :: rest) w = (w, Err e) /\
   ((e_class e = CTLCertificateVerificationError /\
     exists pre s post t, l = pre ++ s :: post /\ holds s (s_items s) root /\
       Forall (fun s => ~ holds s (s_items s) root) post /\ s_ctl s = Some t /\
       snd (ctl_verify_trust E t (root :: rest) x w) = Err e) \/
    (e_class e = CertificateVerificationError /\
     Forall (fun s => ~ holds s (s_items s) root) l))).
Proof.
  intros Hc H S P Da Sp. unfold verify_trust, mbind. rewrite (get_context_ok _ _ _ Hc).
  destruct (verify_trust_loop_exact E x root rest (x_stores c) w l None c H Hc S P Da Sp)
    as [(o & -> & A)|(F & o & -> & D)]; cbn [fst snd].
  - left. split; [reflexivity|assumption].
  - right. split; [assumption|]. destruct D as [(pre & s & post & t & e & -> & D1 & D2 & D3 & D4 & -> & D6)|[D ->]].
    + exists e. split; [reflexivity|]. left. split; [assumption|]. exists pre, s, post, t. auto.
    + eexists. split; [reflexivity|]. right. split; [reflexivity|assumption].
Qed.

(** ** VerificationContext.verify *)

Lemma iter_pairs_snd rs l :
  length rs = length l ->
  map snd (concat (map (fun p : nat * store => map (fun c : cert => (fst p, c)) (contents (snd p))) (combine rs l))) =
  concat (map contents l).
Proof.
  revert l; induction rs as [|r rs IH]; intros [|s l] H; try discriminate H; [reflexivity|].
  cbn [combine map concat fst snd]. rewrite map_app, map_map, IH by now injection H.
  f_equal. apply map_id.
Qed.

Lemma pick_by_app p l m : pick_by p (l ++ m) = pick_by p l ++ pick_by p m.
Proof. induction l as [|[r c] l IH]; cbn; [reflexivity|]. rewrite IH. now destruct (p r). Qed.

Lemma pick_by_const p r (l : list cert) : pick_by p (map (fun c => (r, c)) l) = if p r then l else [].
Proof. induction l as [|c l IH]; cbn [map pick_by]; [now destruct (p r)|]. rewrite IH. now destruct (p r). Qed.

Lemma pick_by_stores (w : world) (f : bool -> bool) rs l l' :
  refs w rs l' -> Forall2 same_view l l' ->
  pick_by (fun r => f (store_trusted w r))
    (concat (map (fun p : nat * store => map (fun c : cert => (fst p, c)) (contents (snd p))) (combine rs l))) =
  concat (map contents (filter (fun s => f (s_trusted s)) l)).
Proof.
  intros H V. revert rs H. induction V as [|s s' l l' V _ IH]; intros rs H; inversion H as [|r ? rs' ? Hr Hl]; subst.
  - reflexivity.
  - cbn [combine map concat fst snd filter]. rewrite pick_by_app, pick_by_const, (IH _ Hl).
    unfold store_trusted. rewrite Hr. destruct V as (_ & -> & _). now destruct (f (s_trusted s)).
Qed.

Lemma by_id_in l i c : by_id l i = Some c -> In c l /\ c_id c = i.
Proof.
  induction l as [|d l IH]; cbn [by_id]; [discriminate|]. destruct (by_id l i) as [e|].
  - intros H; injection H as <-. destruct IH as [A B]; [reflexivity|]. split; [now right|assumption].
  - destruct (Z.eqb_spec (c_id d) i) as [E|]; [|discriminate]. intros H; injection H as <-.
    split; [now left|assumption].
Qed.

Lemma map_ids_spec l ids cs : map_ids l ids = Ok cs -> Forall2 (fun i c => In c l /\ c_id c = i) ids cs.
Proof.
  revert cs; induction ids as [|i ids IH]; intros cs H; cbn [map_ids] in H.
  - injection H as <-. constructor.
  - destruct (by_id l i) as [c|] eqn:E; [|discriminate H].
    destruct (map_ids l ids) as [cs'|]; cbn [rbind] in H; [|discriminate H]. injection H as <-.
    constructor; [now apply by_id_in|auto].
Qed.

Definition after_usages (c : context) : context :=
  mkContext (x_stores c) (x_timestamp c) (exhaust (x_key_usages c)) (exhaust (x_ekus c))
            (x_optional_eku c) (x_opts c).

Lemma after_usages_stable c : stable (after_usages c).
Proof.
  unfold stable, after_usages. cbn. destruct (x_ekus c) as [[[] u]|]; reflexivity.
Qed.

Definition with_context (x : nat) (c : context) (w : world) : world :=
  mkWorld (w_stores w) (list_set x c (w_contexts w)) (w_file w).

Lemma list_set_set {A} (l : list A) n a b : list_set n b (list_set n a l) = list_set n b l.
Proof. revert n; induction l as [|x l IH]; intros [|n]; cbn [list_set]; try reflexivity. now rewrite IH. Qed.

Lemma nth_list_set_same {A} (l : list A) n a b : nth_error l n = Some a -> nth_error (list_set n b l) n = Some b.
Proof. intros H. rewrite nth_list_set, Nat.eqb_refl, H. reflexivity. Qed.

Lemma read_usages w x c :
  nth_error (w_contexts w) x = Some c ->
  exists w', read_key_usages x w = (w', Ok (usage_list (x_key_usages c))) /\
  read_ekus x w' = (with_context x (after_usages c) w, Ok (asked_usages c)).
Proof.
  intros H. unfold read_key_usages, mbind. rewrite (get_context_ok _ _ _ H). unfold put_context, mret.
  eexists. split; [reflexivity|]. unfold read_ekus, mbind.
  unfold get_context. cbn [w_contexts]. rewrite (nth_list_set_same _ _ _ _ H). cbn [x_stores x_timestamp x_key_usages x_ekus x_optional_eku x_opts w_contexts w_stores w_file].
  unfold put_context, mret, with_context, after_usages. cbn [w_contexts w_stores w_file]. now rewrite list_set_set.
Qed.

Definition ids_in (l : list cert) (ids : list Z) (chain : list cert) : Prop :=
  Forall2 (fun i c => In c l /\ c_id c = i) ids chain.

Lemma context_verify_sound E x c w w' chain cx l :
  nth_error (w_contexts w) x = Some cx -> refs w (x_stores cx) l ->
  context_verify E x c w = (w', Ok chain) ->
  exists ids s,
    e_validate E (concat (map contents (filter (fun s => s_trusted s) l))) (x_timestamp cx) (x_opts cx) c
      (concat (map contents (filter (fun s => negb (s_trusted s)) l)))
      (usage_list (x_key_usages cx)) (asked_usages cx) (x_optional_eku cx) = Ok ids /\
    ids_in (c :: concat (map contents l)) ids chain /\
    In s l /\ store_accepts E s (contents s) chain (asked_time E cx) (asked_usages (after_usages cx)).
Proof.
  intros Hc Hr Hv. unfold context_verify, mbind in Hv. rewrite (get_context_ok _ _ _ Hc) in Hv.
  destruct (iter_stores_spec (x_stores cx) w l Hr) as [(w1 & l1 & A & Hr1 & V & R & E1)|(w1 & e & A & E1)];
    rewrite E1 in Hv; [|discriminate Hv].
  assert (Hlen : length (x_stores cx) = length l) by (clear -Hr; induction Hr; cbn; congruence).
  pose proof (pick_by_stores w1 (fun b => b) _ _ _ Hr1 V) as P1. cbn beta in P1.
  change (fun r => store_trusted w1 r) with (store_trusted w1) in P1. rewrite P1 in Hv.
  rewrite (pick_by_stores w1 negb _ _ _ Hr1 V) in Hv.
  rewrite (iter_pairs_snd _ _ Hlen) in Hv.
  unfold mres at 1 in Hv. destruct (e_mk_validation E _ (x_timestamp cx) (x_opts cx) _ _) as [[]|]; [|discriminate Hv].
  assert (Hc1 : nth_error (w_contexts w1) x = Some cx) by (destruct A as (-> & _); assumption).
  destruct (read_usages w1 x cx Hc1) as (w2 & Eu1 & Eu2).
  unfold mtry in Hv. rewrite Eu1 in Hv. rewrite Eu2 in Hv. unfold mres in Hv.
  destruct (e_validate E _ _ _ c _ _ _ _) as [ids|e] eqn:Ee.
  2: { destruct (catches Exception_ e); [|discriminate Hv].
       destruct (raise_fmt c CertificateVerificationError "Chain verification failed") as [a|e'] eqn:Ef.
       - now apply raise_fmt_not_ok in Ef.
       - discriminate Hv. }
  exists ids. destruct (map_ids (c :: concat (map contents l)) ids) as [ch|] eqn:Em; [|discriminate Hv].
  apply map_ids_spec in Em.
  destruct (verify_trust E x ch (with_context x (after_usages cx) w1)) as [w3 [b|]] eqn:Et; [|discriminate Hv].
  unfold mret in Hv. injection Hv as <- <-.
  destruct (verify_trust_sound E x ch (with_context x (after_usages cx) w1) l1 (after_usages cx) w3 b)
    as (_ & _ & s1 & Hs1 & Acc); auto.
  - unfold with_context. cbn [w_contexts]. now rewrite (nth_list_set_same _ _ _ _ Hc1).
  - apply after_usages_stable.
  - assert (G : exists s, In s l /\ same_view s s1 /\ ready s1).
    { clear -V R Hs1. induction V as [|a b l l' V _ IH]; [destruct Hs1|]. inversion R; subst.
      destruct Hs1 as [->|Hs1].
      - exists a. split; [now left|auto].
      - destruct IH as (s & Hs & Hv & Hr); auto. exists s. split; [now right|auto]. }
    destruct G as (s & Hs & (V1 & V2 & V3 & _) & Rs). exists s.
    split; [reflexivity|]. split; [exact Em|]. split; [assumption|].
    destruct Acc as (A1 & A2 & A3). rewrite V2, V3 in *. rewrite <- (ready_contents _ Rs), V1 in A2.
    split; [assumption|]. split; [assumption|]. exact A3.
Qed.

(** ** Histories *)

Lemma store_len_spec w r s :
  nth_error (w_stores w) r = Some s ->
  store_len r w = (with_store r (loaded s) w,
                   match load_error s with None => Ok (zlen (contents s)) | Some e => Err e end).
Proof.
  intros H. unfold store_len, mbind. rewrite (store_load_spec _ _ _ H).
  destruct (load_error s); [reflexivity|].
  rewrite (get_store_ok _ _ (loaded s)).
  - unfold mret. now rewrite items_loaded.
  - rewrite (nth_with_store _ _ _ _ _ H), Nat.eqb_refl. reflexivity.
Qed.

Lemma store_append_spec w r s c :
  nth_error (w_stores w) r = Some s ->
  store_append r c w =
  (with_store r (mkStore (s_items s ++ [c]) (s_trusted s) (s_ctl s) (s_location s) (s_loaded s)) w, Ok tt).
Proof. intros H. unfold store_append, mbind. now rewrite (get_store_ok _ _ _ H). Qed.

(** What an operation does to the store. *)
Definition step (o : op) (s : store) : store :=
  match o with
  | OIter | OLen | OFind _ | OFindOne _ => loaded s
  | OTrusted _ => s
  | OAppend c => mkStore (s_items s ++ [c]) (s_trusted s) (s_ctl s) (s_location s) (s_loaded s)
  end.
(** What it answers. *)
Definition reply (E : env) (o : op) (s : store) : answer :=
  let got {A} (a : res A) := match load_error s with None => a | Some e => Err e end in
  match o with
  | OIter => ACerts (got (Ok (contents s)))
  | OLen => ANumber (got (Ok (zlen (contents s))))
  | OFind q => ACerts (got (Ok (filter (query_matches E q) (contents s))))
  | OFindOne q => ACert (got (the_only (filter (query_matches E q) (contents s))))
  | OTrusted c => ABool (Ok (s_trusted s && cert_mem c (s_items s)))
  | OAppend c => ANone (Ok tt)
  end.

Lemma perform_spec E r o w s :
  nth_error (w_stores w) r = Some s ->
  perform E r o w = (with_store r (step o s) w, reply E o s).
Proof.
  intros H. destruct o; unfold perform.
  - rewrite (store_iter_spec _ _ _ H). cbn. now destruct (load_error s).
  - rewrite (store_len_spec _ _ _ H). cbn. now destruct (load_error s).
  - unfold store_find_certificates, mbind. rewrite (store_iter_spec _ _ _ H). cbn. now destruct (load_error s).
  - unfold store_find_certificate, store_find_certificates, mbind. rewrite (store_iter_spec _ _ _ H). cbn.
    now destruct (load_error s).
  - unfold store_is_trusted, mbind. rewrite (get_store_ok _ _ _ H). cbn.
    now rewrite (with_store_same _ _ _ H).
  - rewrite (store_append_spec _ _ _ _ H). reflexivity.
Qed.

Fixpoint steps (h : list op) (s : store) : store :=
  match h with [] => s | o :: h' => steps h' (step o s) end.
Fixpoint replies (E : env) (h : list op) (s : store) : list answer :=
  match h with [] => [] | o :: h' => reply E o s :: replies E h' (step o s) end.

Lemma with_store_twice r a b w : with_store r b (with_store r a w) = with_store r b w.
Proof. unfold with_store. cbn. now rewrite list_set_set. Qed.

Lemma perform_all_spec E r h : forall w s,
  nth_error (w_stores w) r = Some s ->
  perform_all E r h w = (with_store r (steps h s) w, replies E h s).
Proof.
  induction h as [|o h IH]; intros w s H; cbn [perform_all steps replies].
  - now rewrite (with_store_same _ _ _ H).
  - rewrite (perform_spec _ _ _ _ _ H).
    rewrite (IH (with_store r (step o s) w) (step o s)).
    + now rewrite with_store_twice.
    + rewrite (nth_with_store _ _ _ _ _ H), Nat.eqb_refl. reflexivity.
Qed.

(** A store that has been read without error behaves as a plain one from then on. *)
Definition twin (s p : store) : Prop :=
  ready s /\ s_location p = None /\ s_items p = s_items s /\ s_trusted p = s_trusted s.

Lemma twin_step E o s p : twin s p -> twin (step o s) (step o p) /\ reply E o s = reply E o p.
Proof.
  intros (R & L & I & T).
  assert (Rp : ready p) by now left.
  assert (C : contents s = contents p) by (rewrite (ready_contents _ R), (ready_contents _ Rp); now symmetry).
  assert (E1 : load_error s = None) by now apply readable_load_error, ready_readable.
  assert (E2 : load_error p = None) by now apply readable_load_error, ready_readable.
  split.
  - destruct o; cbn [step]; try rewrite (ready_loaded _ R), (ready_loaded _ Rp);
      try (split; [assumption|]; split; [assumption|]; split; assumption).
    split; [exact R|]. split; [exact L|]. cbn. split; [now rewrite I|assumption].
  - destruct o; unfold reply; rewrite ?E1, ?E2, ?C, ?T, ?I; reflexivity.
Qed.

Lemma twin_replies E h : forall s p, twin s p -> replies E h s = replies E h p.
Proof.
  induction h as [|o h IH]; intros s p T; cbn [replies]; [reflexivity|].
  destruct (twin_step E o s p T) as [T' ->]. now rewrite (IH _ _ T').
Qed.

Lemma first_read E o h s :
  reads o -> readable s -> replies E (o :: h) s = replies E (o :: h) (plain (contents s) s).
Proof.
  intros Ro R. cbn [replies].
  assert (E1 : load_error s = None) by now apply readable_load_error.
  assert (G : twin (step o s) (step o (plain (contents s) s)) /\ reply E o s = reply E o (plain (contents s) s)).
  { assert (T : twin (loaded s) (plain (contents s) s)).
    { split; [unfold loaded; destruct (s_location s) eqn:El; [now right|now left]|].
      split; [reflexivity|]. split; [now rewrite items_loaded|].
      unfold loaded. now destruct (s_location s). }
    destruct o; try destruct Ro; (split; [exact T|unfold reply; rewrite E1; reflexivity]). }
  destruct G as [T ->]. now rewrite (twin_replies E h _ _ T).
Qed.

(** The life of a store. *)
Lemma contents_cases h : forall s l,
  s_location s = Some l -> s_loaded s = false ->
  exists a b, appended h = a ++ b /\
  ((s_loaded (steps h s) = false /\ b = [] /\ s_items (steps h s) = s_items s ++ a) \/
   (s_loaded (steps h s) = true /\ s_items (steps h s) = s_items s ++ a ++ location_certs l ++ b)).
Proof.
  assert (G : forall h s, s_loaded s = true ->
     s_loaded (steps h s) = true /\ s_items (steps h s) = s_items s ++ appended h).
  { clear. induction h as [|o h IH]; intros s H; cbn [steps appended]; [now rewrite app_nil_r|].
    assert (R : ready s) by now right.
    destruct o; cbn [step]; rewrite ?(ready_loaded _ R); try (now apply IH).
    destruct (IH (mkStore (s_items s ++ [c]) (s_trusted s) (s_ctl s) (s_location s) (s_loaded s)) H) as [-> ->].
    cbn [s_items]. split; [reflexivity|]. now rewrite <- app_assoc. }
  induction h as [|o h IH]; intros s l Hl Hn; cbn [steps appended].
  - exists [], []. split; [reflexivity|]. left. rewrite app_nil_r. auto.
  - assert (Hld : s_loaded (loaded s) = true /\ s_items (loaded s) = s_items s ++ location_certs l).
    { unfold loaded, contents. rewrite Hl, Hn. auto. }
    destruct o; cbn [step]; try (now apply IH);
      try (destruct Hld as [L1 L2]; destruct (G h _ L1) as [G1 G2];
           exists [], (appended h); split; [reflexivity|]; right; split; [assumption|];
           rewrite G2, L2, <- app_assoc; reflexivity).
    destruct (IH (mkStore (s_items s ++ [c]) (s_trusted s) (s_ctl s) (s_location s) (s_loaded s)) l Hl Hn)
      as (a & b & E & D). exists (c :: a), b. split; [cbn; now rewrite E|]. cbn [s_items] in D.
    destruct D as [(D1 & D2 & D3)|(D1 & D2)]; [left|right].
    + split; [assumption|]. split; [assumption|]. now rewrite D3, <- app_assoc.
    + split; [assumption|]. now rewrite D2, <- app_assoc.
Qed.

Lemma steps_app h1 h2 s : steps (h1 ++ h2) s = steps h2 (steps h1 s).
Proof. revert s; induction h1 as [|o h1 IH]; intros s; cbn; [reflexivity|apply IH]. Qed.

Lemma steps_loaded h : forall s, s_loaded s = true ->
  s_loaded (steps h s) = true /\ s_items (steps h s) = s_items s ++ appended h.
Proof.
  induction h as [|o h IH]; intros s H; cbn [steps appended]; [now rewrite app_nil_r|].
  assert (R : ready s) by now right.
  destruct o; cbn [step]; rewrite ?(ready_loaded _ R); try (now apply IH).
  destruct (IH (mkStore (s_items s ++ [c]) (s_trusted s) (s_ctl s) (s_location s) (s_loaded s)) H) as [-> ->].
  cbn [s_items]. split; [reflexivity|]. now rewrite <- app_assoc.
Qed.

Lemma steps_attrs h : forall s, s_trusted (steps h s) = s_trusted s /\ s_ctl (steps h s) = s_ctl s /\
  s_location (steps h s) = s_location s.
Proof.
  induction h as [|o h IH]; intros s; cbn [steps]; [auto|].
  destruct (IH (step o s)) as (-> & -> & ->).
  destruct o; cbn [step]; auto; unfold loaded; destruct (s_location s) eqn:E; cbn; auto.
Qed.

(** ** Searching one store *)

Lemma filter_selected E q l : selected (satisfies E q) l (filter (query_matches E q) l).
Proof.
  induction l as [|c l IH]; cbn [filter]; [constructor|]. destruct (query_matches E q c) eqn:H.
  - constructor; [now apply query_matches_spec|exact IH].
  - apply selected_skip; [rewrite <- query_matches_spec; congruence|exact IH].
Qed.
Lemma store_find_spec E w r s q : nth_error (w_stores w) r = Some s -> readable s ->
  exists w' out, store_find_certificates E r q w = (w', Ok out) /\ selected (satisfies E q) (contents s) out /\
  exists a, store_find_certificate E r q w = (w', a) /\
  match a with
  | Ok c => out = [c]
  | Err e => e_class e = KeyError /\ length out <> 1%nat
  end.
Proof.
  intros H R. apply readable_load_error in R.
  assert (F : store_find_certificates E r q w = (with_store r (loaded s) w, Ok (filter (query_matches E q) (contents s)))).
  { unfold store_find_certificates, mbind. rewrite (store_iter_spec _ _ _ H), R. reflexivity. }
  eexists _, _. split; [exact F|]. split; [apply filter_selected|].
  eexists. split; [unfold store_find_certificate, mbind; rewrite F; reflexivity|].
  destruct (filter _ _) as [|c [|d l]]; cbn; [split; [reflexivity|discriminate]|reflexivity|split; [reflexivity|discriminate]].
Qed.
