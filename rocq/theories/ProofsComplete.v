From Verif Require Import Base Bytes Monad ModelFile ModelFingerprint ModelPE SpecPE ModelX509 SpecX509 ProofsX509 ProofsX509b
  ModelContext SpecContext ProofsCTL ProofsContext ProofsContext2 ModelPkcs7 ModelAuthenticode SpecAuthenticode
  ProofsSigner ProofsSigner2 ProofsVerify ProofsVerify2 ProofsVerify3 ProofsVerify4 ProofsVerify5 SpecSignedPE SpecComplete.

(** ** Trust, exactly *)

Lemma printable_fmt {A} (c : cert) k m : printable c -> @raise_fmt A c k m = raise k m.
Proof.
  intros H. unfold raise_fmt, cert_str. unfold printable in H.
  destruct (proj2 (dn_total (c_subject c)) H) as (s & E). now rewrite E.
Qed.
Lemma unprintable_fmt {A} (c : cert) k m : ~ printable c -> exists e, @raise_fmt A c k m = Err e /\ e_class e = TypeError.
Proof.
  intros H. unfold raise_fmt, cert_str. destruct (dn (c_subject c)) as [s|e] eqn:D.
  - exfalso. apply H. apply dn_total. eauto.
  - cbn [rbind]. exists e. split; [reflexivity|].
    revert D. unfold dn. destruct (dn_items (get_components (c_subject c))) as [it|e'] eqn:I; cbn [rbind]; [discriminate|].
    intros [= <-]. revert I. generalize (get_components (c_subject c)). intros l. revert e'.
    induction l as [|[t [u|b]] l IH]; cbn [dn_items rbind]; intros e'; [discriminate| |].
    + destruct (dn_items l) as [x|x]; cbn [rbind]; [discriminate|]. intros [= <-]. now apply IH.
    + intros [= <-]. reflexivity.
Qed.
Lemma printable_dec c : printable c \/ ~ printable c.
Proof.
  unfold printable. destruct (dn (c_subject c)) as [s|e] eqn:D.
  - left. apply dn_total. eauto.
  - right. intros H. apply dn_total in H. destruct H as (s & E). congruence.
Qed.
Lemma holds_dec s items c : holds s items c \/ ~ holds s items c.
Proof.
  unfold holds. rewrite <- cert_mem_spec. destruct (s_trusted s); [|right; intros [[=] _]].
  destruct (cert_mem c items); [left; auto|right; intros [_ [=]]].
Qed.

(** What the store answers to the loop. *)
Lemma store_passes E r s root rest w x c :
  nth_error (w_stores w) r = Some s -> nth_error (w_contexts w) x = Some c -> stable c ->
  ~ store_accepts E s (s_items s) (root :: rest) (asked_time E c) (asked_usages c) ->
  exists e, store_verify_trust E r (root :: rest) x w = (w, Err e) /\
    (issubclass (e_class e) VerificationError = true <->
     passes_over E s (s_items s) (root :: rest) (asked_time E c) (asked_usages c)).
Proof.
  intros Hs Hc St NA.
  destruct (store_verify_trust_spec E r s root rest w x c Hs Hc St) as [[_ A]|(_ & e & V & H)]; [contradiction|].
  exists e. split; [exact V|].
  destruct H as [(NH & P & K)|(Ho & P & K & t & T & VT)].
  - split.
    + intros S. exists root, rest. split; [reflexivity|]. left. split; [exact NH|].
      destruct (printable_dec root) as [Q|Q]; [exact Q|]. exfalso.
      assert (e_class e = TypeError) as KT.
      { revert V. unfold store_verify_trust. unfold mbind. unfold store_is_trusted.
        unfold mbind. rewrite (get_store_ok _ _ _ Hs).
        assert (s_trusted s && cert_mem root (s_items s) = false) as ->.
        { apply Bool.not_true_iff_false. rewrite Bool.andb_true_iff, cert_mem_spec. exact NH. }
        cbn [negb mret mres].
        destruct (@unprintable_fmt bool root CertificateNotTrustedVerificationError "The certificate is not trusted by the store" Q) as (e' & F & G).
        rewrite F. intros [= <-]. exact G. }
      rewrite KT in S. discriminate S.
    + intros (r0 & rs0 & [= <- <-] & [[_ Q]|[Ho _]]); [|contradiction]. now rewrite (P Q).
  - unfold ctl_verify_trust, mbind, mres in VT.
    assert (W : passes_over E s (s_items s) (root :: rest) (asked_time E c) (asked_usages c) <->
      In (ctl_algorithm t) ["sha1"; "sha256"] /\
      ((dict_get (hex (list_identifier E (ctl_algorithm t) root)) (ctl_subjects t) = None /\ printable root) \/
       exists entry pre ee, root :: rest = pre ++ [ee] /\
        dict_get (hex (list_identifier E (ctl_algorithm t) root)) (ctl_subjects t) = Some entry /\
        entry_decides entry (c_valid_from ee) (asked_time E c) (asked_usages c))).
    { split.
      - intros (r0 & rs0 & [= <- <-] & [[NH _]|(_ & t' & T' & H)]); [contradiction|].
        rewrite T in T'. injection T' as <-. exact H.
      - intros H. exists root, rest. split; [reflexivity|]. right. split; [exact Ho|]. exists t. auto. }
    rewrite W. clear W.
    destruct (find_subject_algorithms E t root) as [[A F]|(A & e' & F & G)]; rewrite F in VT.
    2:{ injection VT as <-. rewrite G. split; [discriminate|]. tauto. }
    destruct (dict_get _ (ctl_subjects t)) as [sb|] eqn:D.
    + rewrite (get_context_ok _ _ _ Hc), (read_ekus_stable _ _ _ Hc St) in VT.
      destruct (chain_last root rest) as (pre & ee & EE). rewrite EE in VT. rewrite EE.
      destruct (subject_verify_trust_cases sb pre ee (asked_time E c) (asked_usages c)) as [[F1 _]|(e' & F1 & _ & C)];
        unfold asked_time in F1; rewrite F1 in VT; [discriminate VT|]. injection VT as <-.
      destruct C as [[C X]|[C X]]; rewrite C; (split; [intros S|intros (_ & [[Z _]|(en & pre' & ee' & EQ & [= <-] & H)])]);
        try discriminate; try reflexivity.
      * split; [exact A|]. right. exists sb, pre, ee. auto.
      * apply app_inj_tail in EQ. destruct EQ as [<- <-]. contradiction.
    + destruct (printable_dec root) as [Q|Q].
      * rewrite printable_fmt in VT by exact Q. injection VT as <-. split; [auto|reflexivity].
      * destruct (@unprintable_fmt bool root CTLCertificateVerificationError "The root is not in the certificate trust list" Q) as (e' & F' & G).
        rewrite F' in VT. injection VT as <-. rewrite G. split; [discriminate|].
        intros (_ & [[_ H]|(? & ? & ? & _ & [=] & _)]). contradiction.
Qed.

Lemma store_accepts_dec E r s root rest w x c :
  nth_error (w_stores w) r = Some s -> nth_error (w_contexts w) x = Some c -> stable c ->
  (store_verify_trust E r (root :: rest) x w = (w, Ok true) /\
   store_accepts E s (s_items s) (root :: rest) (asked_time E c) (asked_usages c)) \/
  ~ store_accepts E s (s_items s) (root :: rest) (asked_time E c) (asked_usages c).
Proof.
  intros Hs Hc St. destruct (store_verify_trust_spec E r s root rest w x c Hs Hc St) as [A|[A _]]; auto.
Qed.

Lemma verify_trust_loop_exact E x root rest rs : forall w l last c,
  refs w rs l -> nth_error (w_contexts w) x = Some c -> stable c ->
  (exists o, verify_trust_loop E x (root :: rest) rs last w = (w, Ok (true, o))) <->
  vouches E s_items l (root :: rest) (asked_time E c) (asked_usages c).
Proof.
  induction rs as [|r rs IH]; intros w l last c R Hc St; inversion R; subst; clear R.
  - split; [intros [o H]; discriminate H|]. intros (pre & s & post & EQ & _). destruct pre; discriminate EQ.
  - rename y into s. rename l' into l. cbn [verify_trust_loop].
    destruct (store_accepts_dec E r s root rest w x c H1 Hc St) as [[V A]|NA].
    + rewrite V. split; [|intros _; eauto]. intros _. exists [], s, l. repeat split; auto; apply A.
    + destruct (store_passes E r s root rest w x c H1 Hc St NA) as (e & V & P). rewrite V.
      assert (VL : vouches E s_items (s :: l) (root :: rest) (asked_time E c) (asked_usages c) <->
                   passes_over E s (s_items s) (root :: rest) (asked_time E c) (asked_usages c) /\ vouches E s_items l (root :: rest) (asked_time E c) (asked_usages c)).
      { split.
        - intros ([|s0 pre] & s1 & post & EQ & A & F); injection EQ as EQ1 EQ2; [subst s1; contradiction|]. subst s0 l.
          inversion F; subst. split; [assumption|]. exists pre, s1, post. auto.
        - intros (Po & pre & s1 & post & EQ & A & F). subst l.
          exists (s :: pre), s1, post. repeat split; auto; try apply A. }
      rewrite VL, <- P. clear VL P. unfold catches.
      destruct (issubclass (e_class e) CertificateNotTrustedVerificationError) eqn:K1.
      * assert (issubclass (e_class e) VerificationError = true) as ->.
        { destruct (store_verify_trust_spec E r s root rest w x c H1 Hc St) as [[V' _]|(_ & e' & V' & K)]; [congruence|].
          rewrite V in V'. injection V' as <-.
          destruct K as [(_ & _ & [K|K])|(_ & _ & [K|[K|K]] & _)]; rewrite K in *; try reflexivity; discriminate K1. }
        rewrite (IH w l last c H3 Hc St). tauto.
      * destruct (issubclass (e_class e) VerificationError) eqn:K2.
        -- rewrite (IH w l (Some e) c H3 Hc St). tauto.
        -- split; [intros [o H]; discriminate H|intros [H _]; discriminate H].
Qed.

Theorem verify_trust_exact E x root rest w l c :
  nth_error (w_contexts w) x = Some c -> refs w (x_stores c) l -> stable c ->
  verify_trust E x (root :: rest) w = (w, Ok true) <->
  vouches E s_items l (root :: rest) (asked_time E c) (asked_usages c).
Proof.
  intros Hc R St. rewrite <- (verify_trust_loop_exact E x root rest (x_stores c) w l None c R Hc St).
  unfold verify_trust, mbind. rewrite (get_context_ok _ _ _ Hc).
  destruct (verify_trust_loop E x (root :: rest) (x_stores c) None w) as [w' [[b o]|e]] eqn:L.
  - destruct (verify_trust_loop_sound E x (root :: rest) (x_stores c) w l None c w' b o R Hc St L) as [-> _].
    cbn [fst snd]. destruct b; cbn [mret]; [split; eauto|].
    split; [destruct o; discriminate|intros [o' [=]]].
  - split; [discriminate|intros [o' [=]]].
Qed.

Lemma passes_over_view E s s' chain t u :
  same_view s s' -> passes_over E s' (contents s') chain t u -> passes_over E s (contents s) chain t u.
Proof.
  intros (C & T & K & _). unfold passes_over, holds. rewrite C, T, K. auto.
Qed.
Lemma store_accepts_view E s s' chain t u :
  same_view s s' -> store_accepts E s' (contents s') chain t u -> store_accepts E s (contents s) chain t u.
Proof. intros (C & T & K & _). unfold store_accepts. rewrite C, T, K. auto. Qed.

Lemma vouches_loaded E l chain t u :
  vouches E s_items (map loaded l) chain t u <-> vouches E contents l chain t u.
Proof.
  split.
  - intros (pre & s & post & EQ & A & F).
    apply map_eq_app in EQ. destruct EQ as (pre0 & rest0 & -> & <- & EQ).
    apply map_eq_cons in EQ. destruct EQ as (s0 & post0 & -> & <- & <-).
    exists pre0, s0, post0. split; [reflexivity|].
    rewrite items_loaded in A. split.
    + apply (store_accepts_view E s0 (loaded s0) chain t u (same_view_loaded s0)). now rewrite contents_loaded.
    + rewrite Forall_map in F. eapply Forall_impl; [|exact F]. cbn beta. intros d P. rewrite items_loaded in P.
      apply (passes_over_view E d (loaded d) chain t u (same_view_loaded d)). now rewrite contents_loaded.
  - intros (pre & s & post & -> & A & F).
    exists (map loaded pre), (loaded s), (map loaded post).
    split; [now rewrite map_app|]. rewrite items_loaded.
    assert (L : forall d, s_trusted (loaded d) = s_trusted d /\ s_ctl (loaded d) = s_ctl d).
    { intros d. destruct (same_view_loaded d) as (_ & ? & ? & _). auto. }
    split.
    + destruct (L s) as [L1 L2]. unfold store_accepts. rewrite L1, L2. exact A.
    + rewrite Forall_map. eapply Forall_impl; [|exact F]. cbn beta. intros d. rewrite items_loaded.
      destruct (L d) as [L1 L2]. unfold passes_over, holds. now rewrite L1, L2.
Qed.

Lemma ready_loaded_store s : ready (loaded s).
Proof. unfold ready, loaded. destruct (s_location s) eqn:H; [right; reflexivity|left; exact H]. Qed.

Lemma p_trust_exact E cx root rest l :
  stable cx ->
  p_trust E cx (root :: rest) l = Ok true <-> vouches E contents l (root :: rest) (asked_time E cx) (asked_usages cx).
Proof.
  intros St. rewrite <- vouches_loaded.
  rewrite <- (p_trust_view E cx (root :: rest) l (map loaded l)).
  2:{ clear. induction l; constructor; [apply same_view_loaded|assumption]. }
  set (l0 := map loaded l). set (rs := seq 0 (length l0)). set (cx0 := with_stores rs cx).
  set (w := mkWorld l0 [cx0] (mkFile [] 0)).
  assert (R : refs w rs l0).
  { unfold refs, w, rs; cbn [w_stores]. clear. 
    assert (G : forall (m pre : list store), Forall2 (fun r s => nth_error (pre ++ m) r = Some s) (seq (length pre) (length m)) m).
    { induction m as [|s m IH]; intros pre; cbn [length seq]; constructor.
      - rewrite nth_app_at. reflexivity.
      - specialize (IH (pre ++ [s])). rewrite app_length in IH. cbn [length] in IH.
        replace (length pre + 1)%nat with (S (length pre)) in IH by lia. rewrite <- app_assoc in IH. exact IH. }
    apply (G l0 []). }
  assert (Rd : Forall ready l0).
  { unfold l0. apply Forall_map. apply Forall_forall. intros s _. apply ready_loaded_store. }
  assert (St0 : stable cx0) by exact St.
  pose proof (verify_trust_pure E 0 (root :: rest) w l0 cx0 R Rd eq_refl St0) as V.
  pose proof (verify_trust_exact E 0 root rest w l0 cx0 eq_refl R St0) as X. rewrite V in X.
  rewrite <- (p_trust_refs E rs cx (root :: rest) l0). fold cx0.
  change (asked_time E cx) with (asked_time E cx0). change (asked_usages cx) with (asked_usages cx0).
  rewrite <- X. split; [intros ->; reflexivity|intros [= H]; exact H].
Qed.

Lemma p_trust_bool E cx chain l b : p_trust E cx chain l = Ok b -> b = true.
Proof.
  unfold p_trust. destruct (p_trust_loop E cx chain l None) as [[t o]|e]; cbn [rbind fst snd]; [|discriminate].
  destruct t; [now intros [=]|]. destruct o; discriminate.
Qed.

(** ** The chain of one certificate *)

Lemma by_id_some l d : In d l -> exists c, by_id l (c_id d) = Some c.
Proof.
  induction l as [|x l IH]; cbn [by_id]; [intros []|]. intros [->|H].
  - destruct (by_id l (c_id d)); [eauto|]. rewrite Z.eqb_refl. eauto.
  - destruct (IH H) as (c & ->). eauto.
Qed.

Lemma map_ids_exact known : identified known -> forall ids chain,
  map_ids known ids = Ok chain <-> ids = map c_id chain /\ incl chain known.
Proof.
  intros U. induction ids as [|i ids IH]; intros chain; cbn [map_ids].
  - split; [intros [= <-]; split; [reflexivity|intros x []]|]. intros [H _]. destruct chain; [reflexivity|discriminate H].
  - destruct (by_id known i) as [c|] eqn:B.
    + apply by_id_in in B. destruct B as [B1 B2].
      destruct (map_ids known ids) as [cs|e] eqn:M; cbn [rbind].
      * split.
        -- intros [= <-]. destruct (proj1 (IH cs) eq_refl) as [-> I]. cbn [map]. rewrite B2.
           split; [reflexivity|]. intros x [<-|H]; auto.
        -- intros [H I]. destruct chain as [|d chain]; [discriminate H|]. cbn [map] in H. injection H as H1 H2.
           assert (d = c) as -> by (apply U; [apply I; now left|exact B1|congruence]).
           assert (Ok cs = Ok chain) as [= ->]; [|reflexivity].
           apply IH. split; [exact H2|]. intros x Hx. apply I. now right.
      * split; [discriminate|]. intros [H I]. destruct chain as [|d chain]; [discriminate H|].
        cbn [map] in H. injection H as H1 H2.
        assert (Err e = Ok chain) as [=]. apply IH. split; [exact H2|]. intros x Hx. apply I. now right.
    + split; [discriminate|]. intros [H I]. destruct chain as [|d chain]; [discriminate H|].
      cbn [map] in H. injection H as H1 H2. exfalso.
      destruct (by_id_some known d) as (c & C); [apply I; now left|]. rewrite <- H1 in C. congruence.
Qed.

Lemma repeatable_stable cx : repeatable cx -> stable cx.
Proof. intros [_ H]. apply reusable_stable. exact H. Qed.

Lemma p_verify_exact E l c cx chain :
  repeatable cx -> identified (c :: concat (map contents l)) ->
  snd (p_verify E l c cx) = Ok chain <-> proper_chain E cx l c chain.
Proof.
  intros Rp U. unfold p_verify, proper_chain. rewrite (repeatable_after cx Rp).
  destruct (e_mk_validation E (roots l) (x_timestamp cx) (x_opts cx) c (intermediates l)) as [[]|e]; cbn [snd];
    [|split; [discriminate|intros [[=] _]]].
  destruct (e_validate _ _ _ _ _ _ _ _) as [ids|e]; cbn [rbind].
  2:{ split; [|intros (_ & [=] & _)]. destruct (catches Exception_ e); cbn [rbind]; [|discriminate].
      unfold raise_fmt. destruct (cert_str c); cbn [rbind]; discriminate. }
  destruct (map_ids (c :: concat (map contents l)) ids) as [ch|e] eqn:M; cbn [rbind].
  - apply (map_ids_exact _ U) in M. destruct M as [-> I].
    destruct ch as [|root rest].
    { split.
      - destruct (p_trust E cx [] l) as [b|e] eqn:T; cbn [rbind]; [|discriminate].
        exfalso. revert T. unfold p_trust. clear.
        assert (G : forall last p, p_trust_loop E cx [] l last = Ok p -> fst p = false /\ snd p = last).
        { induction l as [|s l IH]; cbn [p_trust_loop p_store]; intros last p; [now intros [= <-]|].
          unfold catches. cbn [raise e_class]. discriminate. }
        destruct (p_trust_loop E cx [] l None) as [p|] eqn:P; cbn [rbind]; [|discriminate].
        destruct (G _ _ P) as [-> ->]. discriminate.
      - intros (_ & [= H] & _ & V). destruct chain; [|discriminate H].
        destruct V as (? & ? & ? & _ & (_ & (? & ? & ? & [=] & _) & _) & _). }
    pose proof (p_trust_exact E cx root rest l (repeatable_stable _ Rp)) as T.
    split.
    + intros H. destruct (p_trust E cx (root :: rest) l) as [b|e] eqn:TT; cbn [rbind] in H; [|discriminate H].
      injection H as <-. split; [reflexivity|]. split; [reflexivity|]. split; [exact I|].
      apply T. f_equal. exact (p_trust_bool _ _ _ _ _ TT).
    + intros (_ & [= H] & I' & V).
      assert (root :: rest = chain) as <-.
      { enough (Ok (root :: rest) = Ok chain) as [= ->] by reflexivity.
        rewrite <- (proj2 (map_ids_exact _ U (map c_id (root :: rest)) (root :: rest)) (conj eq_refl I)).
        cbn [map]. rewrite H. apply (map_ids_exact _ U). auto. }
      apply T in V. rewrite V. reflexivity.
  - split; [discriminate|]. intros (_ & [= ->] & I & _). exfalso.
    assert (Err e = Ok chain) as [=]. rewrite <- M. apply (map_ids_exact _ U). auto.
Qed.

Lemma issuer_signature_exact E i c legacy :
  verify_issuer_signature E i c legacy = Ok tt <-> signs E legacy i c.
Proof.
  unfold signs. rewrite <- verify_signature_ok. unfold verify_issuer_signature.
  destruct (verify_signature E c (si_signature i) (si_encoded i) (si_digest_alg i) legacy) as [[]|e].
  - split; reflexivity.
  - split; [|discriminate]. destruct (catches VerificationError e); [|discriminate].
    unfold raise_fmt. destruct (cert_str c); cbn [rbind]; discriminate.
Qed.

Lemma later_time auth st c cx :
  later (effective auth st c) cx = at_time (match effective auth st c with Some t => Some t | None => x_timestamp cx end) cx.
Proof. unfold later. destruct (effective auth st c); [reflexivity|]. symmetry. apply at_time_same. Qed.

Lemma repeatable_at t cx : repeatable cx -> repeatable (at_time t cx).
Proof. intros H. exact H. Qed.

Lemma p_issuer_exact E auth i st l c cx chain :
  repeatable cx -> identified (c :: concat (map contents l)) ->
  snd (p_issuer E auth i st l c cx) = Ok chain <->
  signs E (v_allow_legacy (x_opts cx)) i c /\
  proper_chain E (at_time (match effective auth st c with Some t => Some t | None => x_timestamp cx end) cx) l c chain.
Proof.
  intros Rp U. unfold p_issuer. rewrite <- issuer_signature_exact.
  destruct (verify_issuer_signature E i c (v_allow_legacy (x_opts cx))) as [[]|e]; cbn [snd].
  - rewrite later_time, p_verify_exact; [tauto|apply repeatable_at; exact Rp|exact U].
  - split; [discriminate|intros [[=] _]].
Qed.

Lemma effective_time st c cx t :
  proper_time cx st c t <-> t = match effective true st c with Some t => Some t | None => x_timestamp cx end.
Proof.
  unfold proper_time, effective. cbn [andb]. destruct (lifetime_signing c) eqn:L.
  - apply lifetime_spec in L. split; [intros [H _]; auto|]. intros ->. split; [reflexivity|]. intros _ H; contradiction.
  - assert (NL : ~ lifetime c) by (rewrite <- lifetime_spec; congruence).
    destruct st as [s|].
    + split; [intros [_ H]; apply H; [discriminate|exact NL]|]. intros ->. split; [|reflexivity].
      intros [H|H]; [discriminate H|contradiction].
    + split; [intros [H _]; auto|]. intros ->. split; [reflexivity|]. intros H; contradiction H; reflexivity.
Qed.

(** ** One candidate *)

Lemma filter_none {A} (f : A -> bool) l : (forall a, In a l -> f a = false) -> filter f l = [].
Proof. induction l as [|a l IH]; intros H; cbn [filter]; [reflexivity|]. rewrite (H a (or_introl eq_refl)). apply IH. intros b Hb. apply H. now right. Qed.

Lemma fresh_seen seen l : (forall c, In c l -> cert_mem c seen = true) -> fresh seen l = [].
Proof.
  induction l as [|c l IH]; intros H; cbn [fresh]; [reflexivity|]. rewrite (H c (or_introl eq_refl)).
  apply IH. intros d Hd. apply H. now right.
Qed.

Lemma the_candidates E i l c : the_signer i (concat (map contents l)) c -> candidates E i l = [c].
Proof.
  intros (N & pre & post & EQ & P & Q). unfold candidates, matching. rewrite EQ.
  rewrite filter_app, (filter_none _ pre).
  2:{ intros d Hd. apply Bool.not_true_iff_false. rewrite query_matches_spec, named_satisfies.
      rewrite Forall_forall in P. now apply P. }
  cbn [filter app]. assert (query_matches E (by_issuer_serial i) c = true) as -> by now apply query_matches_spec, named_satisfies.
  cbn [fresh cert_mem existsb app]. f_equal. apply fresh_seen. intros d Hd. apply filter_In in Hd. destruct Hd as [H1 H2].
  apply query_matches_spec, named_satisfies in H2. rewrite Forall_forall in Q.
  cbn [cert_mem existsb]. rewrite (Q d H1 H2). reflexivity.
Qed.

Lemma the_signer_in i certs c : the_signer i certs c -> In c certs.
Proof. intros (_ & pre & post & -> & _). apply in_elt. Qed.

Lemma the_signer_unique i certs c d : the_signer i certs c -> the_signer i certs d -> c = d.
Proof.
  intros (N & pre & post & EQ & P & _) (N' & pre' & post' & EQ' & P' & _). rewrite EQ in EQ'. clear EQ.
  revert pre' EQ' P P'. induction pre as [|x pre IH]; intros [|y pre'] EQ' P P'; cbn [app] in EQ'.
  - now injection EQ'.
  - injection EQ' as -> _. inversion P'; subst. contradiction.
  - injection EQ' as <- _. inversion P; subst. contradiction.
  - injection EQ' as -> EQ'. inversion P; inversion P'; subst. eauto.
Qed.

Lemma identified_cons c certs : In c certs -> identified certs -> identified (c :: certs).
Proof. intros H U a b [<-|Ha] [<-|Hb]; auto. Qed.

Lemma p_signer_exact E auth i st l cx c chains :
  the_signer i (concat (map contents l)) c -> repeatable cx -> identified (concat (map contents l)) ->
  snd (p_signer E auth i st l (candidates E i l) cx) = Ok chains <->
  exists chain, chains = [chain] /\ signs E (v_allow_legacy (x_opts cx)) i c /\
  proper_chain E (at_time (match effective auth st c with Some t => Some t | None => x_timestamp cx end) cx) l c chain.
Proof.
  intros S Rp U. rewrite (the_candidates E i l c S).
  assert (U' : identified (c :: concat (map contents l))) by (apply identified_cons; [eapply the_signer_in; eauto|exact U]).
  assert (X : snd (p_signer E auth i st l [c] cx) = Ok chains <->
              exists chain, chains = [chain] /\ snd (p_issuer E auth i st l c cx) = Ok chain).
  { unfold p_signer, mbind. cbn [mfold]. unfold mbind, p_body. cbn [fst snd app].
    destruct (p_issuer E auth i st l c cx) as [cx' [ch|e]]; cbn [snd].
    - split; [intros [= <-]; eauto|intros (ch' & -> & [= ->]); reflexivity].
    - destruct (catches VerificationError e); cbn [snd fst]; (split; [discriminate|intros (ch' & _ & [=])]). }
  rewrite X. split; intros (ch & -> & H); exists ch; (split; [reflexivity|]); now apply p_issuer_exact.
Qed.

(** ** Countersignatures *)

Lemma stores_at_fun w rs l l' : stores_at w rs l -> stores_at w rs l' -> l = l'.
Proof.
  unfold stores_at. revert l l'. induction rs as [|r rs IH]; intros l l' A B; inversion A; inversion B; subst; [reflexivity|].
  f_equal; [congruence|]. eauto.
Qed.
Lemma counter_context_fun w a c v cy ly cy' ly' :
  counter_context w a c v cy ly -> counter_context w a c v cy' ly' -> cy' = cy /\ ly' = ly.
Proof.
  unfold counter_context. destruct (va_cs_context v) as [y|].
  - intros [A B] [A' B']. rewrite A in A'. injection A' as <-. split; [reflexivity|]. eapply stores_at_fun; eauto.
  - intros (ts & T & H) (ts' & T' & H'). rewrite T in T'. injection T' as <-.
    destruct c as [i|t]; destruct H as [-> ->], H' as [-> ->]; auto.
Qed.
Lemma considered_fun a v c d : considered a v c -> considered a v d -> c = d.
Proof. intros [A _] [B _]. congruence. Qed.

Lemma p_signer_token E i st l cs cy :
  match p_signer E false i st l cs cy with (cy2, Ok _) => (cy2, Ok tt) | (cy2, Err e) => (cy2, Err e) end =
  (fst (p_signer E false i st l cs cy), let? _ := snd (p_signer E false i st l cs cy) in Ok tt).
Proof. destruct (p_signer E false i st l cs cy) as [cy2 [b|e]]; reflexivity. Qed.

Lemma counter_signer_exact E i t cy ly :
  regular i cy ly ->
  snd (match p_signer E false i None ly (candidates E i ly) (at_time t cy) with
       | (cy2, Ok _) => (cy2, Ok tt) | (cy2, Err e) => (cy2, Err e) end) = Ok tt <->
  exists d chain, proper_signer E i cy ly t d chain.
Proof.
  intros (_ & Rp & U & c & S). rewrite p_signer_token. cbn [snd].
  assert (X := fun chains => p_signer_exact E false i None ly (at_time t cy) c chains S (repeatable_at t cy Rp) U).
  split.
  - destruct (snd (p_signer E false i None ly (candidates E i ly) (at_time t cy))) as [chains|e] eqn:P; [|discriminate].
    intros _. destruct (proj1 (X chains) eq_refl) as (chain & -> & Sg & C). exists c, chain. split; [exact S|]. auto.
  - intros (d & chain & S' & Sg & C). rewrite <- (the_signer_unique _ _ _ _ S S') in *.
    rewrite (proj2 (X [chain])); [reflexivity|]. exists chain. auto.
Qed.

Lemma p_counter_exact E a c cy ly :
  regular (counter_signer c) cy ly ->
  snd (p_counter E a c ly cy) = Ok tt <-> proper_counter E a c cy ly.
Proof.
  intros R. unfold p_counter, proper_counter. rewrite <- check_message_digest_covers.
  destruct (check_message_digest E c _); cbn [negb snd]; [|split; [discriminate|intros [[=] _]]].
  rewrite cs_time_stated. destruct c as [i|t]; cbn [counter_signer counter_stated_time] in *.
  - rewrite (counter_signer_exact E i _ cy ly R). split; [intros H; split; [reflexivity|split; [discriminate|exact H]]|].
    intros (_ & _ & H). exact H.
  - destruct (option_bytes_eqb (content_digest E (r_data t)) (si_message_digest (r_signer t))) eqn:O; cbn [negb].
    + rewrite (counter_signer_exact E (r_signer t) _ cy ly R). apply option_bytes_eqb_spec in O.
      split; [intros H; split; [reflexivity|split; [|exact H]]|].
      * intros t' [= <-]. unfold content_matches. rewrite O. reflexivity.
      * intros (_ & _ & H). exact H.
    + split; [discriminate|]. intros (_ & H & _). exfalso. specialize (H t eq_refl). unfold content_matches in H.
      apply (proj2 (option_bytes_eqb_spec _ _)) in H. unfold content_digest in O. congruence.
Qed.

(** ** SignedData *)

Lemma check_digests_exact E fuel a h w :
  snd (check_digests E fuel a (Some h) w) = Ok tt <->
  algorithms_agree a /\ sp_digest (asd_spc a) = h /\ content_matches E (asd_data a) (asi_info (asd_signer a)).
Proof.
  split.
  - intros H. destruct (check_digests E fuel a (Some h) w) as [w' r] eqn:C. cbn [snd] in H. subst r.
    destruct (check_digests_ok _ _ _ _ _ _ C) as (A & B & D). auto.
  - intros (A & B & D). destruct (check_digests_fail E fuel a (Some h) w h) as (_ & _ & F).
    destruct (F A eq_refl (eq_sym B) D) as [H|[[=] _]]. exact H.
Qed.

Lemma signer_time E i cx l st chains :
  regular i cx l ->
  snd (p_signer E true i st l (candidates E i l) cx) = Ok chains <->
  exists chain t c, chains = [chain] /\ proper_time cx st c t /\ proper_signer E i cx l t c chain.
Proof.
  intros (_ & Rp & U & c & S). rewrite (p_signer_exact E true i st l cx c chains S Rp U). split.
  - intros (chain & -> & Sg & C). exists chain. eexists. exists c. split; [reflexivity|].
    split; [apply effective_time; reflexivity|]. split; [exact S|]. auto.
  - intros (chain & t & d & -> & T & S' & Sg & C). rewrite <- (the_signer_unique _ _ _ _ S S') in *.
    apply effective_time in T. subst t. exists chain. auto.
Qed.

Theorem c59_exact E fuel a h v w cx l chains :
  all_regular w v a cx l -> (va_mode v = "strict" \/ forall c, ~ considered a v c) ->
  snd (asd_verify E fuel a (Some h) v w) = Ok chains <->
  exists chain, chains = [chain] /\ proper E w v a h cx l chain.
Proof.
  intros (Kw & Di & Sc & R & Rc) Mo.
  destruct (kwargs_prepare a v w Kw) as (w1 & x & y & P).
  destruct (considered_dec a v) as [[c C]|NC].
  - destruct (Rc c C) as (cy & ly & Cc & Ry).
    assert (Si : situation w a v cx l (Some (c, cy, ly))).
    { split; [exact Sc|]. split; [apply R|]. split; [exact C|]. split; [exact Cc|apply Ry]. }
    rewrite (asd_verify_pure E fuel a (Some h) v w w1 x y cx l _ Si (fun _ => Di) P). unfold p_result.
    assert (M : va_mode v = "strict") by (destruct Mo as [M|M]; [exact M|exfalso; exact (M c C)]).
    rewrite M. unfold p_mode. cbn [String.eqb Ascii.eqb Bool.eqb].
    assert (CE := check_digests_exact E fuel a h w1).
    destruct (snd (check_digests E fuel a (Some h) w1)) as [[]|e]; cbn [rbind].
    2:{ split; [discriminate|]. intros (ch & _ & A & B & D & _). exfalso.
        destruct CE as [_ CE]. now specialize (CE (conj A (conj B D))). }
    destruct CE as [CE _]. destruct (CE eq_refl) as (A & B & D).
    assert (PC := p_counter_exact E a c cy ly Ry).
    destruct (snd (p_counter E a c ly cy)) as [[]|e].
    + cbn [rbind]. rewrite (signer_time E _ cx l _ chains R). rewrite cs_time_stated. split.
      * intros (chain & t & d & -> & T & S). exists chain. split; [reflexivity|].
        split; [exact A|]. split; [exact B|]. split; [exact D|]. split.
        { intros c' C'. rewrite <- (considered_fun _ _ _ _ C C'). exists cy, ly. split; [exact Cc|]. now apply PC. }
        exists (counter_stated_time c), t, d. split; [left; eauto|]. auto.
      * intros (chain & -> & _ & _ & _ & _ & st & t & d & T & PT & S). exists chain, t, d. split; [reflexivity|].
        destruct T as [(c' & C' & ->)|[NC _]]; [|exfalso; exact (NC c C)].
        rewrite (considered_fun _ _ _ _ C C'). auto.
    + split.
      * destruct (catches Exception_ e); cbn [rbind]; discriminate.
      * intros (chain & _ & _ & _ & _ & H & _). exfalso. destruct (H c C) as (cy' & ly' & Cc' & H').
        destruct (counter_context_fun _ _ _ _ _ _ _ _ Cc Cc') as [-> ->]. apply PC in H'. discriminate H'.
  - assert (Si : situation w a v cx l None).
    { split; [exact Sc|]. split; [apply R|]. exact NC. }
    rewrite (asd_verify_pure E fuel a (Some h) v w w1 x y cx l None Si (fun _ => Di) P). unfold p_result. cbn [rbind].
    assert (CE := check_digests_exact E fuel a h w1).
    destruct (snd (check_digests E fuel a (Some h) w1)) as [[]|e]; cbn [rbind].
    2:{ split; [discriminate|]. intros (ch & _ & A & B & D & _). exfalso.
        destruct CE as [_ CE]. now specialize (CE (conj A (conj B D))). }
    destruct CE as [CE _]. destruct (CE eq_refl) as (A & B & D).
    rewrite (signer_time E _ cx l _ chains R). split.
    + intros (chain & t & d & -> & T & S). exists chain. split; [reflexivity|].
      split; [exact A|]. split; [exact B|]. split; [exact D|]. split; [intros c C; exfalso; exact (NC c C)|].
      exists None, t, d. split; [right; auto|]. auto.
    + intros (chain & -> & _ & _ & _ & _ & st & t & d & T & PT & S). exists chain, t, d. split; [reflexivity|].
      destruct T as [(c' & C' & _)|[_ ->]]; [exfalso; exact (NC c' C')|]. auto.
Qed.

(** In the permissive modes a proper signature is accepted, too. *)
Lemma with_mode_proper E w v a h cx l chain m :
  va_mode v <> "ignore" -> m <> "ignore" -> proper E w v a h cx l chain -> proper E w (with_mode m v) a h cx l chain.
Proof.
  intros M M' (A & B & D & H & st & t & c & T & PT & S).
  assert (CC : forall c, considered a (with_mode m v) c <-> considered a v c).
  { intros c0. unfold considered. cbn [with_mode va_mode]. tauto. }
  split; [exact A|]. split; [exact B|]. split; [exact D|]. split.
  - intros c0 C0. apply CC in C0. exact (H c0 C0).
  - exists st, t, c. split; [|auto]. destruct T as [(c0 & C0 & ->)|[N ->]].
    + left. exists c0. split; [now apply CC|reflexivity].
    + right. split; [|reflexivity]. intros c0 C0. apply CC in C0. exact (N c0 C0).
Qed.

Theorem c59_accepted E fuel a h v w cx l chain :
  all_regular w v a cx l -> proper E w v a h cx l chain ->
  snd (asd_verify E fuel a (Some h) v w) = Ok [chain].
Proof.
  intros R P. destruct (considered_dec a v) as [[c C]|NC].
  2:{ apply (c59_exact E fuel a h v w cx l [chain] R (or_intror NC)). eauto. }
  destruct (string_dec (va_mode v) "strict") as [M|M].
  { apply (c59_exact E fuel a h v w cx l [chain] R (or_introl M)). eauto. }
  assert (MI : va_mode v <> "ignore") by (destruct C; assumption).
  destruct (asd_verify E fuel a (Some h) (with_mode "strict" v) w) as [w' r] eqn:V.
  assert (r = Ok [chain]) as ->.
  { change r with (snd (w', r)). rewrite <- V.
    apply (c59_exact E fuel a h (with_mode "strict" v) w cx l [chain]); [|left; reflexivity|].
    - destruct R as (Kw & Di & Sc & R & Rc).
      assert (CC : forall c, considered a (with_mode "strict" v) c <-> considered a v c).
      { intros c0. unfold considered. cbn [with_mode va_mode]. split; intros [X _]; split; auto; discriminate. }
      split; [|split; [exact Di|split; [exact Sc|split; [exact R|]]]].
      + destruct Kw as [Kw|[K1 [K2|K2]]]; [left; exact Kw|right; split; [exact K1|left; exact K2]|exfalso; exact (K2 c C)].
      + intros c0 C0. apply CC in C0. exact (Rc c0 C0).
    - exists chain. split; [reflexivity|]. apply with_mode_proper; [exact MI|discriminate|exact P]. }
  rewrite (c29_ok E fuel a (Some h) v w w' (Ok [chain])); [reflexivity|split; assumption|exact V|discriminate].
Qed.
