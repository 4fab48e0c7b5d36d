(** Which exceptions can leave a verification. *)
From Verif Require Import Base Monad ModelFile ModelFingerprint ModelPE SpecFingerprint SpecPE
  ModelX509 SpecX509 ProofsFingerprint ProofsPE ProofsPE2 ProofsPE3 ModelContext SpecContext ProofsContext ProofsContext2
  ModelPkcs7 ModelAuthenticode SpecPkcs7 SpecAuthenticode ProofsSigner ProofsSigner2 ProofsVerify ProofsVerify2 ProofsVerify3
  ProofsVerify5 SpecSignedPE ProofsSignedPE ProofsSignedPE2 ProofsSignedPE3 SpecWhole.

(** *** Values *)

Definition raises {A} (P : exn -> Prop) (r : res A) : Prop := forall e, r = Err e -> P e.

Lemma raises_ok {A} P (a : A) : raises P (Ok a).
Proof. discriminate. Qed.
Lemma raises_raise {A} (P : exn -> Prop) k m : P (mkExn k m) -> @raises A P (raise k m).
Proof. intros H e He. inversion He; now subst. Qed.
Lemma raises_bind {A B} P (r : res A) (f : A -> res B) :
  raises P r -> (forall a, r = Ok a -> raises P (f a)) -> raises P (let? a := r in f a).
Proof. destruct r as [a|e]; cbn; intros H1 H2; [now apply H2|].
  intros e0 He. apply H1. now inversion He.
Qed.
Lemma raises_mono {A} (P Q : exn -> Prop) (r : res A) : (forall e, P e -> Q e) -> raises P r -> raises Q r.
Proof. intros H1 H2 e He. apply H1, H2, He. Qed.

Definition of_class (l : list exc_class) (e : exn) : Prop := In (e_class e) l.

Ltac in_list := cbn; unfold of_class; cbn; tauto.
Ltac rz := repeat (first
  [ apply raises_ok
  | apply raises_raise; in_list
  | apply raises_bind; [|intros ? ?]
  | match goal with |- raises _ (match ?x with _ => _ end) => destruct x eqn:? end
  | match goal with |- raises _ (if ?x then _ else _) => destruct x eqn:? end ]).

Lemma raises_algorithm a : raises (of_class parse_errors) (get_digest_algorithm a).
Proof. unfold get_digest_algorithm. rz. Qed.
Lemma raises_single {A} (v : option (list A)) m : raises (of_class parse_errors) (single v m).
Proof. unfold single. rz. Qed.
Lemma raises_map_res {A B} P (f : A -> res B) l : (forall a, raises P (f a)) -> raises P (map_res f l).
Proof. intros H. induction l as [|a l IH]; cbn; rz; auto. Qed.
Lemma raises_signer need ex r : raises (of_class parse_errors) (parse_signer need ex r).
Proof.
  unfold parse_signer. destruct r as [sid dalg signed contents salg sg un].
  destruct sid; rz; try apply raises_algorithm; apply raises_single.
Qed.
Lemma raises_counter_signature r : raises (of_class parse_errors) (counter_signature r).
Proof. apply raises_single. Qed.
Lemma raises_countersigner d : forall r, raises (of_class parse_errors) (parse_countersigner d r).
Proof.
  induction d as [|d IH]; intros r; cbn; [apply raises_raise; in_list|].
  rz; try apply raises_signer; try apply raises_counter_signature; apply IH.
Qed.
Lemma raises_rfc3161_signer r : raises (of_class parse_errors) (parse_rfc3161_signer r).
Proof. unfold parse_rfc3161_signer. rz; [apply raises_signer|apply raises_counter_signature]. Qed.
Lemma raises_signed_data ex r : raises (of_class parse_errors) (parse_signed_data ex r).
Proof. unfold parse_signed_data. rz; apply raises_algorithm. Qed.
Lemma raises_timedelta z : raises (of_class parse_errors) (timedelta z).
Proof. unfold timedelta. rz. Qed.
Lemma raises_accuracy_add d f u : raises (of_class parse_errors) (accuracy_add d f u).
Proof. unfold accuracy_add. rz; apply raises_timedelta. Qed.
Lemma raises_accuracy a : raises (of_class parse_errors) (accuracy_to_python a).
Proof. unfold accuracy_to_python. rz; apply raises_accuracy_add. Qed.
Lemma raises_tst v : raises (of_class parse_errors) (parse_tst v).
Proof. unfold parse_tst. rz; [apply raises_algorithm|apply raises_accuracy]. Qed.
Lemma raises_rsd r : raises (of_class parse_errors) (parse_rsd r).
Proof.
  unfold parse_rsd. rz; [apply raises_signed_data|apply raises_map_res, raises_rfc3161_signer|apply raises_tst].
Qed.
Lemma raises_content c : raises (of_class parse_errors) (ci_content c).
Proof. unfold ci_content. rz. Qed.
Lemma raises_spc v : raises (of_class parse_errors) (parse_spc v).
Proof. unfold parse_spc. rz. apply raises_algorithm. Qed.
Lemma raises_asi d sub r :
  (forall s, raises (of_class parse_errors) (sub s)) -> raises (of_class parse_errors) (parse_asi d sub r).
Proof.
  intros Hs. unfold parse_asi, single_count.
  rz; try apply raises_signer; try apply raises_counter_signature; try apply raises_countersigner;
    try apply raises_content; try apply raises_signed_data; try apply raises_tst;
    try apply raises_map_res, raises_rfc3161_signer.
  apply raises_map_res. intros c. rz; [apply raises_content|apply Hs].
Qed.
Lemma raises_asd d : forall pe r, raises (of_class parse_errors) (parse_asd d pe r).
Proof.
  induction d as [|d IH]; intros pe r; cbn; [apply raises_raise; in_list|].
  rz; try apply raises_signed_data; try apply raises_spc.
  apply raises_map_res. intros s. now apply raises_asi.
Qed.
Lemma raises_envelope load d pe b :
  raises (fun e => load b = Err e \/ of_class parse_errors e) (from_envelope load d pe b).
Proof.
  unfold from_envelope. apply raises_bind; [intros e He; now left|]. intros c _.
  eapply raises_mono; [intros e H; right; exact H|].
  rz; [apply raises_content|apply raises_asd].
Qed.

(** *** Iteration *)

Lemma table_errors f es tail e :
  terminates_with (fun k => cert_table k f) (es, tail) -> tail = Some e -> e_class e = SignedPEParseError.
Proof.
  intros Ht He. pose proof (start_walk f) as Hs.
  assert (Hcase : (exists e', e_class e' = SignedPEParseError /\ forall n, cert_table (S n) f = Some ([], Some e')) -> e_class e = SignedPEParseError).
  { intros (e' & Hc & Hn). destruct Ht as [n Ht]. specialize (Ht (S n) ltac:(lia)). rewrite Hn in Ht.
    inversion Ht; subst. now inversion H1; subst. }
  destruct (snd (omit_sections f)) as [[d|]|] eqn:Ho; auto.
  destruct (dict_get "certtable" d) as [s|] eqn:Hd; auto.
  destruct (c14_table f d s Ho Hd) as (es' & x & ps & last & Ht' & _ & _ & _ & Hx).
  destruct Ht as [n Ht]. destruct Ht' as [m Ht'].
  specialize (Ht (Nat.max n m) ltac:(lia)). specialize (Ht' (Nat.max n m) ltac:(lia)).
  rewrite Ht in Ht'. inversion Ht'; subst. destruct Hx as [[Hx _]|(e' & Hx & Hc & _)]; [discriminate|].
  inversion Hx; now subst.
Qed.

Lemma pure_iter_errors load depth inc tail : forall es found e,
  (forall e, tail = Some e -> e_class e = SignedPEParseError) ->
  snd (pure_iter load depth inc tail es found) = Some e ->
  e_class e = SignedPEParseError \/ (exists b, load b = Err e) \/ In (e_class e) parse_errors.
Proof.
  induction es as [|c es IH]; intros found e Ht; cbn.
  - destruct tail as [t|]; [intros H; left; apply Ht; congruence|].
    destruct found; [discriminate|]. intros H; inversion H. now left.
  - destruct (negb (ce_revision c =? 0x200)); [intros H; inversion H; now left|].
    destruct (ce_type c =? 2); [|now apply IH].
    destruct (from_envelope load depth true (ce_certificate c)) as [a|x] eqn:Hf.
    + destruct (pure_iter load depth inc tail es true) as [l x] eqn:Hp. cbn. intros H.
      apply (IH true e Ht). now rewrite Hp.
    + intros H; inversion H; subst. right.
      destruct (raises_envelope load depth true _ e Hf) as [Hl|Hl]; [left; eauto|right; exact Hl].
Qed.

Lemma iterate_errors load depth inc ign f l e :
  terminates_with (fun k => iterate load depth inc ign k f) (l, Some e) ->
  e_class e = SignedPEParseError \/ (exists b, load b = Err e) \/ In (e_class e) parse_errors.
Proof.
  intros Ht. destruct (table_terminates f) as (es & tail & Hc).
  pose proof (iterate_pure load depth inc ign f es tail Hc) as Hp. cbn zeta in Hp.
  destruct Ht as [n Ht]. destruct Hp as [m Hp].
  specialize (Ht (Nat.max n m) ltac:(lia)). specialize (Hp (Nat.max n m) ltac:(lia)).
  rewrite Ht in Hp. inversion Hp as [[H1 H2]]. unfold silenced in H2.
  destruct (snd (pure_iter load depth inc tail es false)) as [e'|] eqn:Hs; [|discriminate].
  destruct (issubclass (e_class e') SignedPEParseError && ign); [discriminate|]. inversion H2; subst.
  eapply pure_iter_errors; [|exact Hs]. intros. eapply table_errors; eassumption.
Qed.

(** *** Actions *)

Section safe.
Context (load : loader) (E : env) (stores : list store).

(** References are good and the locations are those of [stores]. *)
Definition sane (w : world) : Prop :=
  (forall cx r, In cx (w_contexts w) -> In r (x_stores cx) -> (r < length (w_stores w))%nat) /\
  (forall s l cs e, In s (w_stores w) -> s_location s = Some l -> In (cs, Some e) l ->
     exists s0, In s0 stores /\ s_location s0 = Some l).
Definition larger (w w' : world) : Prop :=
  (length (w_stores w) <= length (w_stores w'))%nat /\ (length (w_contexts w) <= length (w_contexts w'))%nat.
Definition stays (p : world -> Prop) : Prop := forall w w', larger w w' -> p w -> p w'.
Definition bad (e : exn) : Prop := In (e_class e) verify_errors \/ foreign load E stores e.
Definition safe_q {A} (Q : exn -> Prop) (pre : world -> Prop) (m : M world A) (post : A -> world -> Prop) : Prop :=
  forall w, sane w -> pre w ->
  sane (fst (m w)) /\ larger w (fst (m w)) /\
  match snd (m w) with Ok a => post a (fst (m w)) | Err e => Q e end.
Notation safe := (safe_q bad).

Lemma larger_refl w : larger w w.
Proof. split; lia. Qed.
Lemma larger_trans a b c : larger a b -> larger b c -> larger a c.
Proof. unfold larger; lia. Qed.

Lemma safe_weaken {Q : exn -> Prop} {A} (pre pre' : world -> Prop) (m : M world A) (post post' : A -> world -> Prop) :
  (forall w, pre' w -> pre w) -> (forall a w, post a w -> post' a w) -> safe_q Q pre m post -> safe_q Q pre' m post'.
Proof.
  intros H1 H2 H w Hs Hp. destruct (H w Hs (H1 w Hp)) as (Ha & Hb & Hc). repeat split; auto; try apply Hb; try apply Ha.
  destruct (snd (m w)); auto.
Qed.
Lemma safe_ret {Q : exn -> Prop} {A} (pre : world -> Prop) (a : A) (post : A -> world -> Prop) : (forall w, pre w -> post a w) -> safe_q Q pre (mret a) post.
Proof. intros H w Hs Hp. split; [exact Hs|split; [apply larger_refl|]]. cbn. auto. Qed.
Lemma safe_res {Q : exn -> Prop} {A} (pre : world -> Prop) (r : res A) (post : A -> world -> Prop) :
  raises Q r -> (forall a w, r = Ok a -> pre w -> post a w) -> safe_q Q pre (mres r) post.
Proof.
  intros H1 H2 w Hs Hp. split; [exact Hs|split; [apply larger_refl|]]. cbn. destruct r; auto.
Qed.
Lemma safe_raise {A} (pre : world -> Prop) k m (post : A -> world -> Prop) : In k verify_errors -> safe pre (mraise k m) post.
Proof. intros H w Hs Hp. split; [exact Hs|split; [apply larger_refl|]]. now left. Qed.
Lemma safe_err {Q : exn -> Prop} {A} (pre : world -> Prop) e (post : A -> world -> Prop) : Q e -> safe_q Q pre (merr e) post.
Proof. intros H w Hs Hp. split; [exact Hs|split; [apply larger_refl|]]. exact H. Qed.
Lemma safe_bind {Q : exn -> Prop} {A B} (pre : world -> Prop) (m : M world A) (f : A -> M world B) (post1 : A -> world -> Prop) (post2 : B -> world -> Prop) :
  stays pre -> safe_q Q pre m post1 -> (forall a, safe_q Q (fun w => pre w /\ post1 a w) (f a) post2) ->
  safe_q Q pre (mbind m f) post2.
Proof.
  intros Hst Hm Hf w Hs Hp. destruct (Hm w Hs Hp) as (Ha & Hb & Hc). unfold mbind.
  destruct (m w) as [w1 [a|e]]; cbn in *; [|auto].
  destruct (Hf a w1 Ha (conj (Hst _ _ Hb Hp) Hc)) as (Ha' & Hb' & Hc').
  split; [exact Ha'|]. split; [eapply larger_trans; eassumption|exact Hc'].
Qed.
(** For a result that does not matter. *)
Definition any {A} (_ : A) (_ : world) : Prop := True.
Lemma safe_then {Q : exn -> Prop} {A B} (pre : world -> Prop) (m : M world A) (f : A -> M world B) post :
  stays pre -> safe_q Q pre m any -> (forall a, safe_q Q pre (f a) post) -> safe_q Q pre (mbind m f) post.
Proof.
  intros Hst Hm Hf. eapply safe_bind; [exact Hst|exact Hm|]. intros a.
  eapply safe_weaken; [|intros ? ? H; exact H|apply Hf]. now intros w [H _].
Qed.

Definition has_store (r : nat) (w : world) : Prop := (r < length (w_stores w))%nat.
Definition has_context (x : nat) (w : world) : Prop := (x < length (w_contexts w))%nat.
Definition has_stores (rs : list nat) (w : world) : Prop := forall r, In r rs -> has_store r w.
Lemma stays_store r : stays (has_store r).
Proof. intros w w' [H _]. unfold has_store. lia. Qed.
Lemma stays_context x : stays (has_context x).
Proof. intros w w' [_ H]. unfold has_context. lia. Qed.
Lemma stays_stores rs : stays (has_stores rs).
Proof. intros w w' H Hs r Hr. eapply stays_store; eauto. Qed.
Lemma stays_and (p q : world -> Prop) : stays p -> stays q -> stays (fun w => p w /\ q w).
Proof. intros H1 H2 w w' H [Hp Hq]. split; eauto. Qed.
Lemma stays_true : stays (fun _ => True).
Proof. now intros w w'. Qed.

Lemma nth_lt_some {A} (l : list A) n : (n < length l)%nat -> exists a, nth_error l n = Some a.
Proof. intros H. destruct (nth_error l n) eqn:Hn; [eauto|]. apply nth_error_None in Hn. lia. Qed.
Lemma list_set_in {A} (l : list A) n a b : In b (list_set n a l) -> b = a \/ In b l.
Proof.
  revert n. induction l as [|x l IH]; intros n; [destruct n; cbn; tauto|].
  destruct n as [|n]; cbn; [intros [<-|H]; auto|]. intros [<-|H]; [auto|].
  destruct (IH n H) as [->|H']; auto.
Qed.

Lemma safe_get_store r : safe (has_store r) (get_store r) (fun s w => In s (w_stores w)).
Proof.
  intros w Hs Hp. destruct (nth_lt_some _ _ Hp) as [s Hn]. unfold get_store. rewrite Hn. cbn.
  split; [exact Hs|split; [apply larger_refl|]]. eapply nth_error_In; eassumption.
Qed.
Lemma safe_get_context x : safe (has_context x) (get_context x) (fun cx w => has_stores (x_stores cx) w).
Proof.
  intros w Hs Hp. destruct (nth_lt_some _ _ Hp) as [s Hn]. unfold get_context. rewrite Hn. cbn.
  split; [exact Hs|split; [apply larger_refl|]]. intros r Hr. eapply (proj1 Hs); [|exact Hr].
  eapply nth_error_In; eassumption.
Qed.
Lemma safe_put_context x cx : safe (has_stores (x_stores cx)) (put_context x cx) any.
Proof.
  intros w Hs Hp. cbn. split; [|split; [|exact I]].
  - split; [|exact (proj2 Hs)]. cbn. intros c r Hc Hr. destruct (list_set_in _ _ _ _ Hc) as [->|Hc'].
    + now apply Hp. + eapply (proj1 Hs); eassumption.
  - split; cbn; rewrite ?length_list_set; lia.
Qed.

Lemma location_error_in l e : location_error l = Some e -> exists cs, In (cs, Some e) l.
Proof.
  induction l as [|[cs [x|]] l IH]; cbn; intros H; [discriminate|inversion H; subst; eauto|].
  destruct (IH H) as [c Hc]. eauto.
Qed.
Lemma safe_store_iter r : safe (has_store r) (store_iter r) any.
Proof.
  intros w Hs Hp. destruct (nth_lt_some _ _ Hp) as [s Hn]. rewrite (store_iter_spec w r s Hn). cbn.
  assert (Hin : In s (w_stores w)) by (eapply nth_error_In; eassumption).
  split; [|split].
  - split; cbn.
    + intros cx q Hc Hq. rewrite length_list_set. eapply (proj1 Hs); eassumption.
    + intros t l cs e Ht Hl He. destruct (list_set_in _ _ _ _ Ht) as [->|Ht'].
      * unfold loaded in Hl. destruct (s_location s) as [l'|] eqn:Hsl; cbn in Hl; [|congruence].
        eapply (proj2 Hs); try eassumption. congruence.
      * eapply (proj2 Hs); eassumption.
  - split; cbn; rewrite ?length_list_set; lia.
  - destruct (load_error s) as [e|] eqn:Hl; [|exact I]. right. unfold load_error in Hl.
    destruct (s_location s) as [l|] eqn:Hsl; [|discriminate]. destruct (s_loaded s); [discriminate|].
    destruct (location_error_in _ _ Hl) as [cs Hc].
    destruct (proj2 Hs s l cs e Hin Hsl Hc) as (s0 & H0 & H1).
    eapply foreign_store; eassumption.
Qed.
Lemma safe_iter_stores rs : safe (has_stores rs) (iter_stores rs) any.
Proof.
  induction rs as [|r rs IH]; cbn [iter_stores]; [now apply safe_ret|].
  apply safe_then; [apply stays_stores| |].
  - eapply safe_weaken; [| |apply safe_store_iter]; [|easy]. intros w H. apply H. now left.
  - intros l. apply safe_then; [apply stays_stores| |now intros; apply safe_ret].
    eapply safe_weaken; [| |apply IH]; [|easy]. intros w H q Hq. apply H. now right.
Qed.

Lemma safe_read_ekus x : safe (has_context x) (read_ekus x) any.
Proof.
  unfold read_ekus. eapply safe_bind; [apply stays_context|apply safe_get_context|]. intros cx.
  apply safe_then; [apply stays_and; [apply stays_context|apply stays_stores]| |now intros; apply safe_ret].
  eapply safe_weaken; [| |apply safe_put_context]; [|easy]. now intros w [_ H].
Qed.
Lemma safe_read_key_usages x : safe (has_context x) (read_key_usages x) any.
Proof.
  unfold read_key_usages. eapply safe_bind; [apply stays_context|apply safe_get_context|]. intros cx.
  apply safe_then; [apply stays_and; [apply stays_context|apply stays_stores]| |now intros; apply safe_ret].
  eapply safe_weaken; [| |apply safe_put_context]; [|easy]. now intros w [_ H].
Qed.
Lemma safe_set_timestamp x t : safe (has_context x) (set_timestamp x t) any.
Proof.
  unfold set_timestamp. eapply safe_bind; [apply stays_context|apply safe_get_context|]. intros cx.
  eapply safe_weaken; [| |apply safe_put_context]; [|easy]. now intros w [_ H].
Qed.

Lemma bad_class k m : In k verify_errors -> bad (mkExn k m).
Proof. now left. Qed.
Lemma raises_dn_items l : raises bad (dn_items l).
Proof.
  induction l as [|[t [u|b]] l IH]; cbn; [apply raises_ok| |apply raises_raise, bad_class; in_list].
  apply raises_bind; [exact IH|intros; apply raises_ok].
Qed.
Lemma raises_cert_str c : raises bad (cert_str c).
Proof.
  unfold cert_str, dn. apply raises_bind; [|intros; apply raises_ok].
  apply raises_bind; [apply raises_dn_items|intros; apply raises_ok].
Qed.
Lemma raises_fmt {A} c k m : In k verify_errors -> @raises A bad (raise_fmt c k m).
Proof.
  intros H. unfold raise_fmt. apply raises_bind; [apply raises_cert_str|]. intros _ _.
  now apply raises_raise, bad_class.
Qed.

Lemma safe_more {A} (Q Q' : exn -> Prop) pre (m : M world A) post :
  (forall e, Q e -> Q' e) -> safe_q Q pre m post -> safe_q Q' pre m post.
Proof.
  intros H Hm w Hs Hp. destruct (Hm w Hs Hp) as (Ha & Hb & Hc). split; [exact Ha|split; [exact Hb|]].
  destruct (snd (m w)); auto.
Qed.
Definition bad' (e : exn) : Prop := bad e \/ e_class e = CertificateNotTrustedVerificationError.

Lemma raises_find_subject t c : raises bad (find_subject E t c).
Proof. unfold find_subject. rz. apply raises_raise, bad_class. in_list. Qed.
Lemma raises_not_earlier a b : raises bad (not_earlier a b).
Proof. unfold not_earlier. rz; apply raises_raise, bad_class; in_list. Qed.
Lemma raises_subject s ch t l : raises bad (subject_verify_trust s ch t l).
Proof. unfold subject_verify_trust. rz; try apply raises_not_earlier; apply raises_raise, bad_class; in_list. Qed.
Lemma safe_ctl t ch x : safe (has_context x) (ctl_verify_trust E t ch x) any.
Proof.
  unfold ctl_verify_trust. destruct ch as [|root ch]; [apply safe_raise; in_list|].
  apply safe_then; [apply stays_context|apply safe_res; [apply raises_find_subject|easy]|]. intros [s|].
  - eapply safe_bind; [apply stays_context|apply safe_get_context|]. intros cx.
    apply safe_then; [apply stays_and; [apply stays_context|apply stays_stores]| |].
    + eapply safe_weaken; [| |apply safe_read_ekus]; [|easy]. now intros w [H _].
    + intros l. apply safe_res; [apply raises_subject|easy].
  - apply safe_res; [|easy]. apply raises_fmt. in_list.
Qed.
Lemma safe_store_trust r ch x :
  safe_q bad' (fun w => has_store r w /\ has_context x w) (store_verify_trust E r ch x) any.
Proof.
  assert (Hst : stays (fun w => has_store r w /\ has_context x w)) by (apply stays_and; [apply stays_store|apply stays_context]).
  assert (Hget : forall B (f : store -> M world B) post,
    (forall s, safe_q bad' (fun w => has_store r w /\ has_context x w) (f s) post) ->
    safe_q bad' (fun w => has_store r w /\ has_context x w) (do s <- get_store r ; f s) post).
  { intros B f post H. apply safe_then; [exact Hst| |exact H].
    eapply safe_more; [intros e He; left; exact He|].
    eapply safe_weaken; [| |apply safe_get_store]; [|easy]. now intros w [H1 _]. }
  unfold store_verify_trust. destruct ch as [|root ch].
  - eapply safe_more; [intros e He; left; exact He|]. apply safe_raise. in_list.
  - unfold store_is_trusted. apply safe_then; [exact Hst| |intros b; destruct (negb b)].
    + apply Hget. intros s. now apply safe_ret.
    + apply safe_res; [|easy]. unfold raise_fmt.
      apply raises_bind; [eapply raises_mono; [|apply raises_cert_str]; intros; now left|].
      intros _ _. apply raises_raise. now right.
    + apply Hget. intros s. destruct (s_ctl s) as [ct|]; [|now apply safe_ret].
      apply safe_then; [exact Hst| |intros; now apply safe_ret].
      eapply safe_more; [intros e He; left; exact He|].
      eapply safe_weaken; [| |apply safe_ctl]; [|easy]. now intros w [_ H].
Qed.
Lemma safe_trust_loop x ch : forall rs last, (forall e, last = Some e -> bad e) ->
  safe (fun w => has_stores rs w /\ has_context x w) (verify_trust_loop E x ch rs last)
    (fun p _ => forall e, snd p = Some e -> bad e).
Proof.
  induction rs as [|r rs IH]; intros last Hl; cbn [verify_trust_loop].
  - apply safe_ret. intros w _. exact Hl.
  - intros w Hs [Hr Hx].
    destruct (safe_store_trust r ch x w Hs (conj (Hr r (or_introl eq_refl)) Hx)) as (Ha & Hb & Hc).
    destruct (store_verify_trust E r ch x w) as [w1 o]. cbn in Ha, Hb, Hc.
    assert (Hgo : forall last', (forall e, last' = Some e -> bad e) ->
      let m := verify_trust_loop E x ch rs last' w1 in
      sane (fst m) /\ larger w (fst m) /\
      match snd m with Ok p => forall e, snd p = Some e -> bad e | Err e => bad e end).
    { intros last' Hl'. cbn zeta.
      assert (Hpre : has_stores rs w1 /\ has_context x w1).
      { split; [|eapply stays_context; eassumption]. intros q Hq. eapply stays_store; [exact Hb|]. apply Hr. now right. }
      destruct (IH last' Hl' w1 Ha Hpre) as (H1 & H2 & H3).
      split; [exact H1|split; [eapply larger_trans; eassumption|exact H3]]. }
    destruct o as [[|]|e].
    + cbn. split; [exact Ha|split; [exact Hb|exact Hl]].
    + now apply Hgo.
    + destruct (catches CertificateNotTrustedVerificationError e) eqn:Hk; [now apply Hgo|].
      assert (He : bad e).
      { destruct Hc as [Hc|Hc]; [exact Hc|]. unfold catches in Hk. rewrite Hc in Hk. discriminate. }
      destruct (catches VerificationError e); [|cbn; auto].
      apply Hgo. intros e0 He0. now inversion He0; subst.
Qed.
Lemma safe_verify_trust x ch : safe (has_context x) (verify_trust E x ch) any.
Proof.
  unfold verify_trust. eapply safe_bind; [apply stays_context|apply safe_get_context|]. intros cx.
  eapply safe_bind; [apply stays_and; [apply stays_context|apply stays_stores]| |].
  - eapply safe_weaken; [| |apply (safe_trust_loop x ch (x_stores cx) None)]; [now intros w [H1 H2]; split| |discriminate].
    intros p w H; exact H.
  - intros [[|] [e|]]; cbn [fst snd]; try (now apply safe_ret).
    + intros w Hs [_ H]. cbn. split; [exact Hs|split; [apply larger_refl|]]. now apply H.
    + apply safe_raise. in_list.
Qed.
Lemma raises_map_ids l : forall ids, raises bad (map_ids l ids).
Proof.
  induction ids as [|i ids IH]; cbn; [apply raises_ok|].
  destruct (by_id l i); [|apply raises_raise, bad_class; in_list].
  apply raises_bind; [exact IH|intros; apply raises_ok].
Qed.
Lemma safe_context_verify x c : safe (has_context x) (context_verify E x c) any.
Proof.
  unfold context_verify. eapply safe_bind; [apply stays_context|apply safe_get_context|]. intros cx.
  apply safe_then; [apply stays_and; [apply stays_context|apply stays_stores]| |].
  { eapply safe_weaken; [| |apply safe_iter_stores]; [now intros w [_ H]|easy]. }
  intros pairs w0 Hs [Hx _]. revert Hs Hx. generalize (store_trusted w0). intros tr.
  revert w0.
  match goal with |- forall w, sane w -> has_context x w -> sane (fst (?m w)) /\ _ => change (safe (has_context x) m any) end.
  apply safe_then; [apply stays_context| |].
  { apply safe_res; [|easy]. intros e He. right. eapply foreign_setup; exact He. }
  intros _. apply safe_then; [apply stays_context| |].
  - intros w Hs Hp. unfold mtry.
    set (m := mbind (read_key_usages x) _).
    assert (Hm : safe_q (fun e => catches Exception_ e = false -> bad e) (has_context x) m any).
    { subst m. apply safe_then; [apply stays_context| |].
      - eapply safe_more; [|apply safe_read_key_usages]. auto.
      - intros ku. apply safe_then; [apply stays_context| |].
        + eapply safe_more; [|apply safe_read_ekus]. auto.
        + intros eku. apply safe_res; [|easy]. intros e He Hk. right. eapply foreign_validate; eassumption. }
    destruct (Hm w Hs Hp) as (Ha & Hb & Hc). destruct (m w) as [w1 [ids|e]]; cbn [fst snd] in *; [auto|].
    destruct (catches Exception_ e) eqn:Hk; [|cbn [fst snd]; auto].
    cbn. split; [exact Ha|split; [exact Hb|]].
    pose proof (@raises_fmt (list Z) c CertificateVerificationError "Chain verification failed" ltac:(in_list)) as Hf.
    destruct (raise_fmt c CertificateVerificationError "Chain verification failed") as [?|e']; [exact I|now apply Hf].
  - intros ids. apply safe_then; [apply stays_context|apply safe_res; [apply raises_map_ids|easy]|].
    intros chain. apply safe_then; [apply stays_context|apply safe_verify_trust|intros; now apply safe_ret].
Qed.

(** *** Signer infos *)

Lemma raises_verify_signature c s d alg legacy : raises bad (verify_signature E c s d alg legacy).
Proof.
  assert (Hraw : forall r : res unit, (forall e, r = Err e -> issubclass (e_class e) Exception_ = false -> bad e) ->
    raises bad (match r with
      | Ok _ => Ok tt
      | Err e' => if negb (catches Exception_ e') then Err e'
                  else raise_fmt c CertificateVerificationError "Invalid signature (legacy attempted)"
      end)).
  { intros [u|e] H; [apply raises_ok|]. unfold catches.
    destruct (issubclass (e_class e) Exception_) eqn:Hk; cbn [negb].
    - apply raises_fmt. in_list.
    - intros e0 He. inversion He; subst. now apply H. }
  unfold verify_signature. apply raises_bind; [intros e He; right; eapply foreign_key; exact He|]. intros pk _.
  assert (Hgo : forall vf : spki -> bytes -> bytes -> string -> res unit,
    (forall k s d h e, vf k s d h = Err e -> issubclass (e_class e) Exception_ = false -> bad e) ->
    raises bad (match vf (c_key c) s d alg with
      | Ok _ => Ok tt
      | Err e =>
          if negb (catches Exception_ e) then Err e
          else if negb legacy || negb (String.eqb pk "rsa")
          then raise_fmt c CertificateVerificationError "Invalid signature"
          else
            match e_rsa_verify E (c_key c) s (e_hash E alg d) "raw" with
            | Ok _ => Ok tt
            | Err e' =>
                if negb (catches Exception_ e') then Err e'
                else raise_fmt c CertificateVerificationError "Invalid signature (legacy attempted)"
            end
      end)).
  { intros vf Hv. destruct (vf (c_key c) s d alg) as [u|e] eqn:Hr; [apply raises_ok|]. unfold catches at 1.
    destruct (issubclass (e_class e) Exception_) eqn:Hk; cbn [negb].
    - destruct (negb legacy || negb (String.eqb pk "rsa")); [apply raises_fmt; in_list|].
      apply Hraw. intros e0 He Hb. right. eapply foreign_rsa; eassumption.
    - intros e0 He. inversion He; subst. eapply Hv; eassumption. }
  destruct (String.eqb pk "rsa") eqn:H1; [cbn; apply Hgo; intros; right; eapply foreign_rsa; eassumption|].
  destruct (String.eqb pk "dsa"); [cbn; apply Hgo; intros; right; eapply foreign_dsa; eassumption|].
  destruct (String.eqb pk "ec"); [cbn; apply Hgo; intros; right; eapply foreign_ecdsa; eassumption|].
  apply raises_bind; [apply raises_fmt; in_list|]. intros vf Hv. exfalso. revert Hv. unfold raise_fmt.
  destruct (cert_str c); cbn; discriminate.
Qed.
Lemma safe_verify_issuer auth i x st c : safe (has_context x) (verify_issuer E auth i x st c) any.
Proof.
  unfold verify_issuer. apply safe_then; [apply stays_context| |].
  { eapply safe_weaken; [| |apply safe_get_context]; easy. }
  intros cx. apply safe_then; [apply stays_context| |intros _; apply safe_then; [apply stays_context| |intros _; apply safe_context_verify]].
  - apply safe_res; [|easy]. unfold verify_issuer_signature.
    pose proof (raises_verify_signature c (si_signature i) (si_encoded i) (si_digest_alg i) (v_allow_legacy (x_opts cx))) as Hv.
    destruct (verify_signature E c (si_signature i) (si_encoded i) (si_digest_alg i) (v_allow_legacy (x_opts cx))) as [u|e]; [apply raises_ok|].
    destruct (catches VerificationError e); [apply raises_fmt; in_list|]. intros e0 He. inversion He; subst. now apply Hv.
  - destruct (if auth && lifetime_signing c then None else st); [apply safe_set_timestamp|now apply safe_ret].
Qed.
Lemma safe_find_items {A} (P : A -> Prop) x q (body : cert -> A -> M world A) :
  (forall c a, P a -> safe (has_context x) (body c a) (fun a _ => P a)) ->
  forall l seen acc, P acc -> safe (has_context x) (find_items E q body l seen acc) (fun p _ => P (snd p)).
Proof.
  intros Hb. induction l as [|c l IH]; intros seen acc Hp; cbn [find_items].
  - now apply safe_ret.
  - destruct (query_matches E q c); [|now apply IH]. destruct (cert_mem c seen); [now apply IH|].
    eapply safe_bind; [apply stays_context|now apply Hb|]. intros a w Hs [Hx Ha]. now apply (IH (seen ++ [c]) a Ha w Hs Hx).
Qed.
Lemma safe_find_stores {A} (P : A -> Prop) x q (body : cert -> A -> M world A) :
  (forall c a, P a -> safe (has_context x) (body c a) (fun a _ => P a)) ->
  forall rs seen acc, P acc ->
  safe (fun w => has_context x w /\ has_stores rs w) (find_stores E q body rs seen acc) (fun a _ => P a).
Proof.
  intros Hb. induction rs as [|r rs IH]; intros seen acc Hp; cbn [find_stores].
  - now apply safe_ret.
  - assert (Hst : stays (fun w => has_context x w /\ has_stores (r :: rs) w))
      by (apply stays_and; [apply stays_context|apply stays_stores]).
    apply safe_then; [exact Hst| |].
    + eapply safe_weaken; [| |apply (safe_store_iter r)]; [|easy]. intros w [_ H]. apply H. now left.
    + intros l. eapply safe_bind; [exact Hst| |].
      * eapply safe_weaken; [| |apply (safe_find_items P x q body Hb l seen acc Hp)]; [now intros w [H _]|].
        intros p w H; exact H.
      * intros p w Hs [[Hx Hr] Ha]. apply (IH (fst p) (snd p) Ha w Hs). split; [exact Hx|].
        intros k Hk. apply Hr. now right.
Qed.
Lemma safe_for_certificates {A} (P : A -> Prop) x q (body : cert -> A -> M world A) acc :
  (forall c a, P a -> safe (has_context x) (body c a) (fun a _ => P a)) -> P acc ->
  safe (has_context x) (for_certificates E x q body acc) (fun a _ => P a).
Proof.
  intros Hb Hp. unfold for_certificates. eapply safe_bind; [apply stays_context|apply safe_get_context|].
  intros cx. now apply safe_find_stores.
Qed.
Lemma safe_build_chain auth i x st : safe (has_context x) (build_chain E auth i x st) any.
Proof.
  unfold build_chain. eapply safe_bind; [apply stays_context| |].
  - apply (safe_for_certificates (fun p => forall e, snd p = FErr e -> bad e)); [|discriminate].
    intros c a Ha w Hs Hx. unfold build_chain_body.
    destruct (safe_verify_issuer auth i x st c w Hs Hx) as (H1 & H2 & H3).
    destruct (verify_issuer E auth i x st c w) as [w1 [ch|e]]; cbn [fst snd] in *.
    + repeat split; auto; try apply H1; try apply H2. discriminate.
    + destruct (catches VerificationError e); cbn; repeat split; auto; try apply H1; try apply H2.
      intros e0. destruct (snd a) eqn:Hf; intros He; inversion He; subst; auto.
  - intros p. destruct (snd p) as [|e|] eqn:Hf; try now apply safe_ret.
    intros w Hs [_ H]. cbn. split; [exact Hs|split; [apply larger_refl|]]. now apply H.
Qed.
Lemma safe_signer_verify auth i x st : safe (has_context x) (signer_verify E auth i x st) any.
Proof.
  unfold signer_verify. apply safe_then; [apply stays_context|apply safe_build_chain|].
  intros [|c l]; [apply safe_raise; in_list|now apply safe_ret].
Qed.

(** *** Signatures *)

Lemma safe_alloc_store s : s_location s = None -> safe (fun _ => True) (alloc_store s) has_store.
Proof.
  intros Hl w Hs _. cbn. split; [split; cbn|split; [split; cbn; rewrite ?app_length; lia|]].
  - intros cx r Hc Hr. rewrite app_length. pose proof (proj1 Hs cx r Hc Hr). lia.
  - intros t l cs e Ht Hlt. apply in_app_or in Ht. destruct Ht as [Ht|[<-|[]]]; [|congruence].
    eapply (proj2 Hs); eassumption.
  - unfold has_store. cbn. rewrite app_length. cbn. lia.
Qed.
Lemma safe_new_context rs eku k : safe (has_stores rs) (new_context rs eku k) has_context.
Proof.
  unfold new_context. destruct (kw_valid k); [|apply safe_raise; in_list].
  intros w Hs Hp. cbn. split; [split; cbn|split; [split; cbn; rewrite ?app_length; lia|]].
  - intros cx r Hc Hr. apply in_app_or in Hc. destruct Hc as [Hc|[<-|[]]]; [eapply (proj1 Hs); eassumption|].
    now apply Hp.
  - exact (proj2 Hs).
  - unfold has_context. cbn. rewrite app_length. cbn. lia.
Qed.
Lemma safe_add_store x r : safe (fun w => has_context x w /\ has_store r w) (add_store x r) any.
Proof.
  unfold add_store. eapply safe_bind; [apply stays_and; [apply stays_context|apply stays_store]| |].
  - eapply safe_weaken; [| |apply (safe_get_context x)]; [now intros w [H _]|]. intros cx w H; exact H.
  - intros cx. eapply safe_weaken; [| |apply safe_put_context]; [|easy]. intros w [[_ Hr] Hx]. cbn.
    intros q Hq. apply in_app_or in Hq. destruct Hq as [Hq|[<-|[]]]; [now apply Hx|exact Hr].
Qed.

Definition given (v : vargs) (w : world) : Prop :=
  has_store (va_trusted v) w /\
  (forall x, va_context v = Some x -> has_context x w) /\ (forall y, va_cs_context v = Some y -> has_context y w).
Lemma stays_given v : stays (given v).
Proof.
  intros w w' Hl (H1 & H2 & H3). split; [eapply stays_store; eassumption|].
  split; intros ? H; eapply stays_context; eauto.
Qed.
Definition prepared (a : asd) (v : vargs) (p : nat * option nat) (w : world) : Prop :=
  has_context (fst p) w /\ (forall y, snd p = Some y -> has_context y w) /\
  (forall c, considered a v c -> snd p <> None).
Lemma stays_prepared a v p : stays (prepared a v p).
Proof.
  intros w w' Hl (H1 & H2 & H3). split; [eapply stays_context; eassumption|]. split; [|exact H3].
  intros ? H; eapply stays_context; eauto.
Qed.

Lemma safe_prepare a v : safe (given v) (prepare_contexts a v) (prepared a v).
Proof.
  unfold prepare_contexts. eapply safe_bind; [apply stays_given| |].
  { eapply safe_weaken; [| |apply safe_alloc_store]; [easy|intros r w H; exact H|reflexivity]. }
  intros certs. set (pre := fun w => given v w /\ has_store certs w).
  assert (Hpre : stays pre) by (apply stays_and; [apply stays_given|apply stays_store]).
  assert (Hboth : forall w, pre w -> has_stores [va_trusted v; certs] w).
  { intros w [[H _] Hc] r [<-|[<-|[]]]; assumption. }
  eapply (safe_bind pre _ _ has_context); [exact Hpre| |].
  { destruct (va_context v) as [x|] eqn:Hx.
    - apply safe_ret. intros w [(_ & H & _) _]. now apply H.
    - eapply safe_weaken; [exact Hboth| |apply safe_new_context]. intros r w H; exact H. }
  intros x.
  assert (Hp2 : stays (fun w => pre w /\ has_context x w)) by (apply stays_and; [exact Hpre|apply stays_context]).
  destruct (va_cs_context v) as [y|] eqn:Hy.
  - apply safe_ret. intros w [[(_ & _ & Hg) _] Hx]. split; [exact Hx|]. cbn. split; [|discriminate].
    intros y0 H; inversion H; subst. now apply Hg.
  - destruct (asi_cs (asd_signer a)) as [c|] eqn:Hc.
    + destruct (String.eqb (va_mode v) "ignore") eqn:Hm.
      * apply safe_ret. intros w [_ Hx]. split; [exact Hx|]. split; [discriminate|].
        intros c0 [_ Hn]. apply String.eqb_eq in Hm. contradiction.
      * eapply (safe_bind _ _ _ has_context); [exact Hp2| |].
        { eapply safe_weaken; [|intros r w H; exact H|apply safe_new_context]. intros w [H _]. now apply Hboth. }
        intros y.
        assert (Hp3 : stays (fun w => (pre w /\ has_context x w) /\ has_context y w))
          by (apply stays_and; [exact Hp2|apply stays_context]).
        assert (Hdone : forall w, (pre w /\ has_context x w) /\ has_context y w -> prepared a v (x, Some y) w).
        { intros w [[_ Hx] Hyw]. split; [exact Hx|]. cbn. split; [|discriminate].
          intros y0 H; inversion H; now subst. }
        destruct c as [i|t]; [apply safe_ret; exact Hdone|].
        eapply (safe_bind _ _ _ has_store); [exact Hp3| |].
        { eapply safe_weaken; [| |apply safe_alloc_store]; [easy|intros r w H; exact H|reflexivity]. }
        intros more. apply safe_then; [apply stays_and; [exact Hp3|apply stays_store]| |].
        { eapply safe_weaken; [| |apply safe_add_store]; [|easy]. intros w [[_ H1] H2]. now split. }
        intros _. apply safe_ret. intros w [H _]. now apply Hdone.
    + apply safe_ret. intros w [_ Hx]. split; [exact Hx|]. split; [discriminate|].
      intros c [H _]. congruence.
Qed.

Lemma safe_check_digests fuel a h pre : safe pre (check_digests E fuel a (Some h)) any.
Proof.
  unfold check_digests.
  destruct (negb (String.eqb (sd_digest_alg (asd_data a)) (sp_digest_alg (asd_spc a)))); [apply safe_raise; in_list|].
  destruct (negb (String.eqb (sd_digest_alg (asd_data a)) (si_digest_alg (asi_info (asd_signer a))))); [apply safe_raise; in_list|].
  intros w Hs Hp. cbn.
  destruct (negb (bytes_eqb h (sp_digest (asd_spc a)))); [now apply (safe_raise (fun _ => True)); [in_list| |]|].
  destruct (negb (option_bytes_eqb _ _)); [now apply (safe_raise (fun _ => True)); [in_list| |]|].
  now apply (safe_ret (Q := bad) (fun _ => True) tt any).
Qed.

Lemma safe_check_countersigner a c y tr :
  safe (has_context y) (check_countersigner E a c y tr) any.
Proof.
  unfold check_countersigner. destruct (negb _); [apply safe_raise; in_list|].
  apply safe_then; [apply stays_context|apply safe_set_timestamp|]. intros _.
  apply safe_then; [apply stays_context| |intros; now apply safe_ret].
  destruct c as [i|t]; cbn [cs_verify]; [apply safe_signer_verify|].
  unfold rsd_verify. destruct (negb _); [apply safe_raise; in_list|].
  apply safe_signer_verify.
Qed.
Lemma safe_counter_time a v y :
  (forall c, considered a v c -> y <> None) ->
  safe (fun w => forall y0, y = Some y0 -> has_context y0 w) (countersignature_time E a v y) any.
Proof.
  intros Hy. unfold countersignature_time. destruct (asi_cs (asd_signer a)) as [c|] eqn:Hc; [|now apply safe_ret].
  destruct (String.eqb (va_mode v) "ignore") eqn:Hm; [now apply safe_ret|].
  assert (Hco : considered a v c).
  { split; [exact Hc|]. intros H. rewrite H in Hm. discriminate. }
  destruct y as [y|]; [|now destruct (Hy c Hco)].
  intros w Hs Hp. destruct (safe_check_countersigner a c y (va_trusted v) w Hs (Hp y eq_refl)) as (H1 & H2 & H3).
  destruct (check_countersigner E a c y (va_trusted v) w) as [w1 [u|e]]; cbn [fst snd] in *; [split; [|split]; auto; exact I|].
  destruct (catches Exception_ e); [|cbn; auto].
  destruct (String.eqb (va_mode v) "strict"); cbn; (split; [exact H1|split; [exact H2|]]); [|exact I].
  apply bad_class. in_list.
Qed.
Lemma safe_asd_verify fuel a h v : safe (given v) (asd_verify E fuel a (Some h) v) any.
Proof.
  unfold asd_verify. eapply safe_bind; [apply stays_given|apply safe_prepare|]. intros p.
  assert (Hst : stays (fun w => given v w /\ prepared a v p w)) by (apply stays_and; [apply stays_given|apply stays_prepared]).
  apply safe_then; [exact Hst|apply safe_check_digests|]. intros _.
  apply safe_then; [exact Hst| |].
  - intros w Hs [Hg (Hx & Hy & Hc)]. apply safe_counter_time; auto.
  - intros st w Hs [Hg (Hx & Hy & Hc)]. now apply safe_signer_verify.
Qed.
Lemma safe_verify_one fuel hs v a : safe (given v) (verify_one E fuel hs v a) any.
Proof. unfold verify_one. destruct (dict_get _ _); [apply safe_asd_verify|apply safe_raise; in_list]. Qed.
Lemma safe_verify_loop {A B} mode (one : A -> M world B) (pre : world -> Prop) :
  stays pre -> (forall a, safe pre (one a) any) ->
  forall l acc last, (forall e, last = Some e -> bad e) -> safe pre (verify_loop mode one l acc last) any.
Proof.
  intros Hst H1. induction l as [|a l IH]; intros acc last Hl; cbn [verify_loop].
  - destruct last as [e|]; [apply safe_err; now apply Hl|now apply safe_ret].
  - intros w Hs Hp. destruct (H1 a w Hs Hp) as (Ha & Hb & Hc).
    destruct (one a w) as [w1 o]. cbn [fst snd] in *.
    assert (Hgo : forall acc' last', (forall e, last' = Some e -> bad e) ->
      let m := verify_loop mode one l acc' last' w1 in
      sane (fst m) /\ larger w (fst m) /\ match snd m with Ok p => any p (fst m) | Err e => bad e end).
    { intros acc' last' Hl'. cbn zeta. destruct (IH acc' last' Hl' w1 Ha (Hst _ _ Hb Hp)) as (G1 & G2 & G3).
      split; [exact G1|split; [eapply larger_trans; eassumption|exact G3]]. }
    destruct o as [ch|e].
    + destruct (every mode); [now apply Hgo|]. cbn. split; [exact Ha|split; [exact Hb|exact I]].
    + destruct (catches Exception_ e); [|cbn; auto]. destruct (every mode); [cbn; auto|].
      apply Hgo. intros e0 He. inversion He; now subst.
Qed.
End safe.

(** *** The whole *)

Lemma calculate_constant E l d w :
  exists N x, forall fuel, (N <= fuel)%nat -> calculate_expected_hashes E fuel l d w = x.
Proof.
  unfold calculate_expected_hashes, mbind, mres. destruct (provided_hashes E (map fst d)) as [p|e]; [|exists 0%nat; eauto].
  set (needed := filter _ _). clearbody needed. destruct needed as [|n needed]; [exists 0%nat; eauto|].
  pose proof (authenticode_hashes (e_hash E) (w_file w) (n :: needed)) as Ha. cbn zeta in Ha.
  destruct Ha as (_ & o & _ & Ha).
  destruct (add_authenticode_hashers (fp_new [] (w_file w) default_block) (n :: needed)) as [st r]. cbn [fst snd] in Ha.
  destruct o as [secs|].
  - destruct Ha as (-> & st' & inner & [N HN] & _). exists N. eexists. intros fuel Hf. rewrite (HN fuel Hf). reflexivity.
  - destruct Ha as (-> & st' & [N HN]). exists N. eexists. intros fuel Hf. rewrite (HN fuel Hf). reflexivity.
Qed.
Lemma verify_loop_ext {A B} mode (one one' : A -> M world B) :
  (forall a w, one a w = one' a w) -> forall l acc last w,
  verify_loop mode one l acc last w = verify_loop mode one' l acc last w.
Proof.
  intros H. induction l as [|a l IH]; intros acc last w; cbn [verify_loop]; [reflexivity|].
  rewrite H. destruct (one' a w) as [w1 [b|e]].
  - destruct (every mode); auto.
  - destruct (catches Exception_ e); [destruct (every mode)|]; auto.
Qed.
Lemma verify_one_fuel E i j hs v a w : verify_one E i hs v a w = verify_one E j hs v a w.
Proof. unfold verify_one. destruct (dict_get _ _); [apply asd_verify_fuel|reflexivity]. Qed.

Lemma provided_error E keys e : provided_hashes E keys = Err e ->
  e_class e = AttributeError /\ exists k, In k keys /\ e_hashlib_has E k = false.
Proof.
  induction keys as [|k keys IH]; cbn; [discriminate|]. destruct (e_hashlib_has E k) eqn:Hk.
  - destruct (provided_hashes E keys) as [l|x]; cbn; [discriminate|]. intros H; inversion H; subst.
    destruct (IH eq_refl) as (Hc & k' & Hi & Hf). split; [exact Hc|]. exists k'. auto.
  - intros H; inversion H; subst. split; [reflexivity|]. exists k. auto.
Qed.

Lemma sane_start w v : well_formed w v -> sane (w_stores w) w /\ given v w.
Proof.
  intros (H1 & H2 & H3 & H4). split; [split; [exact H4|]|split; [exact H1|split; [exact H2|exact H3]]].
  intros s l cs e Hs Hl _. eauto.
Qed.

Theorem c56 load E depth mode expected ign v w :
  well_formed w v ->
  exists N x,
    (forall fuel, (N <= fuel)%nat -> pe_open_verify load E depth fuel mode expected ign v w = x) /\
    forall e, snd x = Err e ->
      (exists l, terminates_with (fun k => iterate load depth true ign k (w_file w)) (l, Some e) /\
         (In (e_class e) (SignedPEParseError :: parse_errors) \/ exists b, load b = Err e)) \/
      (terminates_with (fun k => iterate load depth true ign k (w_file w)) ([], None) /\
       e_class e = AuthenticodeNotSignedError) \/
      (exists l, terminates_with (fun k => iterate load depth true ign k (w_file w)) (l, None) /\ l <> [] /\
         ((e_class e = AttributeError /\ ~ known_names E expected) \/
          In (e_class e) verify_errors \/ foreign load E (w_stores w) e)).
Proof.
  intros Hwf. destruct (table_terminates (w_file w)) as (es & tail & Hc).
  pose proof (iterate_pure load depth true ign (w_file w) es tail Hc) as Hit. cbn zeta in Hit.
  set (p := pure_iter load depth true tail es false) in *. clearbody p.
  destruct p as [l x0]. cbn [fst snd] in Hit. set (x := silenced ign x0) in *. clearbody x. clear x0.
  destruct Hit as [N0 Hit]. pose proof (Hit N0 (Nat.le_refl _)) as Hat.
  assert (Hterm : terminates_with (fun k => iterate load depth true ign k (w_file w)) (l, x)) by (exists N0; exact Hit).
  destruct (open_eq load E depth N0 mode expected ign v w l x Hat) as (w1 & Hobj & Hopen).
  destruct x as [e|].
  { exists N0. eexists. split; [exact Hopen|]. cbn. intros e0 He. inversion He; subst. left. exists l. split; [exact Hterm|].
    destruct (iterate_errors _ _ _ _ _ _ _ Hterm) as [H|[H|H]]; [left; now left|now right|left; now right]. }
  destruct l as [|a l].
  { exists N0. eexists. split; [exact Hopen|]. cbn. intros e0 He. inversion He; subst. right. left. auto. }
  destruct (select_spec mode (a :: l) ltac:(discriminate)) as (sel & Hsel & _ & Hne & Hincl).
  { intros b Hb. eapply table_accepted; eassumption. }
  rewrite Hsel in Hopen.
  destruct (calculate_constant E sel (supplied_dict expected) w1) as (N1 & [w2 r2] & Hcalc).
  assert (Hmore : forall P, (e_class P = AttributeError /\ ~ known_names E expected) \/
          In (e_class P) verify_errors \/ foreign load E (w_stores w) P ->
     (exists l0, terminates_with (fun k => iterate load depth true ign k (w_file w)) (l0, Some P) /\
         (In (e_class P) (SignedPEParseError :: parse_errors) \/ exists b, load b = Err P)) \/
      (terminates_with (fun k => iterate load depth true ign k (w_file w)) ([], None) /\
       e_class P = AuthenticodeNotSignedError) \/
      (exists l, terminates_with (fun k => iterate load depth true ign k (w_file w)) (l, None) /\ l <> [] /\
         ((e_class P = AttributeError /\ ~ known_names E expected) \/
          In (e_class P) verify_errors \/ foreign load E (w_stores w) P))).
  { intros P HP. right. right. exists (a :: l). split; [exact Hterm|]. split; [discriminate|exact HP]. }
  destruct (table_ok _ _ _ _ _ _ a Hterm (or_introl eq_refl)) as (_ & secs & Hsecs).
  destruct Hobj as (Hst & Hcx & Hby).
  destruct r2 as [hs|e2].
  - exists (Nat.max N0 N1).
    exists (let (w3, r) := verify_loop mode (verify_one E 0 hs v) sel [] None w2 in
            (w3, option_map (fun _ => hs) expected, r)).
    split.
    + intros fuel Hf. rewrite (Hopen fuel) by lia. rewrite (Hcalc fuel) by lia.
      rewrite (verify_loop_ext mode (verify_one E fuel hs v) (verify_one E 0 hs v)); [reflexivity|].
      intros. apply verify_one_fuel.
    + assert (Hsame : w_stores w2 = w_stores w1 /\ w_contexts w2 = w_contexts w1).
      { pose proof (Hcalc N1 (Nat.le_refl _)) as Hq. revert Hq. unfold calculate_expected_hashes, mbind, mres.
        destruct (provided_hashes E _); [|discriminate]. destruct (filter _ _); [intros H; inversion H; now subst|].
        destruct (add_authenticode_hashers _ _) as [st [b|e]]; [|discriminate].
        destruct (hashes _ _ _) as [[st' r]|]; [|discriminate]. intros H; inversion H; subst. now cbn. }
      destruct Hsame as [Hs2 Hc2].
      assert (Hwf2 : sane (w_stores w) w2 /\ given v w2).
      { destruct (sane_start w v Hwf) as ((Ha & Hb) & (Hg1 & Hg2 & Hg3)).
        assert (Hs : w_stores w2 = w_stores w) by congruence. assert (Hk : w_contexts w2 = w_contexts w) by congruence.
        split.
        - unfold sane. rewrite Hs, Hk. split; assumption.
        - unfold given, has_store, has_context. rewrite Hs, Hk. repeat split; assumption. }
      destruct Hwf2 as [Hsane Hgiven].
      pose proof (safe_verify_loop load E (w_stores w) mode (verify_one E 0 hs v) (given v) (stays_given v)
        (safe_verify_one load E (w_stores w) 0 hs v) sel [] None ltac:(discriminate) w2 Hsane Hgiven) as (_ & _ & Hloop).
      destruct (verify_loop mode (verify_one E 0 hs v) sel [] None w2) as [w3 r]. cbn [fst snd] in *.
      intros e He. subst r. apply Hmore. right. exact Hloop.
  - exists (Nat.max N0 N1). exists (w2, expected, Err e2). split.
    + intros fuel Hf. rewrite (Hopen fuel) by lia. rewrite (Hcalc fuel) by lia. reflexivity.
    + cbn. intros e He. inversion He; subst. apply Hmore. left.
      destruct (provided_hashes E (map fst (supplied_dict expected))) as [ks|x] eqn:Hp.
      * exfalso.
        assert (Hnames : forall k h, In (k, h) (supplied_dict expected) -> e_hashlib_has E k = true).
        { intros k h Hk. destruct (e_hashlib_has E k) eqn:Hh; [reflexivity|].
          destruct (provided_fails E (map fst (supplied_dict expected)) k) as (x & Hx & _); [|exact Hh|congruence].
          apply (in_map fst) in Hk. exact Hk. }
        rewrite <- Hby in Hsecs.
        destruct (calculate_spec E secs sel (supplied_dict expected) w1 Hsecs Hnames) as (H1 & N2 & H2).
        destruct (H1 (Nat.max N1 N2) w2 (Err e) ltac:(apply Hcalc; lia)) as (_ & [H|(d' & H & _)]); [|discriminate].
        apply (H2 (Nat.max N1 N2) ltac:(lia)). rewrite (Hcalc (Nat.max N1 N2) ltac:(lia)). exact H.
      * assert (Hx : x = e).
        { pose proof (Hcalc N1 (Nat.le_refl _)) as H. unfold calculate_expected_hashes, mbind, mres in H.
          rewrite Hp in H. now inversion H. }
        subst x. destruct (provided_error _ _ _ Hp) as (Hcl & k & Hk & Hf). split; [exact Hcl|].
        intros Hn. apply in_map_iff in Hk. destruct Hk as ([k' h] & <- & Hi). destruct expected as [d|]; [|destruct Hi].
        pose proof (Hn d k' h eq_refl Hi) as Ht. cbn in Hf. congruence.
Qed.
