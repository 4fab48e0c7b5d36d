(** Nothing is accepted while a store of the context cannot be read. *)
From Verif Require Import Base Bytes Monad ModelFile ModelX509 SpecX509 ModelContext SpecContext ProofsCTL ProofsContext ModelPkcs7
  ModelAuthenticode SpecAuthenticode SpecComplete SpecExact SpecUnread ProofsVerify ProofsVerify2 ProofsVerify5 ProofsComplete ProofsExact2.

Section Blocked.
Variables (r x : nat).

Definition blocked (w : world) : Prop :=
  (exists s, nth_error (w_stores w) r = Some s /\ unreadable s) /\
  exists cx, nth_error (w_contexts w) x = Some cx /\ In r (x_stores cx).
Definition beyond (e : exn) : Prop := catches VerificationError e = false.

Definition keeps {A} (m : M world A) : Prop :=
  forall w, blocked w -> match m w with (w', Ok _) => blocked w' | (w', Err e) => blocked w' \/ beyond e end.
Definition stops {A} (m : M world A) : Prop :=
  forall w, blocked w -> match m w with (_, Ok _) => False | (w', Err e) => blocked w' \/ beyond e end.

Lemma stops_keeps {A} (m : M world A) : stops m -> keeps m.
Proof. intros H w B. specialize (H w B). destruct (m w) as [w' [a|e]]; tauto. Qed.
Lemma keeps_same {A} (m : M world A) : (forall w, fst (m w) = w) -> keeps m.
Proof. intros H w B. specialize (H w). destruct (m w) as [w' [a|e]]; cbn in H; subst; auto. Qed.
Lemma keeps_ret {A} (a : A) : keeps (mret a).
Proof. now apply keeps_same. Qed.
Lemma keeps_err {A} e : keeps (@merr world A e).
Proof. now apply keeps_same. Qed.
Lemma keeps_res {A} (a : res A) : keeps (mres a).
Proof. now apply keeps_same. Qed.
Lemma keeps_raise {A} k m : keeps (@mraise world A k m).
Proof. now apply keeps_same. Qed.
Lemma keeps_get_store q : keeps (get_store q).
Proof. apply keeps_same. intro w. unfold get_store. now destruct (nth_error _ _). Qed.
Lemma keeps_get_context y : keeps (get_context y).
Proof. apply keeps_same. intro w. unfold get_context. now destruct (nth_error _ _). Qed.
Lemma keeps_bind {A B} (m : M world A) (k : A -> M world B) : keeps m -> (forall a, keeps (k a)) -> keeps (mbind m k).
Proof.
  intros H K w Bw. unfold mbind. specialize (H w Bw). destruct (m w) as [w1 [a|e]]; [|exact H]. exact (K a w1 H).
Qed.
Lemma stops_bind {A B} (m : M world A) (k : A -> M world B) : keeps m -> (forall a, stops (k a)) -> stops (mbind m k).
Proof.
  intros H K w Bw. unfold mbind. specialize (H w Bw). destruct (m w) as [w1 [a|e]]; [|exact H]. exact (K a w1 H).
Qed.
Lemma stops_first {A B} (m : M world A) (k : A -> M world B) : stops m -> stops (mbind m k).
Proof.
  intros H w Bw. unfold mbind. specialize (H w Bw). destruct (m w) as [w1 [a|e]]; [contradiction|exact H].
Qed.

(** Changes of contexts. *)
Lemma keeps_update {A} y (f : context -> context) (k : context -> M world A) :
  (forall c, incl (x_stores c) (x_stores (f c))) -> (forall c, keeps (k c)) ->
  keeps (do c <- get_context y ; put_context y (f c) ;; k c).
Proof.
  intros F K w B. unfold mbind, get_context, put_context. destruct (nth_error (w_contexts w) y) as [c|] eqn:E; [|now left].
  apply K. destruct B as [B1 (cx & B2 & B3)]. split; [exact B1|]. cbn [w_contexts]. rewrite nth_list_set.
  destruct (Nat.eqb_spec y x) as [->|N]; [|now exists cx].
  rewrite B2. eexists. split; [reflexivity|]. apply F. congruence.
Qed.
Lemma keeps_put y (f : context -> context) :
  (forall c, incl (x_stores c) (x_stores (f c))) -> keeps (do c <- get_context y ; put_context y (f c)).
Proof.
  intros F w B. unfold mbind, get_context, put_context. destruct (nth_error (w_contexts w) y) as [c|] eqn:E; [|now left].
  destruct B as [B1 (cx & B2 & B3)]. split; [exact B1|]. cbn [w_contexts]. rewrite nth_list_set.
  destruct (Nat.eqb_spec y x) as [->|N]; [|now exists cx].
  rewrite B2. eexists. split; [reflexivity|]. apply F. congruence.
Qed.
Lemma keeps_ekus y : keeps (read_ekus y).
Proof. unfold read_ekus. apply (keeps_update y (fun c => mkContext _ _ _ _ _ _)); [intros c ? H; exact H|intro c; apply keeps_ret]. Qed.
Lemma keeps_key_usages y : keeps (read_key_usages y).
Proof. unfold read_key_usages. apply (keeps_update y (fun c => mkContext _ _ _ _ _ _)); [intros c ? H; exact H|intro c; apply keeps_ret]. Qed.
Lemma keeps_set_timestamp y t : keeps (set_timestamp y t).
Proof. unfold set_timestamp. apply (keeps_put y (fun c => mkContext _ _ _ _ _ _)). intros c ? H. exact H. Qed.

(** Reading stores. *)
Lemma keeps_iter q : keeps (store_iter q).
Proof.
  unfold store_iter. apply keeps_bind; [|intros _; apply keeps_bind; [apply keeps_get_store|intro s; apply keeps_ret]].
  intros w B. unfold store_load, mbind, get_store. destruct (nth_error (w_stores w) q) as [s|] eqn:E; [|now left].
  destruct (s_location s) as [loc|] eqn:L; [|exact B]. destruct (s_loaded s) eqn:D; [exact B|].
  rewrite load_files_spec. unfold put_store. cbn [fst snd].
  destruct (Nat.eq_dec q r) as [->|N].
  - destruct B as [(s' & B1 & (loc' & e & U1 & U2 & U3 & U4)) _]. assert (s' = s) by congruence. subst s'.
    assert (loc' = loc) by congruence. subst loc'. rewrite U3. right. exact U4.
  - assert (blocked (mkWorld (list_set q (mkStore (s_items s ++ location_certs loc) (s_trusted s) (s_ctl s) (Some loc) true) (w_stores w)) (w_contexts w) (w_file w))) as B'.
    { destruct B as [(s' & B1 & B2) B3]. split; [|exact B3]. exists s'. split; [|exact B2]. cbn [w_stores].
      rewrite nth_list_set. destruct (Nat.eqb_spec q r); [contradiction|exact B1]. }
    destruct (location_error loc); cbn; auto.
Qed.
Lemma stops_iter : stops (store_iter r).
Proof.
  intros w B. pose proof (keeps_iter r w B) as K. revert K.
  destruct B as [(s & B1 & (loc & e & U1 & U2 & U3 & U4)) _].
  unfold store_iter, store_load, mbind, get_store. rewrite B1, U1, U2, load_files_spec, U3. unfold put_store. cbn. auto.
Qed.
Lemma keeps_iter_stores rs : keeps (iter_stores rs).
Proof.
  induction rs as [|q rs IH]; cbn [iter_stores]; [apply keeps_ret|].
  apply keeps_bind; [apply keeps_iter|]. intro l. apply keeps_bind; [exact IH|]. intro l'. apply keeps_ret.
Qed.
Lemma stops_iter_stores rs : In r rs -> stops (iter_stores rs).
Proof.
  induction rs as [|q rs IH]; cbn [iter_stores In]; [tauto|]. intros [->|H].
  - apply stops_first, stops_iter.
  - apply stops_bind; [apply keeps_iter|]. intro l. now apply stops_first, IH.
Qed.

(** Verifying a certificate. *)
Lemma keeps_ctl E t ch y : keeps (ctl_verify_trust E t ch y).
Proof.
  unfold ctl_verify_trust. destruct ch as [|root ch]; [apply keeps_raise|].
  apply keeps_bind; [apply keeps_res|]. intros [s|]; [|apply keeps_res].
  apply keeps_bind; [apply keeps_get_context|]. intro c. apply keeps_bind; [apply keeps_ekus|]. intro u. apply keeps_res.
Qed.
Lemma keeps_store_trust E q ch y : keeps (store_verify_trust E q ch y).
Proof.
  unfold store_verify_trust. destruct ch as [|root ch]; [apply keeps_raise|].
  apply keeps_bind.
  - unfold store_is_trusted. apply keeps_bind; [apply keeps_get_store|]. intro s. apply keeps_ret.
  - intros t. destruct (negb t); [apply keeps_res|]. apply keeps_bind; [apply keeps_get_store|]. intro s.
    destruct (s_ctl s); [|apply keeps_ret]. apply keeps_bind; [apply keeps_ctl|]. intro. apply keeps_ret.
Qed.
Lemma catches_not_trusted e : catches CertificateNotTrustedVerificationError e = true -> beyond e -> False.
Proof. unfold beyond, catches. destruct (e_class e); cbn; congruence. Qed.
Lemma keeps_trust_loop E y ch rs : forall last, keeps (verify_trust_loop E y ch rs last).
Proof.
  induction rs as [|q rs IH]; intro last; cbn [verify_trust_loop]; [apply keeps_ret|].
  intros w B. pose proof (keeps_store_trust E q ch y w B) as K. destruct (store_verify_trust E q ch y w) as [w1 [b|e]].
  - destruct b; [exact K|]. now apply IH.
  - destruct (catches CertificateNotTrustedVerificationError e) eqn:C1.
    + destruct K as [K|K]; [now apply IH|]. exfalso. now apply (catches_not_trusted e).
    + destruct (catches VerificationError e) eqn:C2; [|now right]. destruct K as [K|K]; [now apply IH|]. unfold beyond in K. congruence.
Qed.
Lemma keeps_trust E y ch : keeps (verify_trust E y ch).
Proof.
  unfold verify_trust. apply keeps_bind; [apply keeps_get_context|]. intro c.
  apply keeps_bind; [apply keeps_trust_loop|]. intros [b o]. cbn [fst snd]. destruct b; [apply keeps_ret|].
  destruct o; [apply keeps_err|apply keeps_raise].
Qed.
Lemma keeps_rest E y cx c pairs w0 : keeps (
   let trust_roots := pick_by (store_trusted w0) pairs in
   let intermediates := pick_by (fun r => negb (store_trusted w0 r)) pairs in
   let moment := x_timestamp cx in
   do _ <- mres (e_mk_validation E trust_roots moment (x_opts cx) c intermediates) ;
   do ids <-
     mtry (do ku <- read_key_usages y ;
           do eku <- read_ekus y ;
           mres (e_validate E trust_roots moment (x_opts cx) c intermediates ku eku
                            (x_optional_eku cx)))
          (catches Exception_)
          (fun e => mres (raise_fmt c CertificateVerificationError "Chain verification failed")) ;
   do chain <- mres (map_ids (c :: map snd pairs) ids) ;
   do _ <- verify_trust E y chain ;
   mret chain).
Proof.
  cbv zeta. apply keeps_bind; [apply keeps_res|]. intros _. apply keeps_bind.
  - intros w B. unfold mtry.
    set (m := do ku <- read_key_usages y; _).
    assert (K : match m w with (w', _) => blocked w' end).
    { subst m. unfold mbind. pose proof (keeps_key_usages y w B) as K1.
      assert (E1 : forall w, match read_key_usages y w with (w', Err e) => w' = w | _ => True end)
        by (intro v; unfold read_key_usages, mbind, get_context, put_context; now destruct (nth_error _ _)).
      assert (E2 : forall w, match read_ekus y w with (w', Err e) => w' = w | _ => True end)
        by (intro v; unfold read_ekus, mbind, get_context, put_context; now destruct (nth_error _ _)).
      specialize (E1 w). destruct (read_key_usages y w) as [w1 [ku|e1]]; [|now subst w1].
      pose proof (keeps_ekus y w1 K1) as K2. specialize (E2 w1). destruct (read_ekus y w1) as [w2 [eku|e2]]; [exact K2|now subst w2]. }
    destruct (m w) as [w1 [a|e]]; [exact K|]. destruct (catches Exception_ e); [|now left]. now apply keeps_res.
  - intro ids. apply keeps_bind; [apply keeps_res|]. intro chain. apply keeps_bind; [apply keeps_trust|]. intros _. apply keeps_ret.
Qed.
Lemma keeps_context_verify E y c : keeps (context_verify E y c).
Proof.
  unfold context_verify. apply keeps_bind; [apply keeps_get_context|]. intro cx.
  apply keeps_bind; [apply keeps_iter_stores|]. intro pairs. intros w B. exact (keeps_rest E y cx c pairs w w B).
Qed.
Lemma stops_context {A} (k : context -> M world A) : (forall c, In r (x_stores c) -> stops (k c)) -> stops (do c <- get_context x ; k c).
Proof.
  intros K w B. pose proof B as [_ (cx & B2 & B3)]. unfold mbind, get_context. rewrite B2. exact (K cx B3 w B).
Qed.
Lemma stops_context_verify E c : stops (context_verify E x c).
Proof. unfold context_verify. apply stops_context. intros cx H. apply stops_first. now apply stops_iter_stores. Qed.
Lemma keeps_issuer E b i y st c : keeps (verify_issuer E b i y st c).
Proof.
  unfold verify_issuer. cbv zeta. apply keeps_bind; [apply keeps_get_context|]. intro cx.
  apply keeps_bind; [apply keeps_res|]. intros _. apply keeps_bind; [|intros _; apply keeps_context_verify].
  destruct (if b && _ then _ else _); [apply keeps_set_timestamp|apply keeps_ret].
Qed.
Lemma stops_issuer E b i st c : stops (verify_issuer E b i x st c).
Proof.
  unfold verify_issuer. cbv zeta. apply stops_bind; [apply keeps_get_context|]. intro cx.
  apply stops_bind; [apply keeps_res|]. intros _. apply stops_bind; [|intros _; apply stops_context_verify].
  destruct (if b && _ then _ else _); [apply keeps_set_timestamp|apply keeps_ret].
Qed.
Lemma keeps_body E b i y st c acc : keeps (build_chain_body E b i y st c acc).
Proof.
  intros w B. unfold build_chain_body. pose proof (keeps_issuer E b i y st c w B) as K.
  destruct (verify_issuer E b i y st c w) as [w1 [ch|e]]; [exact K|].
  destruct (catches VerificationError e) eqn:C; [|now right]. destruct K as [K|K]; [exact K|]. unfold beyond in K. congruence.
Qed.
Lemma keeps_items {A} E q (body : cert -> A -> M world A) : (forall c a, keeps (body c a)) ->
  forall l seen acc, keeps (find_items E q body l seen acc).
Proof.
  intros K l. induction l as [|c l IH]; intros seen acc; cbn [find_items]; [apply keeps_ret|].
  destruct (query_matches E q c); [|apply IH]. destruct (cert_mem c seen); [apply IH|].
  apply keeps_bind; [apply K|]. intro a. apply IH.
Qed.
Lemma keeps_stores {A} E q (body : cert -> A -> M world A) : (forall c a, keeps (body c a)) ->
  forall rs seen acc, keeps (find_stores E q body rs seen acc).
Proof.
  intros K rs. induction rs as [|p rs IH]; intros seen acc; cbn [find_stores]; [apply keeps_ret|].
  apply keeps_bind; [apply keeps_iter|]. intro l. apply keeps_bind; [now apply keeps_items|]. intro z. apply IH.
Qed.
Lemma stops_stores {A} E q (body : cert -> A -> M world A) : (forall c a, keeps (body c a)) ->
  forall rs, In r rs -> forall seen acc, stops (find_stores E q body rs seen acc).
Proof.
  intros K rs. induction rs as [|p rs IH]; intros H seen acc; cbn [find_stores]; [destruct H|]. destruct H as [->|H].
  - apply stops_first, stops_iter.
  - apply stops_bind; [apply keeps_iter|]. intro l. apply stops_bind; [now apply keeps_items|]. intro z. now apply IH.
Qed.
Lemma keeps_signer E b i y st : keeps (signer_verify E b i y st).
Proof.
  unfold signer_verify, build_chain, for_certificates. apply keeps_bind.
  - apply keeps_bind; [apply keeps_bind; [apply keeps_get_context|intro c; apply keeps_stores; intros; apply keeps_body]|].
    intros [l f]. cbn [fst snd]. destruct f; (apply keeps_ret || apply keeps_err).
  - intros [|ch l]; [apply keeps_raise|apply keeps_ret].
Qed.
Lemma stops_signer E b i st : stops (signer_verify E b i x st).
Proof.
  unfold signer_verify, build_chain, for_certificates. apply stops_first, stops_first, stops_context.
  intros c H. apply stops_stores; [intros; apply keeps_body|exact H].
Qed.
Lemma keeps_cs E c y trusted : keeps (cs_verify E c y trusted).
Proof.
  destruct c as [i|t]; [apply keeps_signer|]. unfold cs_verify, rsd_verify. destruct (negb _); [apply keeps_raise|].
  apply keeps_bind; [apply keeps_ret|]. intro z. apply keeps_signer.
Qed.
Lemma keeps_check E a c y trusted : keeps (check_countersigner E a c y trusted).
Proof.
  unfold check_countersigner. destruct (negb _); [apply keeps_raise|]. apply keeps_bind; [apply keeps_set_timestamp|].
  intros _. apply keeps_bind; [apply keeps_cs|]. intros _. apply keeps_ret.
Qed.
Lemma stops_token E t trusted : stops (rsd_verify E t (Some x) trusted).
Proof.
  unfold rsd_verify. destruct (negb _).
  - intros w B. left. exact B.
  - intros w B. exact (stops_signer E false (r_signer t) None w B).
Qed.
Lemma stops_cs E c trusted : stops (cs_verify E c x trusted).
Proof. destruct c as [i|t]; [apply stops_signer|apply stops_token]. Qed.
Lemma stops_check E a c trusted : stops (check_countersigner E a c x trusted).
Proof.
  unfold check_countersigner. destruct (negb _); [intros w B; left; exact B|].
  apply stops_bind; [apply keeps_set_timestamp|]. intros _. apply stops_first, stops_cs.
Qed.
End Blocked.

Lemma stops_never {A} r x (m : M world A) w : stops r x m -> blocked r x w -> exists e, snd (m w) = Err e.
Proof. intros S B. specialize (S w B). destruct (m w) as [w' [a|e]]; [contradiction|]. now exists e. Qed.

Lemma ref_of w rs l s : stores_at w rs l -> In s l -> exists r, In r rs /\ nth_error (w_stores w) r = Some s.
Proof.
  intro F. induction F as [|r s' rs l H F IH]; cbn [In]; [tauto|]. intros [->|I]; [exists r; auto|].
  destruct (IH I) as (q & I' & H'). exists q. auto.
Qed.

Theorem unread_signer E b i x st w cx l s :
  nth_error (w_contexts w) x = Some cx -> stores_at w (x_stores cx) l -> In s l -> unreadable s ->
  exists e, snd (signer_verify E b i x st w) = Err e.
Proof.
  intros Hx Hs Hi Hu. destruct (ref_of _ _ _ _ Hs Hi) as (r & I & R).
  apply (stops_never r x); [apply stops_signer|]. split; [exists s; auto|exists cx; auto].
Qed.

Theorem unread_token E t given trusted w cx l s :
  token_context w t given trusted cx l -> In s l -> unreadable s ->
  exists e, snd (rsd_verify E t given trusted w) = Err e.
Proof.
  intros T Hi Hu. unfold rsd_verify. destruct (negb _); [eexists; reflexivity|]. destruct given as [x|]; cbn [token_context] in T.
  - destruct T as [Hx Hs]. exact (unread_signer E false (r_signer t) x None w cx l s Hx Hs Hi Hu).
  - destruct T as (ts & Ht & -> & ->). destruct Hi as [->|[<-|[]]].
    2:{ destruct Hu as (loc & e & H & _). discriminate H. }
    unfold mbind, alloc_store, new_context, alloc_context. cbn [kw_valid no_kwargs w_stores w_contexts].
    eapply (unread_signer E false (r_signer t) _ None _ _ [s; embedded_store (r_data t)] s).
    + cbn [w_contexts]. rewrite nth_error_app2 by lia. rewrite Nat.sub_diag. reflexivity.
    + cbn [x_stores]. constructor; [|constructor; [|constructor]]; cbn [w_stores].
      * now apply nth_app_some.
      * rewrite nth_error_app2 by lia. now rewrite Nat.sub_diag.
    + now left.
    + exact Hu.
Qed.

(** The countersignature in mode "strict". *)
Lemma strict_time E a v y w w' st r x : countersignature_time E a v y w = (w', Ok st) ->
  (va_mode v = "strict" \/ forall c, ~ considered a v c) -> blocked r x w -> blocked r x w'.
Proof.
  intros H M B. destruct (counter_time_run _ _ _ _ _ _ _ H) as [(_ & -> & _)|[(c & _ & _ & _ & m & Q)|(c & y0 & r0 & C & -> & K & Q)]]; [exact B|discriminate Q|].
  destruct M as [M|M]; [|now elim (M c)].
  pose proof (keeps_check r x E a c y0 (va_trusted v) w B) as P. rewrite K in P. destruct r0 as [u|e]; [exact P|].
  destruct (issubclass (e_class e) Exception_); [destruct Q as [[_ [m Q]]|[Q _]]; [discriminate Q|contradiction]|discriminate Q].
Qed.

Lemma digests_world E fuel a h w w' u : check_digests E fuel a (Some h) w = (w', u) -> w' = w.
Proof.
  unfold check_digests. do 2 (destruct (negb _); [intros H; now injection H as <- _|]).
  unfold mbind, mret. do 2 (destruct (negb _); [intros H; now injection H as <- _|]). intros H. now injection H as <- _.
Qed.

Theorem unread_asd E fuel a h v w cx l s :
  signer_context w a v cx l -> (va_mode v = "strict" \/ forall c, ~ considered a v c) -> In s l -> unreadable s ->
  exists e, snd (asd_verify E fuel a (Some h) v w) = Err e.
Proof.
  intros Sc M Hi Hu. destruct (asd_verify E fuel a (Some h) v w) as [w' [chains|e]] eqn:H; [|now exists e]. exfalso.
  destruct (asd_verify_steps _ _ _ _ _ _ _ _ H) as (w1 & x & y & w2 & w3 & st & P & D & T & V).
  apply digests_world in D. subst w2. destruct (prepare_signer _ _ _ _ _ _ _ _ P Sc) as [Nx Rx].
  destruct (ref_of _ _ _ _ Rx Hi) as (r & I & R).
  assert (B : blocked r x w1) by (split; [exists s; auto|exists cx; auto]).
  apply (strict_time _ _ _ _ _ _ _ r x T M) in B.
  pose proof (stops_signer r x E true (asi_info (asd_signer a)) st w3 B) as Q. now rewrite V in Q.
Qed.

Theorem unread_counter E fuel a h v w c cy ly s :
  considered a v c -> counter_context w a c v cy ly -> va_mode v = "strict" -> In s ly -> unreadable s ->
  exists e, snd (asd_verify E fuel a (Some h) v w) = Err e.
Proof.
  intros C Cc M Hi Hu. destruct (asd_verify E fuel a (Some h) v w) as [w' [chains|e]] eqn:H; [|now exists e]. exfalso.
  destruct (asd_verify_steps _ _ _ _ _ _ _ _ H) as (w1 & x & y & w2 & w3 & st & P & D & T & V).
  apply digests_world in D. subst w2. destruct (prepare_counter _ _ _ _ _ _ _ _ _ P C Cc) as (y0 & -> & Ny & Ry & _).
  destruct (ref_of _ _ _ _ Ry Hi) as (r & I & R).
  assert (B : blocked r y0 w1) by (split; [exists s; auto|exists cy; auto]).
  destruct (counter_time_run _ _ _ _ _ _ _ T) as [(N & _)|[(c' & _ & Y & _)|(c' & y1 & r0 & C' & Y & K & Q)]]; [now elim (N c)|discriminate Y|].
  injection Y as <-. pose proof (stops_check r y0 E a c' (va_trusted v) w1 B) as Z. rewrite K in Z. destruct r0 as [u|e]; [exact Z|].
  destruct (issubclass (e_class e) Exception_); [destruct Q as [[_ [m Q]]|[Q _]]; [discriminate Q|contradiction]|discriminate Q].
Qed.

Lemma all_readable l : plain_errors l -> Forall readable l \/ exists s, In s l /\ unreadable s.
Proof.
  intro H. induction H as [|s l [R|U] F IH]; [left; constructor|destruct IH as [IH|(t & I & U)]|].
  - left. now constructor.
  - right. exists t. split; [now right|exact U].
  - right. exists s. split; [now left|exact U].
Qed.

Theorem unread_exact E fuel a h v w cx l chains :
  lawful E -> distinct_contexts v -> signer_context w a v cx l -> plain_errors l -> identified (concat (map contents l)) ->
  (va_mode v = "strict" /\ (forall c, considered a v c -> exists cy ly, counter_context w a c v cy ly /\ plain_errors ly /\
     identified (concat (map contents ly))) \/ forall c, ~ considered a v c) ->
  snd (asd_verify E fuel a (Some h) v w) = Ok chains <->
  Forall readable l /\ (forall c cy ly, considered a v c -> counter_context w a c v cy ly -> Forall readable ly) /\
  authentic E w v a h chains.
Proof.
  intros Lw Di Sc Pl Il M.
  assert (M' : va_mode v = "strict" \/ forall c, ~ considered a v c) by (destruct M as [[M _]|M]; auto).
  destruct (all_readable l Pl) as [Rl|(s & I & U)].
  2:{ destruct (unread_asd E fuel a h v w cx l s Sc M' I U) as [e He]. rewrite He. split; [discriminate|].
      intros [F _]. exfalso. rewrite Forall_forall in F. specialize (F s I). destruct U as (loc & e' & U1 & U2 & U3 & _).
      specialize (F loc U1 U2). congruence. }
  assert (T : tidy w v a \/ exists c cy ly s, considered a v c /\ counter_context w a c v cy ly /\ va_mode v = "strict" /\ In s ly /\ unreadable s).
  { destruct M as [[Ms M]|M].
    2:{ left. split; [exact Di|]. split; [exists cx, l; repeat split; assumption|]. intros c C. now elim (M c). }
    destruct (considered_dec a v) as [[c C]|NC].
    - destruct (M c C) as (cy & ly & Cc & Py & Iy). destruct (all_readable ly Py) as [Ry|(s & I & U)].
      + left. split; [exact Di|]. split; [exists cx, l; repeat split; assumption|]. intros c' C'.
        rewrite <- (considered_fun _ _ _ _ C C'). exists cy, ly. repeat split; assumption.
      + right. exists c, cy, ly, s. auto.
    - left. split; [exact Di|]. split; [exists cx, l; repeat split; assumption|]. intros c C. now elim (NC c). }
  destruct T as [T|(c & cy & ly & s & C & Cc & Ms & I & U)].
  - rewrite (c64_exact E fuel a h v w chains Lw T). split; [|now intros (_ & _ & A)]. intro A. split; [exact Rl|]. split; [|exact A].
    intros c cy ly C Cc. destruct T as (_ & _ & T). destruct (T c C) as (cy' & ly' & Cc' & [R _]).
    destruct (counter_context_fun _ _ _ _ _ _ _ _ Cc Cc') as [-> ->]. exact R.
  - destruct (unread_counter E fuel a h v w c cy ly s C Cc Ms I U) as [e He]. rewrite He. split; [discriminate|].
    intros (_ & F & _). exfalso. specialize (F c cy ly C Cc). rewrite Forall_forall in F. specialize (F s I).
    destruct U as (loc & e' & U1 & U2 & U3 & _). specialize (F loc U1 U2). congruence.
Qed.
