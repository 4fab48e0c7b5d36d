(** Proofs about what a verification changes. *)
From Verif Require Import Base Bytes Monad ModelFile ModelFingerprint ModelPE SpecFingerprint SpecPE
  ModelX509 SpecX509 ProofsFingerprint ProofsPE ProofsPE2 ProofsPE3 ModelContext SpecContext ProofsContext ProofsContext2
  ModelPkcs7 ModelAuthenticode SpecPkcs7 SpecAuthenticode ProofsSigner ProofsSigner2 ProofsVerify ProofsVerify2 ProofsVerify3
  ProofsVerify5 SpecSignedPE ProofsSignedPE ProofsSignedPE2 SpecFrame.

Section frame.
Context (w0 : world) (S U : nat -> Prop) (T : option datetime -> Prop).

(** References that may be used: allowed ones, or those of objects made meanwhile. *)
Definition good_store (r : nat) : Prop := S r \/ (length (w_stores w0) <= r)%nat.
Definition good_context (x : nat) : Prop := U x \/ (length (w_contexts w0) <= x)%nat.

Definition inv (w : world) : Prop :=
  frame S U T w0 w /\
  (length (w_stores w0) <= length (w_stores w))%nat /\
  (length (w_contexts w0) <= length (w_contexts w))%nat /\
  (forall x c, good_context x -> nth_error (w_contexts w) x = Some c -> Forall good_store (x_stores c)).

Definition safe {A} (m : M world A) (Q : A -> Prop) : Prop :=
  forall w, inv w -> inv (fst (m w)) /\ forall a, snd (m w) = Ok a -> Q a.

Lemma safe_ret {A} (a : A) (Q : A -> Prop) : Q a -> safe (mret a) Q.
Proof. intros H w I. split; [exact I|]. intros b E. injection E as <-. exact H. Qed.
Lemma safe_res {A} (r : res A) : safe (mres r) (fun _ => True).
Proof. intros w I. split; [exact I|auto]. Qed.
Lemma safe_err {A} e (Q : A -> Prop) : safe (merr e) Q.
Proof. intros w I. split; [exact I|discriminate]. Qed.
Lemma safe_raise {A} k m (Q : A -> Prop) : safe (mraise k m) Q.
Proof. intros w I. split; [exact I|discriminate]. Qed.
Lemma safe_weak {A} (m : M world A) (Q Q' : A -> Prop) : (forall a, Q a -> Q' a) -> safe m Q -> safe m Q'.
Proof. intros H Hm w I. destruct (Hm w I) as [I' Hq]. split; [exact I'|auto]. Qed.
Lemma safe_match {A B} (m : M world A) (k : A -> M world B) (h : exn -> M world B) (P : A -> Prop) (Q : B -> Prop) :
  safe m P -> (forall a, P a -> safe (k a) Q) -> (forall e, safe (h e) Q) ->
  safe (fun w => match m w with (w', Ok a) => k a w' | (w', Err e) => h e w' end) Q.
Proof.
  intros Hm Hk Hh w I. specialize (Hm w I). destruct (m w) as [w' [a|e]]; cbn [fst snd] in Hm; destruct Hm as [I' Hp].
  - apply Hk; auto.
  - apply Hh; auto.
Qed.
Lemma safe_bind {A B} (m : M world A) (k : A -> M world B) (P : A -> Prop) (Q : B -> Prop) :
  safe m P -> (forall a, P a -> safe (k a) Q) -> safe (mbind m k) Q.
Proof. intros Hm Hk. apply (safe_match m k (fun e => merr e) P Q); auto. intros e. apply safe_err. Qed.
Lemma safe_try {A} (m : M world A) p h (Q : A -> Prop) : safe m Q -> (forall e, safe (h e) Q) -> safe (mtry m p h) Q.
Proof.
  intros Hm Hh. apply (safe_match m (fun a => mret a) (fun e w => if p e then h e w else (w, Err e)) Q Q); auto.
  - intros a Ha. now apply safe_ret.
  - intros e. destruct (p e); [apply Hh|apply safe_err].
Qed.
Lemma safe_state {A} (f : world -> M world A) Q : (forall w, safe (f w) Q) -> safe (fun w => f w w) Q.
Proof. intros H w I. now apply H. Qed.

(** ** Objects *)

Lemma safe_get_context x : good_context x -> safe (get_context x) (fun c => Forall good_store (x_stores c)).
Proof.
  intros G w I. unfold get_context. destruct (nth_error (w_contexts w) x) as [c|] eqn:E; (split; [exact I|]); [|discriminate].
  intros a H. injection H as <-. destruct I as (_ & _ & _ & I). eapply I; eassumption.
Qed.
Lemma safe_get_store r : safe (get_store r) (fun _ => True).
Proof. intros w I. unfold get_store. destruct (nth_error _ _); (split; [exact I|auto]). Qed.

Lemma inv_put w x c c' :
  inv w -> good_context x -> nth_error (w_contexts w) x = Some c -> evolved T c c' -> inv (with_context x c' w).
Proof.
  intros ((F1 & F2 & F3) & L1 & L2 & G) Gx Hx V. unfold with_context. split; [split; [exact F1|split; [exact F2|]]|].
  - cbn [w_contexts]. intros y d Hd. destruct (F3 y d Hd) as [K|(Uy & d' & K & V')].
    + rewrite nth_list_set. destruct (Nat.eqb_spec x y) as [->|N]; [|now left]. rewrite K in Hx. injection Hx as <-.
      right. rewrite K. destruct Gx as [Gx|Gx]; [split; [exact Gx|eauto]|].
      exfalso. assert (nth_error (w_contexts w0) y <> None) as Q by congruence. apply nth_error_Some in Q. lia.
    + right. split; [exact Uy|]. rewrite nth_list_set. destruct (Nat.eqb_spec x y) as [->|N]; [|eauto].
      rewrite K in Hx. injection Hx as <-. rewrite K. exists c'. split; [reflexivity|]. eapply evolved_trans; eassumption.
  - cbn [w_contexts w_stores]. split; [exact L1|]. split; [now rewrite length_list_set|].
    intros y d Gy. rewrite nth_list_set. destruct (Nat.eqb_spec x y) as [->|N]; [|now apply G].
    rewrite Hx. intros E. injection E as <-. destruct V as (-> & _). eapply G; eassumption.
Qed.
Lemma put_is x c w : put_context x c w = (with_context x c w, Ok tt).
Proof. reflexivity. Qed.

Lemma safe_update {A} x (f : context -> context) (g : context -> A) :
  good_context x -> (forall c, evolved T c (f c)) ->
  safe (do c <- get_context x ; put_context x (f c) ;; mret (g c)) (fun _ => True).
Proof.
  intros Gx V w I. unfold mbind, get_context. destruct (nth_error (w_contexts w) x) as [c|] eqn:E; [|split; [exact I|auto]].
  rewrite put_is. cbn [fst snd mret]. split; [|auto]. eapply inv_put; eauto.
Qed.
Lemma safe_read_ekus x : good_context x -> safe (read_ekus x) (fun _ => True).
Proof.
  intros Gx. unfold read_ekus. apply (safe_update x (fun c => mkContext (x_stores c) (x_timestamp c) (x_key_usages c)
    (exhaust (x_ekus c)) (x_optional_eku c) (x_opts c)) (fun c => usage_list (x_ekus c)) Gx).
  intros c. unfold evolved. cbn [x_stores x_timestamp x_key_usages x_ekus x_optional_eku x_opts]. repeat (split; [reflexivity|]). auto using exhaust_used.
Qed.
Lemma safe_read_key_usages x : good_context x -> safe (read_key_usages x) (fun _ => True).
Proof.
  intros Gx. unfold read_key_usages. apply (safe_update x (fun c => mkContext (x_stores c) (x_timestamp c) (exhaust (x_key_usages c))
    (x_ekus c) (x_optional_eku c) (x_opts c)) (fun c => usage_list (x_key_usages c)) Gx).
  intros c. unfold evolved. cbn [x_stores x_timestamp x_key_usages x_ekus x_optional_eku x_opts]. repeat (split; [reflexivity|]). auto using exhaust_used.
Qed.
Lemma safe_set_timestamp x t : good_context x -> T t -> safe (set_timestamp x t) (fun _ => True).
Proof.
  intros Gx Ht w I. unfold set_timestamp, mbind, get_context.
  destruct (nth_error (w_contexts w) x) as [c|] eqn:E; [|split; [exact I|auto]]. rewrite put_is. cbn [fst snd].
  split; [|auto]. eapply inv_put; eauto. unfold evolved. cbn. tauto.
Qed.
Lemma safe_add_store x r : (length (w_contexts w0) <= x)%nat -> good_store r -> safe (add_store x r) (fun _ => True).
Proof.
  intros Hx Gr w I. unfold add_store, mbind, get_context.
  destruct (nth_error (w_contexts w) x) as [c|] eqn:E; [|split; [exact I|auto]]. rewrite put_is. cbn [fst snd].
  split; [|auto]. destruct I as ((F1 & F2 & F3) & L1 & L2 & G). unfold with_context. split; [split; [exact F1|split; [exact F2|]]|].
  - cbn [w_contexts]. intros y d Hd. rewrite nth_list_set. destruct (Nat.eqb_spec x y) as [->|N]; [|now apply F3].
    exfalso. assert (nth_error (w_contexts w0) y <> None) as Q by congruence. apply nth_error_Some in Q. lia.
  - cbn [w_contexts w_stores]. split; [exact L1|]. split; [now rewrite length_list_set|].
    intros y d Gy. rewrite nth_list_set. destruct (Nat.eqb_spec x y) as [->|N]; [|now apply G].
    rewrite E. intros Q. injection Q as <-. cbn [x_stores]. apply Forall_app. split; [|auto]. eapply G; eassumption.
Qed.

Lemma loaded_spec s : loaded s = s \/ loaded_once s (loaded s).
Proof.
  unfold loaded, loaded_once, contents. destruct (s_location s) as [l|] eqn:E; [|now left].
  destruct (s_loaded s) eqn:L; [|right; exists l; auto].
  left. destruct s; cbn in *. congruence.
Qed.
Lemma loaded_once_ready s s' : loaded_once s s' -> loaded s' = s'.
Proof. intros (l & _ & _ & ->). reflexivity. Qed.

Lemma safe_store_load r : good_store r -> safe (store_load r) (fun _ => True).
Proof.
  intros Gr w I. destruct (nth_error (w_stores w) r) as [s|] eqn:E.
  2:{ unfold store_load, mbind, get_store. rewrite E. split; [exact I|auto]. }
  rewrite (store_load_spec _ _ _ E). cbn [fst snd]. split; [|auto].
  destruct I as ((F1 & F2 & F3) & L1 & L2 & G).
  unfold with_store. split; [split; [exact F1|split; [|exact F3]]|]; cbn [w_stores w_contexts].
  - intros q d Hd. rewrite nth_list_set. destruct (Nat.eqb_spec r q) as [->|N]; [|now apply F2]. rewrite E.
    destruct (F2 q d Hd) as [K|(Sq & d' & K & V)].
    + rewrite E in K. injection K as ->. destruct (loaded_spec d) as [->|V]; [now left|]. right. split; [|eauto].
      destruct Gr as [Gr|Gr]; [exact Gr|].
      exfalso. assert (nth_error (w_stores w0) q <> None) as Q by congruence. apply nth_error_Some in Q. lia.
    + rewrite E in K. injection K as ->. rewrite (loaded_once_ready _ _ V). right. eauto.
  - split; [now rewrite length_list_set|]. split; [exact L2|exact G].
Qed.
Lemma safe_store_iter r : good_store r -> safe (store_iter r) (fun _ => True).
Proof.
  intros Gr. unfold store_iter. eapply safe_bind; [now apply safe_store_load|]. intros _ _.
  eapply safe_bind; [apply safe_get_store|]. intros s _. now apply safe_ret.
Qed.
Lemma safe_is_trusted r c : safe (store_is_trusted r c) (fun _ => True).
Proof. unfold store_is_trusted. eapply safe_bind; [apply safe_get_store|]. intros s _. now apply safe_ret. Qed.
Lemma safe_iter_stores rs : Forall good_store rs -> safe (iter_stores rs) (fun _ => True).
Proof.
  induction 1 as [|r rs Hr _ IH]; cbn [iter_stores]; [now apply safe_ret|].
  eapply safe_bind; [now apply safe_store_iter|]. intros l _. eapply safe_bind; [exact IH|]. intros l' _. now apply safe_ret.
Qed.
Lemma safe_alloc_store s : safe (alloc_store s) (fun r => length (w_stores w0) <= r)%nat.
Proof.
  intros w ((F1 & F2 & F3) & L1 & L2 & G). unfold alloc_store. cbn [fst snd]. split.
  - split; [split; [exact F1|split; [|exact F3]]|]; cbn [w_stores w_contexts].
    + intros r d Hd. assert (nth_error (w_stores w0) r <> None) as Q by congruence. apply nth_error_Some in Q.
      rewrite nth_error_app1 by lia. now apply F2.
    + rewrite app_length. split; [lia|]. split; [exact L2|exact G].
  - intros a E. injection E as <-. exact L1.
Qed.
Lemma safe_alloc_context c : Forall good_store (x_stores c) -> safe (alloc_context c) (fun x => length (w_contexts w0) <= x)%nat.
Proof.
  intros Gc w ((F1 & F2 & F3) & L1 & L2 & G). unfold alloc_context. cbn [fst snd]. split.
  - split; [split; [exact F1|split; [exact F2|]]|]; cbn [w_stores w_contexts].
    + intros x d Hd. assert (nth_error (w_contexts w0) x <> None) as Q by congruence. apply nth_error_Some in Q.
      rewrite nth_error_app1 by lia. now apply F3.
    + rewrite app_length. split; [exact L1|]. split; [lia|]. intros x d Gx Hd.
      destruct (Nat.lt_ge_cases x (length (w_contexts w))) as [Hl|Hl].
      * rewrite nth_error_app1 in Hd by assumption. eapply G; eassumption.
      * rewrite nth_error_app2 in Hd by assumption.
        destruct (x - length (w_contexts w))%nat as [|k]; cbn in Hd; [injection Hd as <-; exact Gc|].
        destruct k; discriminate Hd.
  - intros a E. injection E as <-. exact L2.
Qed.
Lemma safe_objects {A} (m : M world A) : (forall w, same_objects w (fst (m w))) -> safe m (fun _ => True).
Proof.
  intros H w ((F1 & F2 & F3) & L1 & L2 & G). destruct (H w) as (A1 & A2 & A3).
  split; [|auto]. unfold inv, frame. rewrite A1, A2, A3. auto.
Qed.

(** ** Contexts *)

Lemma safe_ctl E t ch x : good_context x -> safe (ctl_verify_trust E t ch x) (fun _ => True).
Proof.
  intros Gx. unfold ctl_verify_trust. destruct ch as [|root rest]; [apply safe_raise|].
  eapply safe_bind; [apply safe_res|]. intros [s|] _; [|apply safe_res].
  eapply safe_bind; [now apply safe_get_context|]. intros c _. cbv zeta.
  eapply safe_bind; [now apply safe_read_ekus|]. intros us _. apply safe_res.
Qed.
Lemma safe_store_trust E r ch x : good_context x -> safe (store_verify_trust E r ch x) (fun _ => True).
Proof.
  intros Gx. unfold store_verify_trust. destruct ch as [|root rest]; [apply safe_raise|].
  eapply safe_bind; [apply safe_is_trusted|]. intros b _. destruct (negb b); [apply safe_res|].
  eapply safe_bind; [apply safe_get_store|]. intros s _. destruct (s_ctl s); [|now apply safe_ret].
  eapply safe_bind; [now apply safe_ctl|]. intros b' _. now apply safe_ret.
Qed.
Lemma safe_trust_loop E x ch : good_context x -> forall rs last, safe (verify_trust_loop E x ch rs last) (fun _ => True).
Proof.
  intros Gx. induction rs as [|r rs IH]; intros last; cbn [verify_trust_loop]; [now apply safe_ret|].
  apply (safe_match (store_verify_trust E r ch x) (fun b w' => if b then (w', Ok (true, last)) else verify_trust_loop E x ch rs last w')
    (fun e w' => if catches CertificateNotTrustedVerificationError e then verify_trust_loop E x ch rs last w'
              else if catches VerificationError e then verify_trust_loop E x ch rs (Some e) w' else (w', Err e)) (fun _ => True) (fun _ => True));
    [now apply safe_store_trust| |].
  - intros b _. destruct b; [now apply safe_ret|apply IH].
  - intros e. destruct (catches _ e); [apply IH|]. destruct (catches _ e); [apply IH|apply safe_err].
Qed.
Lemma safe_verify_trust E x ch : good_context x -> safe (verify_trust E x ch) (fun _ => True).
Proof.
  intros Gx. unfold verify_trust. eapply safe_bind; [now apply safe_get_context|]. intros c _.
  eapply safe_bind; [now apply safe_trust_loop|]. intros p _. destruct (fst p); [now apply safe_ret|].
  destruct (snd p); [apply safe_err|apply safe_raise].
Qed.
Lemma safe_context_verify E x c : good_context x -> safe (context_verify E x c) (fun _ => True).
Proof.
  intros Gx. unfold context_verify. eapply safe_bind; [now apply safe_get_context|]. intros cx Hc.
  eapply safe_bind; [now apply safe_iter_stores|]. intros pairs _.
  apply (safe_state (fun w1 => _)). intros w1. cbv zeta.
  eapply safe_bind; [apply safe_res|]. intros _ _.
  eapply safe_bind.
  { apply safe_try; [|intros e; apply safe_res].
    eapply safe_bind; [now apply safe_read_key_usages|]. intros ku _.
    eapply safe_bind; [now apply safe_read_ekus|]. intros eku _. apply safe_res. }
  intros ids _. eapply safe_bind; [apply safe_res|]. intros ch _.
  eapply safe_bind; [now apply safe_verify_trust|]. intros b _. now apply safe_ret.
Qed.
Lemma safe_find_items {A} E q (body : cert -> A -> M world A) :
  (forall c a, safe (body c a) (fun _ => True)) ->
  forall l seen acc, safe (find_items E q body l seen acc) (fun _ => True).
Proof.
  intros Hb. induction l as [|c l IH]; intros seen acc; cbn [find_items]; [now apply safe_ret|].
  destruct (query_matches E q c); [|apply IH]. destruct (cert_mem c seen); [apply IH|].
  eapply safe_bind; [apply Hb|]. intros a _. apply IH.
Qed.
Lemma safe_find_stores {A} E q (body : cert -> A -> M world A) :
  (forall c a, safe (body c a) (fun _ => True)) ->
  forall rs, Forall good_store rs -> forall seen acc, safe (find_stores E q body rs seen acc) (fun _ => True).
Proof.
  intros Hb. induction 1 as [|r rs Hr _ IH]; intros seen acc; cbn [find_stores]; [now apply safe_ret|].
  eapply safe_bind; [now apply safe_store_iter|]. intros l _.
  eapply safe_bind; [now apply safe_find_items|]. intros p _. apply IH.
Qed.
Lemma safe_for_certificates {A} E x q (body : cert -> A -> M world A) acc :
  good_context x -> (forall c a, safe (body c a) (fun _ => True)) ->
  safe (for_certificates E x q body acc) (fun _ => True).
Proof.
  intros Gx Hb. unfold for_certificates. eapply safe_bind; [now apply safe_get_context|]. intros c Hc.
  now apply safe_find_stores.
Qed.

(** ** Signatures *)

Lemma safe_verify_issuer E auth i x st c :
  good_context x -> (forall t, st = Some t -> T (Some t)) -> safe (verify_issuer E auth i x st c) (fun _ => True).
Proof.
  intros Gx Ht. unfold verify_issuer. cbv zeta. eapply safe_bind; [now apply safe_get_context|]. intros cx _.
  eapply safe_bind; [apply safe_res|]. intros _ _.
  apply (safe_bind _ _ (fun _ => True)); [|intros _ _; now apply safe_context_verify].
  destruct (auth && lifetime_signing c); [now apply safe_ret|]. destruct st as [t|]; [|now apply safe_ret].
  apply safe_set_timestamp; auto.
Qed.
Lemma safe_signer_verify E auth i x st :
  good_context x -> (forall t, st = Some t -> T (Some t)) -> safe (signer_verify E auth i x st) (fun _ => True).
Proof.
  intros Gx Ht. unfold signer_verify. apply (safe_bind _ _ (fun _ => True)).
  - unfold build_chain. eapply safe_bind.
    + apply safe_for_certificates; [exact Gx|]. intros c acc. unfold build_chain_body.
      apply (safe_match (verify_issuer E auth i x st c) (fun ch => mret (fst acc ++ [ch], FFalse))
        (fun e w' => if catches VerificationError e
                  then (w', Ok (fst acc, match snd acc with FNone => FErr e | f => f end)) else (w', Err e)) (fun _ => True) (fun _ => True));
        [now apply safe_verify_issuer| |].
      * intros ch _. now apply safe_ret.
      * intros e. destruct (catches _ e); [now apply safe_ret|apply safe_err].
    + intros p _. destruct (snd p); [apply safe_ret; exact I|apply safe_err|apply safe_ret; exact I].
  - intros chains _. destruct chains; [apply safe_raise|now apply safe_ret].
Qed.
Lemma safe_cs_verify E c x trusted : good_context x -> safe (cs_verify E c x trusted) (fun _ => True).
Proof.
  intros Gx. destruct c as [i|t]; cbn [cs_verify].
  - apply safe_signer_verify; [exact Gx|discriminate].
  - unfold rsd_verify. destruct (negb _); [apply safe_raise|].
    eapply (safe_bind _ _ (fun y => y = x)); [now apply safe_ret|]. intros y ->.
    apply safe_signer_verify; [exact Gx|discriminate].
Qed.
Lemma safe_check_countersigner E a c y trusted :
  good_context y -> T (counter_stated_time c) -> safe (check_countersigner E a c y trusted) (fun _ => True).
Proof.
  intros Gy Ht. unfold check_countersigner. destruct (negb _); [apply safe_raise|].
  assert (cs_signing_time c = counter_stated_time c) as -> by now destruct c.
  eapply safe_bind; [now apply safe_set_timestamp|]. intros _ _.
  eapply safe_bind; [now apply safe_cs_verify|]. intros ch _. now apply safe_ret.
Qed.
Lemma safe_countersignature_time E a v y :
  (forall x, y = Some x -> good_context x) -> (forall c, considered a v c -> T (counter_stated_time c)) ->
  safe (countersignature_time E a v y) (fun st => forall t, st = Some t -> T (Some t)).
Proof.
  intros Gy Ht. unfold countersignature_time. destruct (asi_cs (asd_signer a)) as [c|] eqn:Ec; [|now apply safe_ret].
  destruct (String.eqb_spec (va_mode v) "ignore") as [Hm|Hm]; [now apply safe_ret|].
  assert (Tc : T (counter_stated_time c)) by (apply Ht; split; assumption).
  destruct y as [y|]; [|apply safe_raise].
  apply (safe_match (check_countersigner E a c y (va_trusted v)) (fun _ => mret (cs_signing_time c))
    (fun e w' => if catches Exception_ e then
       if String.eqb (va_mode v) "strict"
       then (w', raise AuthenticodeCounterSignerError "An error occurred while validating the countersignature")
       else (w', Ok None) else (w', Err e))
    (fun _ => True) (fun st => forall t, st = Some t -> T (Some t)));
    [apply safe_check_countersigner; auto| |].
  - intros _ _. apply safe_ret. assert (cs_signing_time c = counter_stated_time c) as -> by now destruct c.
    intros t Hc. congruence.
  - intros e. destruct (catches _ e); [|apply safe_err]. destruct (String.eqb _ _); [apply safe_raise|].
    apply safe_ret. discriminate.
Qed.
Lemma safe_new_context rs eku k : Forall good_store rs -> safe (new_context rs eku k) (fun x => length (w_contexts w0) <= x)%nat.
Proof. intros Hr. unfold new_context. destruct (kw_valid k); [now apply safe_alloc_context|apply safe_raise]. Qed.

Lemma safe_prepare a v :
  (forall x, passed v x -> U x) -> (va_context v = None \/ va_cs_context v = None -> S (va_trusted v)) ->
  safe (prepare_contexts a v) (fun p => good_context (fst p) /\ forall y, snd p = Some y -> good_context y).
Proof.
  intros HU HS. unfold prepare_contexts. eapply safe_bind; [apply safe_alloc_store|]. intros certs Hc.
  eapply (safe_bind _ _ good_context).
  - destruct (va_context v) as [x|] eqn:Ex.
    + apply safe_ret. left. apply HU. now left.
    + eapply safe_weak; [|apply safe_new_context]; [now right|].
      apply Forall_cons; [left; apply HS; now left|]. apply Forall_cons; [now right|apply Forall_nil].
  - intros x Gx. destruct (va_cs_context v) as [y|] eqn:Ey.
    + apply safe_ret. split; [exact Gx|]. cbn [snd]. intros y' H. injection H as <-. left. apply HU. now right.
    + destruct (asi_cs (asd_signer a)) as [c|]; [|apply safe_ret; split; [exact Gx|discriminate]].
      destruct (String.eqb _ _); [apply safe_ret; split; [exact Gx|discriminate]|].
      eapply safe_bind.
      { apply safe_new_context. apply Forall_cons; [left; apply HS; now right|]. apply Forall_cons; [now right|apply Forall_nil]. }
      intros y Hy. destruct c as [i|t].
      * apply safe_ret. split; [exact Gx|]. intros y' H. injection H as <-. now right.
      * eapply safe_bind; [apply safe_alloc_store|]. intros more Hm.
        eapply safe_bind; [apply safe_add_store; [exact Hy|now right]|]. intros _ _.
        apply safe_ret. split; [exact Gx|]. intros y' H. injection H as <-. now right.
Qed.

Lemma safe_asd_verify E fuel a expected v :
  (forall x, passed v x -> U x) -> (va_context v = None \/ va_cs_context v = None -> S (va_trusted v)) ->
  (forall c, considered a v c -> T (counter_stated_time c)) ->
  safe (asd_verify E fuel a expected v) (fun _ => True).
Proof.
  intros HU HS HT. unfold asd_verify. eapply safe_bind; [now apply safe_prepare|]. intros p (Gx & Gy).
  eapply safe_bind.
  { apply safe_objects. intros w. destruct (check_digests E fuel a expected w) eqn:C. eapply check_digests_objects. exact C. }
  intros _ _. eapply safe_bind; [now apply safe_countersignature_time|]. intros st Hst. now apply safe_signer_verify.
Qed.
Lemma safe_verify_loop {A B} mode (one : A -> M world B) (l : list A) :
  (forall a, In a l -> safe (one a) (fun _ => True)) -> forall acc last, safe (verify_loop mode one l acc last) (fun _ => True).
Proof.
  induction l as [|a l IH]; intros Ho acc last; cbn [verify_loop].
  - destruct last; [apply safe_err|now apply safe_ret].
  - apply (safe_match (one a) (fun ch w' => if every mode then verify_loop mode one l (acc ++ [(a, ch)]) last w' else (w', Ok [(a, ch)]))
      (fun e w' => if catches Exception_ e then if every mode then (w', Err e) else verify_loop mode one l acc (Some e) w' else (w', Err e)) (fun _ => True) (fun _ => True)).
    + apply Ho. now left.
    + intros ch _. destruct (every mode); [|now apply safe_ret]. apply IH. intros b Hb. apply Ho. now right.
    + intros e. destruct (catches _ e); [|apply safe_err]. destruct (every mode); [apply safe_err|].
      apply IH. intros b Hb. apply Ho. now right.
Qed.
End frame.

Lemma frame_refl S U T w : frame S U T w w.
Proof. repeat split; auto. Qed.
Lemma start w v T : inv w (consults w v) (passed v) T w.
Proof.
  split; [apply frame_refl|]. split; [lia|]. split; [lia|]. intros x c [Hx|Hx] Hc.
  - apply Forall_forall. intros r Hr. left. left. eauto.
  - exfalso. assert (nth_error (w_contexts w) x <> None) as Q by congruence. apply nth_error_Some in Q. lia.
Qed.

Theorem c61_signature E fuel a expected v w :
  frame (consults w v) (passed v) (stated_times [a] v) w (fst (asd_verify E fuel a expected v w)).
Proof.
  refine (proj1 (proj1 (safe_asd_verify w (consults w v) (passed v) (stated_times [a] v) E fuel a expected v _ _ _ w _))).
  - auto.
  - intros H. right. auto.
  - intros c Hc. exists a, c. split; [now left|auto].
  - apply start.
Qed.

Lemma calculate_objects E fuel l d w : same_objects w (fst (calculate_expected_hashes E fuel l d w)).
Proof.
  unfold calculate_expected_hashes, mbind, mres. destruct (provided_hashes E (map fst d)) as [p|e]; [|apply same_objects_refl].
  set (needed := filter _ _). clearbody needed. destruct needed as [|n needed]; [apply same_objects_refl|].
  pose proof (authenticode_hashes (e_hash E) (w_file w) (n :: needed)) as Ha. cbn zeta in Ha.
  destruct Ha as (Hb & _).
  destruct (add_authenticode_hashers (fp_new [] (w_file w) default_block) (n :: needed)) as [st [b|e]]; cbn [fst snd] in *.
  - destruct (hashes (e_hash E) fuel st) as [[st2 r2]|] eqn:Eh; [|apply same_objects_refl].
    cbn [fst]. split; [reflexivity|]. split; [reflexivity|]. cbn [w_file].
    rewrite (hashes_file_bytes _ _ _ _ _ Eh). exact Hb.
  - split; [reflexivity|]. split; [reflexivity|]. exact Hb.
Qed.

Lemma inv_objects w0 S U T w w' : same_objects w w' -> inv w0 S U T w -> inv w0 S U T w'.
Proof.
  intros (A1 & A2 & A3) ((F1 & F2 & F3) & L1 & L2 & G). unfold inv, frame. rewrite A1, A2, A3. auto.
Qed.

Lemma select_incl mode l sel : select_signed_datas mode l = Ok sel -> incl sel l.
Proof.
  unfold select_signed_datas. destruct (String.eqb mode "first").
  { destruct l as [|a l]; [discriminate|]. intros H. injection H as <-. intros b [<-|[]]. now left. }
  destruct (String.eqb mode "best").
  - destruct (best_algorithm _); cbn [rbind]; [|discriminate]. intros H. injection H as <-. intros b Hb.
    apply filter_In in Hb. apply Hb.
  - intros H. injection H as <-. apply incl_refl.
Qed.

Theorem c61 load E depth fuel mode expected ign v w l x :
  terminates_with (fun k => iterate load depth true ign k (w_file w)) (l, x) ->
  frame (consults w v) (passed v) (stated_times l v) w
    (fst (fst (pe_open_verify load E depth fuel mode expected ign v w))).
Proof.
  intros Ht. set (J := inv w (consults w v) (passed v) (stated_times l v)).
  assert (J0 : J w) by apply start.
  cut (J (fst (fst (pe_open_verify load E depth fuel mode expected ign v w)))); [intros H; apply H|].
  destruct (iterate load depth true ign fuel (w_file w)) as [[l' x']|] eqn:Ei.
  - assert ((l', x') = (l, x)) as Q.
    { destruct Ht as [N Ht]. specialize (Ht (N + fuel)%nat ltac:(lia)).
      rewrite iterate_eq in Ei, Ht. destruct (iter_loop _ _ _ fuel _ _ _ _) as [[f1 [l1 x1]]|] eqn:El; [|discriminate].
      assert (Hk : (fuel <= N + fuel)%nat) by lia. rewrite (loop_mono load depth true _ _ _ Hk _ _ _ _ El) in Ht. congruence. }
    injection Q as -> ->.
    destruct (open_eq load E depth fuel mode expected ign v w l x Ei) as (w1 & O1 & Q).
    rewrite (Q fuel (Nat.le_refl _)). clear Q.
    assert (J1 : J w1) by (eapply inv_objects; eassumption).
    destruct x as [e|]; [exact J1|]. destruct l as [|a0 l0]; [exact J1|]. remember (a0 :: l0) as l.
    destruct (select_signed_datas mode l) as [sel|e] eqn:Es; [|exact J1]. apply select_incl in Es.
    pose proof (calculate_objects E fuel sel (supplied_dict expected) w1) as O2.
    destruct (calculate_expected_hashes E fuel sel (supplied_dict expected) w1) as [w2 [hs|e]]; cbn [fst] in O2;
      (assert (J2 : J w2) by (eapply inv_objects; eassumption)); [|exact J2].
    assert (K : safe w (consults w v) (passed v) (stated_times l v) (verify_loop mode (verify_one E fuel hs v) sel [] None) (fun _ => True)).
    { apply safe_verify_loop. intros a Ha. unfold verify_one. destruct (dict_get _ _); [|apply safe_raise].
      apply safe_asd_verify; auto.
      - intros H. right. auto.
      - intros c Hc. exists a, c. split; [now apply Es|auto]. }
    destruct (K w2 J2) as [J3 _]. destruct (verify_loop mode (verify_one E fuel hs v) sel [] None w2) as [w3 r]. exact J3.
  - unfold iterate in Ei. unfold pe_open_verify. rewrite signed_pe_init_eq in *. unfold pe_verify, signed_datas, mbind.
    cbn [w_file w_stores w_contexts].
    destruct (iter_signed_datas _ _ _ _ _ _ _) as [p|]; [discriminate Ei|]. cbn [fst].
    eapply inv_objects; [|exact J0]. repeat split.
Qed.

(** ** Repetition *)

Lemma loaded_once_view s s' : loaded_once s s' -> same_view s s'.
Proof.
  intros (l & H1 & H2 & ->). pose proof (same_view_loaded s) as V.
  unfold loaded, contents in V. rewrite H1, H2 in V. exact V.
Qed.

(** The stores of the second world look like those of the first. *)
Definition seen (w w' : world) : Prop :=
  forall r s, nth_error (w_stores w) r = Some s -> exists s', nth_error (w_stores w') r = Some s' /\ same_view s s'.
Lemma frame_seen S U T w w' : frame S U T w w' -> seen w w'.
Proof.
  intros (_ & F & _) r s H. destruct (F r s H) as [K|(_ & s' & K & L)].
  - exists s. split; [exact K|apply same_view_refl].
  - exists s'. split; [exact K|]. now apply loaded_once_view.
Qed.
Lemma seen_refl w : seen w w.
Proof. intros r s H. exists s. split; [exact H|apply same_view_refl]. Qed.
Lemma seen_trans a b c : seen a b -> seen b c -> seen a c.
Proof.
  intros A B r s H. destruct (A r s H) as (s1 & H1 & V1). destruct (B r s1 H1) as (s2 & H2 & V2).
  exists s2. split; [exact H2|]. eapply same_view_trans; eassumption.
Qed.
Lemma history_seen w w' : history w w' -> seen w w'.
Proof.
  induction 1 as [w|w w1 f load E depth fuel mode expected ign v _ IH]; [apply seen_refl|].
  eapply seen_trans; [exact IH|].
  destruct (c17 load depth true f) as (es & tail & n & l & x & _ & Hi & _).
  assert (exists l x, terminates_with (fun k => iterate load depth true ign k f) (l, x)) as (l' & x' & Hi').
  { destruct ign.
    - destruct Hi as [N Hi]. pose proof (Hi N (Nat.le_refl _)) as H0. rewrite iterate_eq in H0.
      destruct (iter_loop _ _ _ N _ _ _ _) as [[f1 [l1 x1]]|] eqn:El; [|discriminate].
      do 2 eexists. exists N. intros k Hk. rewrite iterate_eq.
      rewrite (loop_mono load depth true _ _ _ Hk _ _ _ _ El). reflexivity.
    - eauto. }
  assert (Q := c61 load E depth fuel mode expected ign v (with_file f w1) l' x' Hi').
  exact (frame_seen _ _ _ _ _ Q).
Qed.
Lemma seen_similar v f w w' : default_contexts v -> seen w w' -> similar v (with_file f w) (with_file f w').
Proof.
  intros (D1 & D2) H. split; [|split; congruence].
  split; [reflexivity|]. split; [|exact H]. cbn [with_file w_stores].
  destruct (Nat.le_gt_cases (length (w_stores w)) (length (w_stores w'))) as [L|L]; [exact L|].
  destruct (nth_error (w_stores w) (length (w_stores w'))) as [s|] eqn:E.
  - destruct (H _ _ E) as (s' & H' & _). assert (nth_error (w_stores w') (length (w_stores w')) <> None) as Q by congruence.
    apply nth_error_Some in Q. lia.
  - apply nth_error_None in E. lia.
Qed.

Lemma outcome_fun {A B} (vs : list (A * res B)) b r r' : vs <> [] -> outcome vs b r -> outcome vs b r' -> r = r'.
Proof.
  intros Ne H H'.
  assert (S1 : forall pre a e post out, vs = pre ++ (a, Err e) :: post -> map (fun ab : A * B => (fst ab, Ok (snd ab))) out = vs -> False).
  { intros pre a e post out E1 E2. assert (In (a, Err e) vs) as K by (rewrite E1; apply in_or_app; right; now left).
    rewrite <- E2 in K. apply in_map_iff in K as (p & Q & _). discriminate Q. }
  assert (S2 : forall (P Q : A * res B -> Prop), (forall y, P y -> ~ Q y) -> forall pre x post pre' x' post',
    vs = pre ++ x :: post -> vs = pre' ++ x' :: post' -> Forall P pre -> Forall P pre' -> Q x -> Q x' -> x = x').
  { intros P Q PQ pre. clear - PQ. revert vs. induction pre as [|y pre IH]; intros vs x post pre' x' post' -> E F F' q q'.
    - destruct pre' as [|y' pre']; [now injection E|]. injection E as -> _. inversion F'; subst. exfalso. eapply PQ; eassumption.
    - destruct pre' as [|y' pre'].
      + injection E as <- _. inversion F; subst. exfalso. eapply PQ; eassumption.
      + injection E as <- E. inversion F; inversion F'; subst. eapply (IH (pre ++ x :: post)); eauto. }
  assert (S3 : forall x : A * res B, fails x -> ~ ((exists a b, x = (a, Ok b)) \/ (exists a e, x = (a, Err e) /\ issubclass (e_class e) Exception_ = false))).
  { intros x (e & E1 & E2) [(a & c & ->)|(a & e' & -> & E3)]; cbn [snd] in E1; congruence. }
  assert (S4 : forall pre x post, vs = pre ++ x :: post -> Forall fails vs -> fails x).
  { intros pre x post -> F. apply Forall_app in F as [_ F]. now inversion F. }
  destruct H as [out Ho|pre a e post E1 F|pre a c post E1 F|pre a e E1 F|pre a e post E1 F I];
    inversion H' as [out' Ho'|pre' a' e' post' E1' F'|pre' a' c' post' E1' F'|pre' a' e' E1' F'|pre' a' e' post' E1' F' I']; subst r'.
  - f_equal. rewrite <- Ho in Ho'. clear - Ho'. revert out Ho'. induction out' as [|[a b] l IH]; intros [|[a' b'] l'] H; try discriminate H; [reflexivity|].
    cbn [map fst snd] in H. injection H as -> -> H. f_equal. now apply IH.
  - exfalso. eauto.
  - exfalso. eauto.
  - assert (Q : (a, Err e) = (a', @Err B e')).
    { apply (S2 succeeds (fun x => exists a e, x = (a, Err e))) with pre post pre' post'; eauto.
      intros [y r] (b0 & Hb) (a1 & e1 & Q). cbn [snd] in Hb. congruence. }
    congruence.
  - assert (Q := S2 _ _ S3 _ _ _ _ _ _ E1 E1' F F' (or_introl (ex_intro _ a (ex_intro _ c eq_refl))) (or_introl (ex_intro _ a' (ex_intro _ c' eq_refl)))).
    congruence.
  - exfalso. destruct (S4 _ _ _ E1 F') as (e & Q & _). discriminate Q.
  - exfalso. assert (Q := S2 _ _ S3 _ _ _ _ _ _ E1 E1' F F' (or_introl (ex_intro _ a (ex_intro _ c eq_refl))) (or_intror (ex_intro _ a' (ex_intro _ e' (conj eq_refl I'))))).
    discriminate Q.
  - exfalso. destruct (S4 _ _ _ E1' F) as (e0 & Q & _). discriminate Q.
  - rewrite E1 in E1'. apply app_inj_tail in E1' as [_ Q]. congruence.
  - exfalso. destruct (S4 _ _ _ E1' F) as (e0 & Q & R). cbn [snd] in Q. congruence.
  - exfalso. assert (Q := S2 _ _ S3 _ _ _ _ _ _ E1' E1 F' F (or_introl (ex_intro _ a' (ex_intro _ c' eq_refl))) (or_intror (ex_intro _ a (ex_intro _ e (conj eq_refl I))))).
    discriminate Q.
  - exfalso. destruct (S4 _ _ _ E1 F') as (e0 & Q & R). cbn [snd] in Q. congruence.
  - assert (Q := S2 _ _ S3 _ _ _ _ _ _ E1 E1' F F' (or_intror (ex_intro _ a (ex_intro _ e (conj eq_refl I)))) (or_intror (ex_intro _ a' (ex_intro _ e' (conj eq_refl I'))))).
    congruence.
Qed.
