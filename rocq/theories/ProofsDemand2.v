(** Proofs about names that are decoded on demand during verification, continued: searches,
    contexts and signers. *)
From Verif Require Import Base Monad ModelFile ModelFingerprint ModelPE ModelX509 SpecX509 ProofsX509 ModelContext SpecContext
  ProofsContext ModelPkcs7 ModelAuthenticode SpecExact ModelName SpecName ProofsName ModelDemand SpecDemand ProofsDemand.

Section demand.
Context (E : env) (U : names) (H : Prop).
Context (F : faithful U) (N : foreign_names U).
Context (HR : H -> rooted E).
(** Something that holds of the world and that the use of the context [x] does not change. *)
Context (J : world -> Prop) (x : nat) (JL : forall r w, J w -> J (fst (store_load r w)))
  (JP : forall c w, J w -> J (fst (put_context x c w))).

Notation bad := (bad U H).
Notation req := (req U H).
Notation fine := (fine U H).

Definition keep (w : world) : Prop := J w /\ (H -> legible_trust U w).
Definition rel {A} (p q : world * res A) : Prop :=
  (p = q /\ keep (fst q)) \/ exists w e, p = (w, Err e) /\ bad e /\ keep w.
Definition meq {A} (f g : M world A) : Prop := forall w, keep w -> rel (f w) (g w).
Definition keeps {A} (f : M world A) : Prop := forall w, keep w -> keep (fst (f w)).

Lemma rel_same {A} (p : world * res A) : keep (fst p) -> rel p p.
Proof. now left. Qed.
Lemma rel_bad {A} w e (q : world * res A) : bad e -> keep w -> rel (w, Err e) q.
Proof. intros B K. right. exists w, e. auto. Qed.
Lemma meq_keeps {A} (f : M world A) : keeps f -> meq f f.
Proof. intros K w I. left. split; [reflexivity|auto]. Qed.
Lemma meq_res {A} (p q : res A) : req p q -> meq (mres p) (mres q).
Proof. intros [->|(e & -> & B)] w I; [now apply rel_same|now apply rel_bad]. Qed.
Lemma meq_bind_world {A B} (p q : M world A) (f g : A -> M world B) :
  meq p q -> (forall w w0 a, q w = (w0, Ok a) -> keep w0 -> rel (f a w0) (g a w0)) -> meq (mbind p f) (mbind q g).
Proof.
  intros P K w I. unfold mbind. destruct (P w I) as [[-> I']|(w' & e & -> & D & I')]; [|now apply rel_bad].
  specialize (K w). destruct (q w) as [w' [a|e]]; cbn [fst] in I'; [|now apply rel_same]. now apply K.
Qed.
Lemma meq_bind_post {A B} (Q : A -> Prop) (p q : M world A) (f g : A -> M world B) :
  meq p q -> (forall w w' a, q w = (w', Ok a) -> Q a) -> (forall a, Q a -> meq (f a) (g a)) -> meq (mbind p f) (mbind q g).
Proof. intros P K L. apply meq_bind_world; [exact P|]. intros w w0 a Hq I. apply L; [eapply K; exact Hq|exact I]. Qed.
Lemma meq_bind {A B} (p q : M world A) (f g : A -> M world B) :
  meq p q -> (forall a, meq (f a) (g a)) -> meq (mbind p f) (mbind q g).
Proof. intros P K. apply (meq_bind_post (fun _ => True)); auto. Qed.
Lemma meq_try {A} (p : M world A) c h g : keeps p -> (forall e, meq (h e) (g e)) -> meq (mtry p c h) (mtry p c g).
Proof.
  intros P K w I. unfold mtry. specialize (P w I). destruct (p w) as [w' [a|e]]; cbn [fst] in P; [now apply rel_same|].
  destruct (c e); [now apply K|now apply rel_same].
Qed.
Lemma keeps_pure {A} (p : M world A) : (forall w, fst (p w) = w) -> keeps p.
Proof. intros K w I. now rewrite K. Qed.
Lemma keeps_bind {A B} (p : M world A) (f : A -> M world B) : keeps p -> (forall a, keeps (f a)) -> keeps (mbind p f).
Proof.
  intros P K w I. unfold mbind. specialize (P w I). destruct (p w) as [w' [a|e]]; cbn [fst] in *; [now apply K|exact P].
Qed.

Lemma keeps_get_context y : keeps (get_context y).
Proof. apply keeps_pure. intros w. unfold get_context. destruct (nth_error _ _); reflexivity. Qed.
Lemma keeps_get_store r : keeps (get_store r).
Proof. apply keeps_pure. intros w. unfold get_store. destruct (nth_error _ _); reflexivity. Qed.
Lemma keeps_put_context c : keeps (put_context x c).
Proof. intros w [I1 I2]. split; [now apply JP|exact I2]. Qed.
Lemma keeps_ret {A} (a : A) : keeps (mret a).
Proof. now intros w I. Qed.
Lemma keeps_mres {A} (r : res A) : keeps (mres r).
Proof. now intros w I. Qed.
Lemma keeps_err {A} e : keeps (@merr world A e).
Proof. now intros w I. Qed.
Lemma keeps_raise {A} k m : keeps (@mraise world A k m).
Proof. now intros w I. Qed.
Lemma keeps_read_ekus : keeps (read_ekus x).
Proof.
  apply keeps_bind; [apply keeps_get_context|]. intros c. apply keeps_bind; [apply keeps_put_context|]. intros _. apply keeps_ret.
Qed.
Lemma keeps_read_key_usages : keeps (read_key_usages x).
Proof.
  apply keeps_bind; [apply keeps_get_context|]. intros c. apply keeps_bind; [apply keeps_put_context|]. intros _. apply keeps_ret.
Qed.
Lemma keeps_set_timestamp t : keeps (set_timestamp x t).
Proof. apply keeps_bind; [apply keeps_get_context|]. intros c. apply keeps_put_context. Qed.
Lemma legible_load r w : legible_trust U w -> legible_trust U (fst (store_load r w)).
Proof.
  intros I. unfold store_load, mbind, get_store.
  destruct (nth_error (w_stores w) r) as [s|] eqn:Es; [|exact I]. destruct (s_location s) as [l|] eqn:El; [|exact I].
  destruct (s_loaded s) eqn:Ed; [exact I|]. rewrite load_files_spec. unfold put_store.
  assert (legible_trust U (mkWorld (list_set r (mkStore (s_items s ++ location_certs l) (s_trusted s) (s_ctl s) (Some l) true) (w_stores w)) (w_contexts w) (w_file w))) as K.
  { intros q t Hq Ht. cbn [w_stores] in Hq. rewrite nth_list_set in Hq. destruct (Nat.eqb_spec r q) as [->|D]; [|eapply I; eassumption].
    rewrite Es in Hq. injection Hq as <-. cbn [s_trusted] in Ht. specialize (I q s Es Ht). unfold contents in *. cbn. now rewrite El, Ed in I. }
  destruct (location_error l); exact K.
Qed.
Lemma keeps_store_load r : keeps (store_load r).
Proof. intros w [I1 I2]. split; [now apply JL|]. intros h. apply legible_load. auto. Qed.
Lemma keeps_store_iter r : keeps (store_iter r).
Proof.
  apply keeps_bind; [apply keeps_store_load|]. intros _. apply keeps_bind; [apply keeps_get_store|]. intros s. apply keeps_ret.
Qed.
Lemma keeps_iter_stores rs : keeps (iter_stores rs).
Proof.
  induction rs as [|r rs IH]; [apply keeps_ret|]. apply keeps_bind; [apply keeps_store_iter|]. intros l.
  apply keeps_bind; [exact IH|]. intros l'. apply keeps_ret.
Qed.

(** ** Stores *)

Lemma meq_is_trusted r c : fine c -> meq (nd_store_is_trusted E U r c) (store_is_trusted r c).
Proof.
  intros Fc w I. unfold nd_store_is_trusted, store_is_trusted, mbind, get_store.
  destruct (nth_error (w_stores w) r) as [s|] eqn:Es; [|now apply rel_same]. destruct (s_trusted s) eqn:Et; [|now apply rel_same].
  assert (Forall fine (s_items s)) as K.
  { apply Forall_forall. intros d Hx h. pose proof (proj2 I h r s Es Et) as K. rewrite Forall_forall in K. apply (K d); [|reflexivity].
    unfold contents. destruct (s_location s); [|exact Hx]. destruct (s_loaded s); [exact Hx|apply in_or_app; now left]. }
  destruct (req_in E U H F c (s_items s) Fc K) as [R|(e & R & B)]; unfold mres; rewrite R.
  - now apply rel_same.
  - now apply rel_bad.
Qed.

Lemma meq_raise {A} c k m : fine c -> meq (mres (@nd_raise A U c k m)) (mres (raise_fmt c k m)).
Proof. intros Fc. apply meq_res. now apply req_raise. Qed.

Lemma meq_ctl t chain : (forall c l, chain = c :: l -> fine c) -> meq (nd_ctl_verify_trust E U t chain x) (ctl_verify_trust E t chain x).
Proof.
  intros Fc. unfold nd_ctl_verify_trust, ctl_verify_trust. destruct chain as [|root l]; [apply meq_keeps, keeps_raise|].
  specialize (Fc root l eq_refl). apply meq_bind; [apply meq_keeps, keeps_mres|]. intros [s|]; [|now apply meq_raise].
  apply meq_keeps. apply keeps_bind; [apply keeps_get_context|]. intros c. cbv zeta.
  apply keeps_bind; [apply keeps_read_ekus|]. intros q. apply keeps_mres.
Qed.

Lemma meq_store_trust r chain : (forall c l, chain = c :: l -> fine c) -> meq (nd_store_verify_trust E U r chain x) (store_verify_trust E r chain x).
Proof.
  intros Fc. unfold nd_store_verify_trust, store_verify_trust. destruct chain as [|root l]; [apply meq_keeps, keeps_raise|].
  pose proof (Fc root l eq_refl) as Fr. apply meq_bind; [now apply meq_is_trusted|]. intros t. destruct (negb t); [now apply meq_raise|].
  apply meq_bind; [apply meq_keeps, keeps_get_store|]. intros s. destruct (s_ctl s) as [ct|]; [|apply meq_keeps, keeps_ret].
  apply meq_bind; [now apply meq_ctl|]. intros _. apply meq_keeps, keeps_ret.
Qed.

Lemma meq_trust_loop chain rs last : (forall c l, chain = c :: l -> fine c) ->
  meq (nd_verify_trust_loop E U x chain rs last) (verify_trust_loop E x chain rs last).
Proof.
  intros Fc. revert last. induction rs as [|r rs IH]; intros last; [apply meq_keeps, keeps_ret|]. cbn [nd_verify_trust_loop verify_trust_loop].
  intros w I. destruct (meq_store_trust r chain Fc w I) as [[-> I']|(w' & e & -> & B & I')].
  - destruct (store_verify_trust E r chain x w) as [w' [b|e]]; cbn [fst] in I'.
    + destruct b; [now apply rel_same|now apply IH].
    + destruct (catches CertificateNotTrustedVerificationError e); [now apply IH|].
      destruct (catches VerificationError e); [now apply IH|now apply rel_same].
  - rewrite (bad_not_caught' U H N e B), (bad_not_caught U H N e B). now apply rel_bad.
Qed.

Lemma meq_verify_trust chain : (forall c l, chain = c :: l -> fine c) -> meq (nd_verify_trust E U x chain) (verify_trust E x chain).
Proof.
  intros Fc. unfold nd_verify_trust, verify_trust. apply meq_bind; [apply meq_keeps, keeps_get_context|]. intros c.
  apply meq_bind; [now apply meq_trust_loop|]. intros [b e]. cbn [fst snd]. destruct b; [apply meq_keeps, keeps_ret|].
  destruct e; apply meq_keeps; [apply keeps_err|apply keeps_raise].
Qed.

(** ** Contexts *)

Lemma iter_keeps r w r' s : nth_error (w_stores w) r' = Some s ->
  exists s', nth_error (w_stores (fst (store_load r w))) r' = Some s' /\ contents s' = contents s /\ s_trusted s' = s_trusted s.
Proof.
  intros Hs. unfold store_load, mbind, get_store.
  destruct (nth_error (w_stores w) r) as [t|] eqn:Es; [|exists s; auto]. destruct (s_location t) as [l|] eqn:El; [|exists s; auto].
  destruct (s_loaded t) eqn:Ed; [exists s; auto|]. rewrite load_files_spec. unfold put_store.
  assert (exists s', nth_error (list_set r (mkStore (s_items t ++ location_certs l) (s_trusted t) (s_ctl t) (Some l) true) (w_stores w)) r' = Some s' /\
    contents s' = contents s /\ s_trusted s' = s_trusted s) as K.
  { rewrite nth_list_set. destruct (Nat.eqb_spec r r') as [->|D]; [|exists s; auto]. rewrite Hs. eexists. split; [reflexivity|].
    rewrite Es in Hs. injection Hs as <-. unfold contents. cbn. now rewrite El, Ed. }
  destruct (location_error l); exact K.
Qed.
Lemma iter_stays rs : forall w r' s, nth_error (w_stores w) r' = Some s ->
  exists s', nth_error (w_stores (fst (iter_stores rs w))) r' = Some s' /\ contents s' = contents s /\ s_trusted s' = s_trusted s.
Proof.
  induction rs as [|r rs IH]; intros w r' s Hs; [exists s; auto|]. cbn [iter_stores]. unfold store_iter, mbind.
  destruct (iter_keeps r w r' s Hs) as (s1 & A1 & A2 & A3). destruct (store_load r w) as [w1 [u|e]]; cbn [fst] in A1; [|exists s1; auto].
  unfold get_store. destruct (nth_error (w_stores w1) r) as [t|]; [|exists s1; auto]. unfold mret.
  destruct (IH w1 r' s1 A1) as (s2 & B1 & B2 & B3). destruct (iter_stores rs w1) as [w2 [l|e]]; cbn [fst] in B1 |- *;
    exists s2; (split; [exact B1|split; congruence]).
Qed.
Lemma iter_pairs rs : forall w w' l, iter_stores rs w = (w', Ok l) ->
  forall r c, In (r, c) l -> exists s, nth_error (w_stores w') r = Some s /\ In c (contents s).
Proof.
  induction rs as [|r rs IH]; intros w w' l K; [injection K as _ <-; intros r c []|]. cbn [iter_stores] in K. unfold store_iter, mbind in K.
  destruct (store_load r w) as [w1 [u|e]] eqn:L; [|discriminate]. unfold get_store in K.
  destruct (nth_error (w_stores w1) r) as [t|] eqn:Et; [|discriminate]. unfold mret in K.
  pose proof (iter_stays rs w1 r t Et) as Q. destruct (iter_stores rs w1) as [w2 [l'|e]] eqn:R; [|discriminate].
  injection K as <- <-. intros r' c Hin. apply in_app_or in Hin. destruct Hin as [Hin|Hin]; [|exact (IH _ _ _ R r' c Hin)].
  apply in_map_iff in Hin. destruct Hin as (d & D & Hd). injection D as <- <-. destruct Q as (s & J1 & J2 & _). exists s. split; [exact J1|].
  rewrite J2. unfold contents. destruct (s_location t); [|exact Hd]. destruct (s_loaded t); [exact Hd|apply in_or_app; now left].
Qed.

Lemma pick_in f l c : In c (pick_by f l) -> exists r, In (r, c) l /\ f r = true.
Proof.
  induction l as [|[r d] l IH]; [intros []|]. cbn [pick_by]. destruct (f r) eqn:Er.
  - intros [<-|K]; [exists r; split; [now left|exact Er]|]. destruct (IH K) as (q & A & B). exists q. split; [now right|exact B].
  - intros K. destruct (IH K) as (q & A & B). exists q. split; [now right|exact B].
Qed.
Lemma by_id_id l i c : by_id l i = Some c -> c_id c = i.
Proof.
  induction l as [|d l IH]; [discriminate|]. cbn [by_id]. destruct (by_id l i) as [y|]; [intros K; injection K as <-; now apply IH|].
  destruct (Z.eqb_spec (c_id d) i); [|discriminate]. intros K. now injection K as <-.
Qed.

Lemma meq_context_verify c : fine c -> meq (nd_context_verify E U x c) (context_verify E x c).
Proof.
  intros Fc. unfold nd_context_verify, context_verify. apply meq_bind; [apply meq_keeps, keeps_get_context|]. intros cx.
  apply meq_bind_world; [apply meq_keeps, keeps_iter_stores|]. intros w w0 pairs Ei I0. cbv zeta.
  set (roots := pick_by (store_trusted w0) pairs). set (inter := pick_by _ pairs).
  match goal with |- rel (?f w0) (?g w0) => assert (meq f g) as K; [|exact (K w0 I0)] end.
  apply meq_bind; [apply meq_keeps, keeps_mres|]. intros _.
  assert (forall d, In d roots -> H -> legible_object U d) as Fr.
  { intros d Hd h. apply pick_in in Hd. destruct Hd as (r & Hr & T). unfold store_trusted in T.
    destruct (iter_pairs _ _ _ _ Ei r d Hr) as (s & Es & Hc). rewrite Es in T. pose proof (proj2 I0 h r s Es T) as K.
    rewrite Forall_forall in K. now apply K. }
  apply (meq_bind_post (fun ids => H -> exists i ids' d, ids = i :: ids' /\ In d roots /\ c_id d = i)).
  - apply meq_try; [|intros e; now apply meq_raise]. apply keeps_bind; [apply keeps_read_key_usages|]. intros ku.
    apply keeps_bind; [apply keeps_read_ekus|]. intros eku. apply keeps_mres.
  - intros w1 w2 ids V h. unfold mtry in V. destruct (mbind (read_key_usages x) _ w1) as [w3 [i|e]] eqn:V3.
    + injection V as <- <-. unfold mbind in V3. destruct (read_key_usages x w1) as [w4 [ku|]]; [|discriminate].
      destruct (read_ekus x w4) as [w5 [eku|]]; [|discriminate]. unfold mres in V3. injection V3 as _ V3. now apply (HR h) in V3.
    + destruct (catches Exception_ e); [|discriminate]. unfold mres, raise_fmt in V. destruct (cert_str c); discriminate.
  - intros ids Kr. apply (meq_bind_post (fun chain => forall d l, chain = d :: l -> fine d)).
    + apply meq_keeps, keeps_mres.
    + intros w1 w2 chain Em d l -> h. unfold mres in Em. injection Em as _ Em.
      destruct (Kr h) as (i & ids' & d' & -> & Hd & Di). cbn [map_ids] in Em.
      destruct (by_id (c :: map snd pairs) i) as [y|] eqn:By; [|discriminate].
      destruct (map_ids (c :: map snd pairs) ids') as [ys|]; [|discriminate]. cbn [rbind] in Em. injection Em as -> _.
      apply by_id_id in By. apply (Fr d' Hd h). congruence.
    + intros chain Fch. apply meq_bind; [now apply meq_verify_trust|]. intros _. apply meq_keeps, keeps_ret.
Qed.

(** ** Searches and signers *)

Lemma meq_find_items {A} i (body body' : cert -> A -> M world A) l :
  fine_signer U H i -> (forall c acc, fine c -> meq (body c acc) (body' c acc)) ->
  forall seen acc, Forall fine seen ->
  meq (nd_find_items E U (nd_by_issuer_serial U i) body l seen acc) (find_items E (by_issuer_serial i) body' l seen acc) /\
  forall w w' p, find_items E (by_issuer_serial i) body' l seen acc w = (w', Ok p) -> Forall fine (fst p).
Proof.
  intros Fi Fb. induction l as [|c l IH]; intros seen acc Fs.
  - split; [apply meq_keeps, keeps_ret|]. intros w w' p K. injection K as _ <-. exact Fs.
  - cbn [nd_find_items find_items]. pose proof (req_matches E U H F i c Fi) as R.
    destruct (query_matches E (by_issuer_serial i) c) eqn:Q.
    + assert (fine c) as Fc.
      { intros h. apply (Fi h). unfold query_matches, by_issuer_serial in Q. cbn [q_subject q_serial q_issuer q_sha256] in Q.
        apply andb_prop in Q as [Q _]. apply andb_prop in Q as [Q _]. cbn [andb] in Q. now apply Z.eqb_eq in Q. }
      pose proof (req_in E U H F c seen Fc Fs) as Rs. destruct (cert_mem c seen) eqn:Q2.
      * split; [|apply IH, Fs]. intros w I. destruct R as [->|(e & -> & D)]; [|now apply rel_bad]. unfold mbind at 1, mres.
        destruct Rs as [->|(e & -> & D)]; [|now apply rel_bad]. unfold mbind at 1. now apply IH.
      * split.
        -- intros w I. destruct R as [->|(e & -> & D)]; [|now apply rel_bad]. unfold mbind at 1, mres.
           destruct Rs as [->|(e & -> & D)]; [|now apply rel_bad]. unfold mbind at 1.
           match goal with |- rel (?f w) (?g w) => assert (meq f g) as K; [|exact (K w I)] end.
           apply meq_bind; [now apply Fb|]. intros acc'. apply IH. apply Forall_app. auto.
        -- intros w w' p K. unfold mbind in K. destruct (body' c acc w) as [w1 [acc'|]]; [|discriminate].
           eapply IH; [|exact K]. apply Forall_app. auto.
    + split; [|apply IH, Fs]. intros w I. destruct R as [->|(e & -> & D)]; [|now apply rel_bad]. unfold mbind at 1, mres. now apply IH.
Qed.

Lemma meq_find_stores {A} i (body body' : cert -> A -> M world A) rs :
  fine_signer U H i -> (forall c acc, fine c -> meq (body c acc) (body' c acc)) ->
  forall seen acc, Forall fine seen ->
  meq (nd_find_stores E U (nd_by_issuer_serial U i) body rs seen acc) (find_stores E (by_issuer_serial i) body' rs seen acc).
Proof.
  intros Fi Fb. induction rs as [|r rs IH]; intros seen acc Fs; [apply meq_keeps, keeps_ret|]. cbn [nd_find_stores find_stores].
  apply meq_bind; [apply meq_keeps, keeps_store_iter|]. intros l.
  apply (meq_bind_post (fun p => Forall fine (fst p))); [now apply meq_find_items| |].
  - eapply (proj2 (meq_find_items i body body' l Fi Fb seen acc Fs)).
  - intros [s a] K. now apply IH.
Qed.

Lemma meq_for {A} i (body body' : cert -> A -> M world A) acc :
  fine_signer U H i -> (forall c acc, fine c -> meq (body c acc) (body' c acc)) ->
  meq (nd_for_certificates E U x (nd_by_issuer_serial U i) body acc) (for_certificates E x (by_issuer_serial i) body' acc).
Proof.
  intros Fi Fb. apply meq_bind; [apply meq_keeps, keeps_get_context|]. intros c. now apply meq_find_stores.
Qed.

Lemma meq_verify_issuer auth i t c : fine c -> meq (nd_verify_issuer E U auth i x t c) (verify_issuer E auth i x t c).
Proof.
  intros Fc. unfold nd_verify_issuer, verify_issuer. cbv zeta. apply meq_bind; [apply meq_keeps, keeps_get_context|]. intros cx.
  apply meq_bind; [apply meq_res; now apply req_verify_issuer_signature|]. intros _.
  apply meq_bind; [|intros _; now apply meq_context_verify].
  destruct (if auth && lifetime_signing c then None else t); apply meq_keeps; [apply keeps_set_timestamp|apply keeps_ret].
Qed.

Lemma meq_body auth i t c acc : fine c -> meq (nd_build_chain_body E U auth i x t c acc) (build_chain_body E auth i x t c acc).
Proof.
  intros Fc w I. unfold nd_build_chain_body, build_chain_body. destruct (meq_verify_issuer auth i t c Fc w I) as [[-> I']|(w' & e & -> & D & I')].
  - destruct (verify_issuer E auth i x t c w) as [w' [ch|e]]; cbn [fst] in I'; [now apply rel_same|].
    destruct (catches VerificationError e); now apply rel_same.
  - rewrite (bad_not_caught U H N e D). now apply rel_bad.
Qed.

Lemma meq_signer auth i t : fine_signer U H i -> meq (nd_signer_verify E U auth i x t) (signer_verify E auth i x t).
Proof.
  intros Fi. unfold nd_signer_verify, signer_verify. apply meq_bind.
  - unfold nd_build_chain, build_chain. apply meq_bind; [apply meq_for; [exact Fi|intros c acc; apply meq_body]|].
    intros [l f]. cbn [fst snd]. destruct f; apply meq_keeps; try apply keeps_ret. apply keeps_err.
  - intros [|ch l]; apply meq_keeps; [apply keeps_raise|apply keeps_ret].
Qed.
End demand.
