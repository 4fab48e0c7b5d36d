(** The outcome of verifying a signer, as a function of the context and the stores. *)
From Verif Require Import Base Bytes Monad ModelFile ModelX509 SpecX509 ProofsX509 ProofsX509b
  ModelContext SpecContext ProofsCTL ProofsContext ProofsContext2 ModelPkcs7 ProofsPkcs7b
  ModelAuthenticode SpecAuthenticode ProofsSigner.
From Coq Require Import ZifyBool ZifyNat.

Definition p_ctl (E : env) (cx : context) (t : ctl) (chain : list cert) : res bool :=
  match chain with
  | [] => raise IndexError "list index out of range"
  | root :: _ =>
      let? s := find_subject E t root in
      match s with
      | None => raise_fmt root CTLCertificateVerificationError "The root is not in the certificate trust list"
      | Some s => subject_verify_trust s chain (asked_time E cx) (asked_usages cx)
      end
  end.
Definition p_store (E : env) (cx : context) (s : store) (chain : list cert) : res bool :=
  match chain with
  | [] => raise IndexError "list index out of range"
  | root :: _ =>
      if negb (s_trusted s && cert_mem root (contents s)) then
        raise_fmt root CertificateNotTrustedVerificationError "The certificate is not trusted by the store"
      else match s_ctl s with
           | Some t => let? _ := p_ctl E cx t chain in Ok true
           | None => Ok true
           end
  end.
Fixpoint p_trust_loop (E : env) (cx : context) (chain : list cert) (l : list store) (last : option exn)
  : res (bool * option exn) :=
  match l with
  | [] => Ok (false, last)
  | s :: l' =>
      match p_store E cx s chain with
      | Ok b => if b then Ok (true, last) else p_trust_loop E cx chain l' last
      | Err e =>
          if catches CertificateNotTrustedVerificationError e then p_trust_loop E cx chain l' last
          else if catches VerificationError e then p_trust_loop E cx chain l' (Some e)
          else Err e
      end
  end.
Definition p_trust (E : env) (cx : context) (chain : list cert) (l : list store) : res bool :=
  let? p := p_trust_loop E cx chain l None in
  if fst p then Ok true
  else match snd p with
       | Some e => Err e
       | None => raise CertificateVerificationError "The trust could not be verified"
       end.

(** [context_verify] *)
Definition p_verify (E : env) (l : list store) (c : cert) : M context (list cert) := fun cx =>
  match e_mk_validation E (roots l) (x_timestamp cx) (x_opts cx) c (intermediates l) with
  | Err e => (cx, Err e)
  | Ok _ =>
      (after_usages cx,
       let? ids :=
         match e_validate E (roots l) (x_timestamp cx) (x_opts cx) c (intermediates l)
                 (usage_list (x_key_usages cx)) (asked_usages cx) (x_optional_eku cx) with
         | Ok ids => Ok ids
         | Err e => if catches Exception_ e
                    then raise_fmt c CertificateVerificationError "Chain verification failed" else Err e
         end in
       let? chain := map_ids (c :: concat (map contents l)) ids in
       let? _ := p_trust E (after_usages cx) chain l in
       Ok chain)
  end.

(** [verify_issuer] *)
Definition p_issuer (E : env) (auth : bool) (i : sinfo) (st : option datetime) (l : list store) (c : cert)
  : M context (list cert) := fun cx =>
  match verify_issuer_signature E i c (v_allow_legacy (x_opts cx)) with
  | Err e => (cx, Err e)
  | Ok _ => p_verify E l c (later (effective auth st c) cx)
  end.

Definition p_body (E : env) (auth : bool) (i : sinfo) (st : option datetime) (l : list store) (c : cert)
  (acc : list (list cert) * first_error) : M context (list (list cert) * first_error) := fun cx =>
  match p_issuer E auth i st l c cx with
  | (cx', Ok chain) => (cx', Ok (fst acc ++ [chain], FFalse))
  | (cx', Err e) =>
      if catches VerificationError e
      then (cx', Ok (fst acc, match snd acc with FNone => FErr e | f => f end))
      else (cx', Err e)
  end.

(** [signer_verify]; [cs] are the candidates. *)
Definition p_signer (E : env) (auth : bool) (i : sinfo) (st : option datetime) (l : list store) (cs : list cert)
  : M context (list (list cert)) :=
  do p <- mfold (p_body E auth i st l) cs ([], FNone) ;
  do chains <- match snd p with FErr e => merr e | _ => mret (fst p) end ;
  match chains with
  | [] => mraise SignerInfoVerificationError "No valid certificate chain found to a trust anchor"
  | _ => mret chains
  end.

Definition candidates (E : env) (i : sinfo) (l : list store) : list cert :=
  fresh [] (matching E (by_issuer_serial i) l).

(** ** The trust decision *)

Lemma ctl_verify_trust_pure E t chain w x cx :
  nth_error (w_contexts w) x = Some cx -> stable cx ->
  ctl_verify_trust E t chain x w = (w, p_ctl E cx t chain).
Proof.
  intros Hc S. unfold ctl_verify_trust, p_ctl. destruct chain as [|root rest]; [reflexivity|].
  unfold mbind at 1, mres. destruct (find_subject E t root) as [[s|]|e]; cbn [rbind]; try reflexivity.
  unfold mbind. rewrite (get_context_ok _ _ _ Hc), (read_ekus_stable _ _ _ Hc S). reflexivity.
Qed.

Lemma store_verify_trust_pure E r s chain w x cx :
  nth_error (w_stores w) r = Some s -> ready s -> nth_error (w_contexts w) x = Some cx -> stable cx ->
  store_verify_trust E r chain x w = (w, p_store E cx s chain).
Proof.
  intros Hr R Hc S. unfold store_verify_trust, p_store. destruct chain as [|root rest]; [reflexivity|].
  unfold store_is_trusted, mbind. rewrite (get_store_ok _ _ _ Hr). unfold mret. rewrite (ready_contents _ R).
  destruct (negb (s_trusted s && cert_mem root (s_items s))); [reflexivity|].
  rewrite (get_store_ok _ _ _ Hr). destruct (s_ctl s) as [t|]; [|reflexivity].
  rewrite (ctl_verify_trust_pure E t _ w x cx Hc S). now destruct (p_ctl E cx t (root :: rest)).
Qed.

Lemma verify_trust_loop_pure E x chain rs : forall w l last cx,
  refs w rs l -> Forall ready l -> nth_error (w_contexts w) x = Some cx -> stable cx ->
  verify_trust_loop E x chain rs last w = (w, p_trust_loop E cx chain l last).
Proof.
  induction rs as [|r rs IH]; intros w l last cx H R Hc S; inversion H as [|? s ? l' Hr Hl]; subst;
    cbn [verify_trust_loop p_trust_loop]; [reflexivity|].
  inversion R as [|? ? Rs Rl]; subst. rewrite (store_verify_trust_pure E r s chain w x cx Hr Rs Hc S).
  destruct (p_store E cx s chain) as [b|e].
  - destruct b; [reflexivity|]. now apply IH.
  - destruct (catches CertificateNotTrustedVerificationError e); [now apply IH|].
    destruct (catches VerificationError e); [now apply IH|reflexivity].
Qed.

Lemma verify_trust_pure E x chain w l cx :
  refs w (x_stores cx) l -> Forall ready l -> nth_error (w_contexts w) x = Some cx -> stable cx ->
  verify_trust E x chain w = (w, p_trust E cx chain l).
Proof.
  intros H R Hc S. unfold verify_trust, p_trust, mbind. rewrite (get_context_ok _ _ _ Hc).
  rewrite (verify_trust_loop_pure E x chain _ w l None cx H R Hc S).
  destruct (p_trust_loop E cx chain l None) as [[b o]|e]; cbn [rbind fst snd]; [|reflexivity].
  destruct b; [reflexivity|]. now destruct o.
Qed.

Lemma p_store_view E cx s s' chain : same_view s s' -> p_store E cx s' chain = p_store E cx s chain.
Proof. intros (V1 & V2 & V3 & _). unfold p_store. now rewrite V1, V2, V3. Qed.

Lemma p_trust_view E cx chain l l' : Forall2 same_view l l' -> p_trust E cx chain l' = p_trust E cx chain l.
Proof.
  intros V. unfold p_trust.
  assert (G : forall last, p_trust_loop E cx chain l' last = p_trust_loop E cx chain l last).
  { induction V as [|s s' l l' Vs _ IH]; intros last; cbn [p_trust_loop]; [reflexivity|].
    rewrite (p_store_view E cx s s' chain Vs). destruct (p_store E cx s chain) as [[]|e]; rewrite ?IH; reflexivity. }
  now rewrite G.
Qed.

Lemma p_verify_view E l l' c cx : Forall2 same_view l l' -> p_verify E l' c cx = p_verify E l c cx.
Proof.
  intros V. unfold p_verify.
  pose proof (same_view_filter (fun b => b) l l' V) as F1. pose proof (same_view_filter negb l l' V) as F2.
  cbn beta in F1. unfold roots, intermediates. rewrite F1, F2.
  destruct (e_mk_validation _ _ _ _ _ _); [|reflexivity]. f_equal.
  destruct (match e_validate _ _ _ _ _ _ _ _ _ with Ok ids => Ok ids | Err e => _ end) as [ids|e]; cbn [rbind]; [|reflexivity].
  rewrite (same_view_contents _ _ V). destruct (map_ids _ ids) as [ch|e]; cbn [rbind]; [|reflexivity].
  now rewrite (p_trust_view E _ ch l l' V).
Qed.

(** ** [context_verify] *)

Lemma iter_stores_readable rs : forall w l,
  refs w rs l -> Forall readable l ->
  exists w' l', advance w w' /\ refs w' rs l' /\ Forall2 same_view l l' /\ Forall ready l' /\
    iter_stores rs w = (w', Ok (concat (map (fun p => map (fun c => (fst p, c)) (contents (snd p))) (combine rs l)))).
Proof.
  intros w l H R. destruct (iter_stores_spec rs w l H) as [D|(w' & e & _ & D)]; [exact D|]. exfalso.
  revert w l H R w' e D. induction rs as [|r rs IH]; intros w l H R w' e D;
    inversion H as [|? s ? l' Hr Hl]; subst; cbn [iter_stores] in D.
  - discriminate D.
  - inversion R as [|? ? Rs Rl]; subst. unfold mbind at 1 in D. rewrite (store_iter_spec _ _ _ Hr) in D.
    pose proof (advance_loaded _ _ _ Hr) as A1. apply readable_load_error in Rs. rewrite Rs in D.
    destruct (advance_refs _ _ _ _ A1 Hl) as (l2 & Hl2 & Hv). unfold mbind in D.
    destruct (iter_stores rs (with_store r (loaded s) w)) as [w2 [a|e2]] eqn:Ei; [discriminate D|].
    exact (IH _ _ Hl2 (same_view_readable _ _ Hv Rl) _ _ Ei).
Qed.

(** The world with another context at [x], and stores of which only loading has changed. *)
Definition turned (x : nat) (cx : context) (w w' : world) : Prop :=
  views w w' /\ w_contexts w' = list_set x cx (w_contexts w).

Lemma turned_nth x cx0 cx w w' :
  nth_error (w_contexts w) x = Some cx0 -> turned x cx w w' -> nth_error (w_contexts w') x = Some cx.
Proof. intros H [_ ->]. now apply (nth_list_set_same _ _ cx0). Qed.

Lemma turned_refl x cx w : nth_error (w_contexts w) x = Some cx -> turned x cx w w.
Proof. intros H. split; [apply views_refl|]. now rewrite list_set_same. Qed.

Lemma turned_trans x cx cx' a b c : turned x cx a b -> turned x cx' b c -> turned x cx' a c.
Proof.
  intros [V1 E1] [V2 E2]. split; [eapply views_trans; eassumption|]. now rewrite E2, E1, list_set_set.
Qed.

Lemma turned_with x cx w : turned x cx w (with_context x cx w).
Proof. split; [exact (views_refl w)|reflexivity]. Qed.

Lemma turned_advance x cx a b c : turned x cx a b -> advance b c -> turned x cx a c.
Proof.
  intros [V1 E1] A. apply advance_views in A. destruct A as [E2 V2].
  split; [eapply views_trans; eassumption|congruence].
Qed.

Lemma context_verify_pure E x c w cx l :
  nth_error (w_contexts w) x = Some cx -> refs w (x_stores cx) l -> Forall readable l ->
  exists w', turned x (fst (p_verify E l c cx)) w w' /\
  context_verify E x c w = (w', snd (p_verify E l c cx)).
Proof.
  intros Hc Hr R. unfold context_verify, mbind at 1. rewrite (get_context_ok _ _ _ Hc).
  unfold mbind at 1. destruct (iter_stores_readable (x_stores cx) w l Hr R) as (w1 & l1 & A & Hr1 & V & Ry & ->).
  assert (Hlen : length (x_stores cx) = length l) by (clear -Hr; induction Hr; cbn; congruence).
  pose proof (pick_by_stores w1 (fun b => b) _ _ _ Hr1 V) as P1. cbn beta in P1.
  change (fun r => store_trusted w1 r) with (store_trusted w1) in P1. rewrite P1.
  rewrite (pick_by_stores w1 negb _ _ _ Hr1 V). rewrite (iter_pairs_snd _ _ Hlen).
  fold (roots l) (intermediates l). cbv zeta. unfold p_verify. unfold mbind at 1, mres at 1.
  assert (Hc1 : nth_error (w_contexts w1) x = Some cx) by (destruct A as (-> & _); assumption).
  destruct (e_mk_validation E (roots l) (x_timestamp cx) (x_opts cx) c (intermediates l)) as [[]|e].
  2: { exists w1. split; [|reflexivity]. eapply turned_advance; [now apply turned_refl|exact A]. }
  destruct (read_usages w1 x cx Hc1) as (w2 & Eu1 & Eu2).
  exists (with_context x (after_usages cx) w1). cbn [fst snd]. split.
  { eapply turned_trans; [eapply turned_advance; [apply turned_refl; exact Hc|exact A]|apply turned_with]. }
  unfold mbind at 1, mtry, mbind at 1. rewrite Eu1. unfold mbind at 1. rewrite Eu2. unfold mres at 1 2.
  assert (Hc2 : nth_error (w_contexts (with_context x (after_usages cx) w1)) x = Some (after_usages cx)).
  { now apply (with_context_nth _ cx). }
  destruct (e_validate E _ _ _ c _ _ _ _) as [ids|e]; cbn [rbind].
  2: { destruct (catches Exception_ e); [|reflexivity].
       destruct (raise_fmt c CertificateVerificationError "Chain verification failed") as [a|e'] eqn:Ef; [|reflexivity].
       now apply raise_fmt_not_ok in Ef. }
  unfold mbind at 1, mres at 1. destruct (map_ids (c :: concat (map contents l)) ids) as [ch|e]; cbn [rbind]; [|reflexivity].
  unfold mbind. rewrite (verify_trust_pure E x ch _ l1 (after_usages cx)); auto.
  - rewrite (p_trust_view E (after_usages cx) ch l l1 V).
    destruct (p_trust E (after_usages cx) ch l); reflexivity.
  - apply after_usages_stable.
Qed.

Lemma verify_issuer_pure E auth i x st c w cx l :
  nth_error (w_contexts w) x = Some cx -> refs w (x_stores cx) l -> Forall readable l ->
  exists w', turned x (fst (p_issuer E auth i st l c cx)) w w' /\
  verify_issuer E auth i x st c w = (w', snd (p_issuer E auth i st l c cx)).
Proof.
  intros Hc Hr R. rewrite (verify_issuer_step E auth i x st c w cx Hc). unfold p_issuer.
  destruct (verify_issuer_signature E i c (v_allow_legacy (x_opts cx))).
  - destruct (context_verify_pure E x c (with_context x (later (effective auth st c) cx) w)
                (later (effective auth st c) cx) l) as (w' & Tw & ->).
    + now apply (with_context_nth _ cx).
    + assert (x_stores (later (effective auth st c) cx) = x_stores cx) as -> by now destruct (effective auth st c).
      exact Hr.
    + exact R.
    + exists w'. split; [|reflexivity]. eapply turned_trans; [apply turned_with|exact Tw].
  - exists w. split; [now apply turned_refl|reflexivity].
Qed.

(** ** The search *)

Lemma p_verify_stores E l c cx : x_stores (fst (p_verify E l c cx)) = x_stores cx.
Proof. unfold p_verify. now destruct (e_mk_validation E (roots l) (x_timestamp cx) (x_opts cx) c (intermediates l)). Qed.

Lemma p_issuer_stores E auth i st l c cx : x_stores (fst (p_issuer E auth i st l c cx)) = x_stores cx.
Proof.
  unfold p_issuer. destruct (verify_issuer_signature _ _ _ _); [|reflexivity].
  rewrite p_verify_stores. now destruct (effective auth st c).
Qed.

Lemma p_body_stores E auth i st l c acc cx : x_stores (fst (p_body E auth i st l c acc cx)) = x_stores cx.
Proof.
  unfold p_body. pose proof (p_issuer_stores E auth i st l c cx) as H.
  destruct (p_issuer E auth i st l c cx) as [cx' [ch|e]]; cbn [fst] in *; [assumption|].
  destruct (catches VerificationError e); assumption.
Qed.

Lemma find_stores_pure {A} E q (body : cert -> A -> M world A) (pb : cert -> A -> M context A) x w0 cx0 :
  nth_error (w_contexts w0) x = Some cx0 ->
  (forall c acc w cx, turned x cx w0 w -> x_stores cx = x_stores cx0 ->
     x_stores (fst (pb c acc cx)) = x_stores cx0 /\
     exists w', turned x (fst (pb c acc cx)) w w' /\ body c acc w = (w', snd (pb c acc cx))) ->
  forall rs l seen acc w cx, refs w0 rs l -> Forall readable l -> turned x cx w0 w -> x_stores cx = x_stores cx0 ->
  exists w', turned x (fst (mfold pb (fresh seen (matching E q l)) acc cx)) w w' /\
  find_stores E q body rs seen acc w = (w', snd (mfold pb (fresh seen (matching E q l)) acc cx)).
Proof.
  intros Hx Hb.
  assert (G : forall cs acc w cx, turned x cx w0 w -> x_stores cx = x_stores cx0 ->
     x_stores (fst (mfold pb cs acc cx)) = x_stores cx0 /\
     exists w', turned x (fst (mfold pb cs acc cx)) w w' /\ mfold body cs acc w = (w', snd (mfold pb cs acc cx))).
  { induction cs as [|c cs IH]; intros acc w cx Tw Sx; cbn [mfold].
    - split; [assumption|]. exists w. split; [|reflexivity]. apply turned_refl. eapply turned_nth; eassumption.
    - destruct (Hb c acc w cx Tw Sx) as (S1 & w1 & T1 & E1). unfold mbind. rewrite E1.
      destruct (pb c acc cx) as [cx1 [a1|e1]]; cbn [fst snd] in *.
      + destruct (IH a1 w1 cx1 (turned_trans _ _ _ _ _ _ Tw T1) S1) as (S2 & w2 & T2 & E2).
        split; [assumption|]. exists w2. split; [eapply turned_trans; eassumption|assumption].
      + split; [assumption|]. exists w1. split; [assumption|reflexivity]. }
  induction rs as [|r rs IH]; intros l seen acc w cx H R Tw Sx; inversion H as [|? s ? l' Hr Hl]; subst;
    cbn [find_stores].
  - exists w. split; [|reflexivity]. apply turned_refl. eapply turned_nth; eassumption.
  - inversion R as [|? ? Rs Rl]; subst.
    pose proof Tw as [(_ & _ & V) _]. destruct (V r s Hr) as (s1 & Hs1 & (V1 & V2 & V3 & V4 & V5)).
    unfold mbind at 1. rewrite (store_iter_spec _ _ _ Hs1).
    apply V4, readable_load_error in Rs. rewrite Rs, V1.
    unfold mbind at 1. rewrite find_items_fold. unfold mbind at 1.
    pose proof (advance_loaded _ _ _ Hs1) as A1.
    pose proof (turned_advance _ _ _ _ _ Tw A1) as T1.
    destruct (G (fresh seen (filter (query_matches E q) (contents s))) acc _ cx T1 Sx) as (S2 & w2 & T2 & E2).
    unfold matching. cbn [map concat]. rewrite filter_app, fresh_app.
    assert (MA : forall l1 l2 acc cx, mfold pb (l1 ++ l2) acc cx = (do a <- mfold pb l1 acc ; mfold pb l2 a) cx).
    { clear. induction l1 as [|c l1 IH]; intros l2 acc cx; [reflexivity|]. cbn [app mfold]. unfold mbind.
      destruct (pb c acc cx) as [cx' [a|e]]; [|reflexivity]. rewrite IH. reflexivity. }
    rewrite MA. unfold mbind. cbv beta. rewrite ?E2.
    assert (Tw1 : turned x cx w (with_store r (loaded s1) w)).
    { eapply turned_advance; [|exact A1]. apply turned_refl. eapply turned_nth; eassumption. }
    destruct (mfold pb (fresh seen (filter (query_matches E q) (contents s))) acc cx) as [cx2 [a2|e2]]; cbn [fst snd] in *.
    + unfold mret. cbn [fst snd].
      destruct (IH l' (seen ++ fresh seen (filter (query_matches E q) (contents s))) a2 w2 cx2 Hl Rl
        (turned_trans _ _ _ _ _ _ T1 T2) S2) as (w3 & T3 & E3).
      exists w3. split; [|exact E3].
      eapply turned_trans; [exact Tw1|]. eapply turned_trans; eassumption.
    + exists w2. split; [|reflexivity]. eapply turned_trans; eassumption.
Qed.

Theorem signer_verify_pure E auth i x st w cx l :
  nth_error (w_contexts w) x = Some cx -> refs w (x_stores cx) l -> Forall readable l ->
  exists w', turned x (fst (p_signer E auth i st l (candidates E i l) cx)) w w' /\
  signer_verify E auth i x st w = (w', snd (p_signer E auth i st l (candidates E i l) cx)).
Proof.
  intros Hc Hr R. unfold signer_verify, build_chain, for_certificates, p_signer.
  unfold mbind. rewrite (get_context_ok _ _ _ Hc).
  destruct (find_stores_pure E (by_issuer_serial i) (build_chain_body E auth i x st) (p_body E auth i st l) x w cx Hc)
    with (rs := x_stores cx) (l := l) (seen := @nil cert) (acc := (@nil (list cert), FNone)) (w := w) (cx := cx)
    as (w' & Tw & ->); auto.
  - intros c acc w1 cx1 T1 S1. split; [now rewrite p_body_stores|].
    pose proof T1 as [V1 _]. destruct (views_refs _ _ _ _ V1 Hr) as (l1 & Hr1 & Vl).
    destruct (verify_issuer_pure E auth i x st c w1 cx1 l1) as (w2 & T2 & E2).
    + eapply turned_nth; eassumption.
    + now rewrite S1.
    + eapply same_view_readable; eassumption.
    + assert (p_issuer E auth i st l1 c cx1 = p_issuer E auth i st l c cx1) as G.
      { unfold p_issuer. now rewrite (p_verify_view E l l1 c _ Vl). }
      rewrite G in *. exists w2. unfold build_chain_body. rewrite E2. unfold p_body.
      destruct (p_issuer E auth i st l c cx1) as [cx2 [ch|e]]; cbn [fst snd] in *.
      * split; [assumption|reflexivity].
      * destruct (catches VerificationError e); split; auto.
  - now apply turned_refl.
  - exists w'. fold (candidates E i l) in *.
    destruct (mfold (p_body E auth i st l) (candidates E i l) ([], FNone) cx) as [cx' [[chs f]|e]]; cbn [fst snd] in *.
    + destruct f; cbn; try (split; [assumption|reflexivity]); destruct chs; split; auto.
    + split; [assumption|reflexivity].
Qed.

(** ** Independent verdicts *)

Lemma repeatable_after cx : repeatable cx -> after_usages cx = cx.
Proof.
  intros [H1 H2]. destruct cx as [a b [[o1 k]|] [[o2 e]|] f g]; unfold after_usages; cbn in *;
    try specialize (H1 _ eq_refl); try specialize (H2 _ eq_refl); cbn in *; subst; reflexivity.
Qed.

Lemma repeatable_later t cx : repeatable cx -> repeatable (later t cx).
Proof. now destruct t. Qed.

Lemma p_verify_repeatable E l c cx : repeatable cx -> fst (p_verify E l c cx) = cx.
Proof.
  intros R. unfold p_verify. destruct (e_mk_validation _ _ _ _ _ _); cbn [fst]; [now apply repeatable_after|reflexivity].
Qed.

Lemma later_later t cx : later t (later t cx) = later t cx.
Proof. now destruct t. Qed.

Lemma later_opts t cx : x_opts (later t cx) = x_opts cx.
Proof. now destruct t. Qed.

(** The fold, when the verdicts of the candidates do not depend on its state. *)
Lemma mfold_verdicts E auth i st l (I : context -> Prop) (verdict : cert -> res (list cert)) :
  forall cs,
  (forall c cx, In c cs -> I cx -> snd (p_issuer E auth i st l c cx) = verdict c /\ I (fst (p_issuer E auth i st l c cx))) ->
  forall acc cx, I cx ->
  I (fst (mfold (p_body E auth i st l) cs acc cx)) /\
  ((Forall (fun c => harmless (verdict c)) cs /\
    snd (mfold (p_body E auth i st l) cs acc cx) =
    Ok (fst acc ++ oks (map verdict cs),
        match oks (map verdict cs) with
        | _ :: _ => FFalse
        | [] => match snd acc, map verdict cs with FNone, Err e :: _ => FErr e | f, _ => f end
        end)) \/
   (exists pre c post e, cs = pre ++ c :: post /\ Forall (fun c => harmless (verdict c)) pre /\
      verdict c = Err e /\ issubclass (e_class e) VerificationError = false /\
      snd (mfold (p_body E auth i st l) cs acc cx) = Err e)).
Proof.
  induction cs as [|c cs IH]; intros Hv acc cx Hi; cbn [mfold].
  - split; [assumption|]. left. split; [constructor|]. cbn. rewrite app_nil_r. destruct acc as [a []]; reflexivity.
  - destruct (Hv c cx (or_introl eq_refl) Hi) as [Ev I1]. unfold mbind.
    assert (IH' := IH (fun c0 cx0 H => Hv c0 cx0 (or_intror H))). clear IH.
    unfold p_body at 1 3 5. destruct (p_issuer E auth i st l c cx) as [cx1 [ch|e]] eqn:Ep; cbn [fst snd] in *.
    + destruct (IH' (fst acc ++ [ch], FFalse) cx1 I1) as [I2 D]. split; [exact I2|].
      destruct D as [[F D]|(pre & c' & post & e & -> & F & D)].
      * left. split; [constructor; [intros e He; congruence|assumption]|]. rewrite D. cbn [fst snd map].
        rewrite <- Ev. cbn [oks flat_map]. rewrite <- app_assoc. cbn [app]. f_equal. f_equal.
        fold (oks (map verdict cs)). destruct (oks (map verdict cs)); reflexivity.
      * right. exists (c :: pre), c', post, e. split; [reflexivity|]. split; [|exact D].
        constructor; [intros e' He; congruence|assumption].
    + destruct (catches VerificationError e) eqn:Ec.
      * destruct (IH' (fst acc, match snd acc with FNone => FErr e | f => f end) cx1 I1) as [I2 D]. split; [exact I2|].
        assert (Hh : harmless (verdict c)) by (intros e' He; rewrite <- Ev in He; injection He as <-; exact Ec).
        destruct D as [[F D]|(pre & c' & post & e0 & -> & F & D)].
        -- left. split; [now constructor|]. rewrite D. cbn [fst snd map]. rewrite <- Ev. cbn [oks flat_map app].
           f_equal. f_equal. fold (oks (map verdict cs)). destruct (oks (map verdict cs)); [|reflexivity].
           destruct (snd acc); try reflexivity.
        -- right. exists (c :: pre), c', post, e0. split; [reflexivity|]. split; [|exact D]. now constructor.
      * split; [exact I1|]. right. exists [], c, cs, e. split; [reflexivity|]. split; [constructor|].
        split; [now symmetry|]. split; [exact Ec|reflexivity].
Qed.

(** The signing time applies to all candidates in the same way. *)
Definition uniform (auth : bool) (st : option datetime) (cs : list cert) : Prop :=
  exists t, forall c, In c cs -> effective auth st c = t.

Lemma p_signer_verdicts E auth i st l cs cx :
  repeatable cx -> uniform auth st cs ->
  let verdict c := snd (p_issuer E auth i st l c cx) in
  let r := snd (p_signer E auth i st l cs cx) in
  (Forall (fun c => harmless (verdict c)) cs ->
   (oks (map verdict cs) <> [] -> r = Ok (oks (map verdict cs))) /\
   (forall c cs' e, cs = c :: cs' -> oks (map verdict cs) = [] -> verdict c = Err e -> r = Err e) /\
   (cs = [] -> exists m, r = raise SignerInfoVerificationError m)) /\
  (forall pre c post e, cs = pre ++ c :: post -> Forall (fun c => harmless (verdict c)) pre ->
     verdict c = Err e -> issubclass (e_class e) VerificationError = false -> r = Err e).
Proof.
  intros R (t & U) verdict r.
  set (I := fun k : context => k = cx \/ k = later t cx).
  assert (Hv : forall c k, In c cs -> I k ->
            snd (p_issuer E auth i st l c k) = verdict c /\ I (fst (p_issuer E auth i st l c k))).
  { intros c k Hc [->| ->]; unfold verdict, p_issuer; rewrite (U c Hc), ?later_opts, ?later_later.
    - split; [reflexivity|]. destruct (verify_issuer_signature _ _ _ _); cbn [fst]; [|now left].
      right. apply p_verify_repeatable. now apply repeatable_later.
    - destruct (verify_issuer_signature _ _ _ _); cbn [fst snd]; (split; [reflexivity|]); [|now right].
      right. apply p_verify_repeatable. now apply repeatable_later. }
  destruct (mfold_verdicts E auth i st l I verdict cs Hv ([], FNone) cx (or_introl eq_refl)) as [_ D].
  unfold r, p_signer, mbind.
  destruct (mfold (p_body E auth i st l) cs ([], FNone) cx) as [cx' m]; cbn [fst snd] in D.
  destruct D as [[F ->]|(pre & c & post & e & -> & F & Ev & Ec & ->)].
  - split.
    + intros _. cbn [app snd fst].
      split; [|split].
      * intros N. destruct (oks (map verdict cs)) as [|a o]; [now contradiction N|]. reflexivity.
      * intros c cs' e -> O Ev. rewrite O. cbn [map]. rewrite Ev. reflexivity.
      * intros ->. eexists. reflexivity.
    + intros pre c post e -> _ Ev Ec. exfalso. apply Forall_app in F. destruct F as [_ F]. inversion F as [|? ? H _]; subst.
      specialize (H e Ev). congruence.
  - split.
    + intros F'. exfalso. apply Forall_app in F'. destruct F' as [_ F']. inversion F' as [|? ? H _]; subst.
      specialize (H e Ev). congruence.
    + intros pre' c' post' e' El F' Ev' Ec'. cbn [snd].
      assert (pre' = pre /\ c' = c) as [-> ->].
      { clear -El F F' Ev Ec Ev' Ec'. revert pre' El F'. induction pre as [|a pre IH]; intros pre' El F'.
        - destruct pre' as [|b pre']; [injection El as -> _; auto|]. injection El as -> _. inversion F' as [|? ? H _]; subst.
          specialize (H e Ev). congruence.
        - inversion F as [|? ? Ha Fp]; subst. destruct pre' as [|b pre']; injection El as -> El.
          + specialize (Ha e' Ev'). congruence.
          + inversion F' as [|? ? Hb Fp']; subst. destruct (IH Fp pre' El Fp') as [-> ->]. auto. }
      congruence.
Qed.

Lemma str_mem_in s l : str_mem s l = true <-> In s l.
Proof.
  unfold str_mem. rewrite existsb_exists. split.
  - intros (y & H & E). apply String.eqb_eq in E. now subst.
  - intros H. exists s. split; [assumption|apply String.eqb_refl].
Qed.

Lemma lifetime_spec c : lifetime_signing c = true <-> lifetime c.
Proof.
  unfold lifetime_signing, lifetime. destruct (c_eku c) as [us|].
  - rewrite str_mem_in. split; [eauto|]. intros (v & H & I). injection H as <-. assumption.
  - split; [discriminate|]. intros (v & H & _). discriminate H.
Qed.

Lemma candidates_list E i l : candidate_list i (concat (map contents l)) (candidates E i l).
Proof.
  unfold candidate_list, candidates. eapply firsts_impl; [|apply matching_firsts].
  intros c. apply named_satisfies.
Qed.

Lemma candidates_in E i l c : In c (candidates E i l) -> In c (concat (map contents l)) /\ named i c.
Proof.
  destruct (find_certificates_facts E (by_issuer_serial i) l) as (H1 & H2 & _). intros H. split.
  - eapply subseq_in; eassumption.
  - rewrite Forall_forall in H2. apply (named_satisfies E). auto.
Qed.

Lemma same_time_uniform E auth st i l :
  same_time auth st i (concat (map contents l)) -> uniform auth st (candidates E i l).
Proof.
  intros [->|[->|[H|H]]].
  - exists st. reflexivity.
  - exists None. intros c _. unfold effective. now destruct (auth && lifetime_signing c).
  - destruct auth; [|exists st; reflexivity]. exists None. intros c Hc. destruct (candidates_in _ _ _ _ Hc) as [I N].
    unfold effective. specialize (H c I N). apply lifetime_spec in H. now rewrite H.
  - exists st. intros c Hc. destruct (candidates_in _ _ _ _ Hc) as [I N].
    unfold effective. destruct (lifetime_signing c) eqn:L; [|now rewrite andb_false_r].
    apply lifetime_spec in L. now elim (H c I N).
Qed.
