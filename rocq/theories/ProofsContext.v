(** Proofs about stores, queries and chain building. *)
From Verif Require Import Base Bytes Monad ModelFile ModelX509 SpecX509 ProofsX509 ProofsX509b
  ModelContext SpecContext ProofsCTL.
From Coq Require Import ZifyBool ZifyNat.

(** ** References *)

Lemma nth_list_set {A} (l : list A) n m a :
  nth_error (list_set n a l) m =
  if Nat.eqb n m then match nth_error l n with Some _ => Some a | None => None end
  else nth_error l m.
Proof.
  revert n m; induction l as [|x l IH]; intros n m; cbn [list_set].
  - destruct n, m; cbn; try reflexivity. now destruct (Nat.eqb n m).
  - destruct n as [|n], m as [|m]; cbn [list_set nth_error Nat.eqb]; try reflexivity. apply IH.
Qed.

Lemma list_set_same {A} (l : list A) n a : nth_error l n = Some a -> list_set n a l = l.
Proof.
  revert n; induction l as [|x l IH]; intros [|n] H; cbn in *; try reflexivity.
  - now injection H as <-.
  - now rewrite IH.
Qed.

Lemma get_store_ok w r s : nth_error (w_stores w) r = Some s -> get_store r w = (w, Ok s).
Proof. unfold get_store. now intros ->. Qed.

Lemma get_context_ok w x c : nth_error (w_contexts w) x = Some c -> get_context x w = (w, Ok c).
Proof. unfold get_context. now intros ->. Qed.

(** ** Loading *)

Lemma load_files_spec l items :
  load_files items l = (items ++ location_certs l, location_error l).
Proof.
  revert items; induction l as [|[cs [e|]] l IH]; intros items; cbn [load_files location_certs location_error].
  - now rewrite app_nil_r.
  - reflexivity.
  - now rewrite IH, app_assoc.
Qed.

Definition loaded (s : store) : store :=
  match s_location s with
  | Some l => mkStore (contents s) (s_trusted s) (s_ctl s) (s_location s) true
  | None => s
  end.
Definition load_error (s : store) : option exn :=
  match s_location s with
  | Some l => if s_loaded s then None else location_error l
  | None => None
  end.
Definition with_store (r : nat) (s : store) (w : world) : world :=
  mkWorld (list_set r s (w_stores w)) (w_contexts w) (w_file w).

Lemma store_load_spec w r s :
  nth_error (w_stores w) r = Some s ->
  store_load r w = (with_store r (loaded s) w,
                    match load_error s with None => Ok tt | Some e => Err e end).
Proof.
  intros H. unfold store_load, mbind. rewrite (get_store_ok _ _ _ H).
  unfold loaded, load_error, contents, with_store.
  destruct s as [items tr ct [l|] ld]; cbn [s_location s_loaded s_items s_trusted s_ctl].
  - destruct ld.
    + rewrite list_set_same by assumption. now destruct w.
    + rewrite load_files_spec. unfold put_store. cbn.
      now destruct (location_error l).
  - rewrite list_set_same by assumption. now destruct w.
Qed.

Lemma nth_with_store w r s s0 m :
  nth_error (w_stores w) r = Some s0 ->
  nth_error (w_stores (with_store r s w)) m = if Nat.eqb r m then Some s else nth_error (w_stores w) m.
Proof.
  intros H. unfold with_store. cbn [w_stores]. rewrite nth_list_set, H. reflexivity.
Qed.

Lemma items_loaded s : s_items (loaded s) = contents s.
Proof.
  unfold loaded, contents. destruct s as [items tr ct [l|] ld]; cbn; [|reflexivity].
  reflexivity.
Qed.

Lemma store_iter_spec w r s :
  nth_error (w_stores w) r = Some s ->
  store_iter r w = (with_store r (loaded s) w,
                    match load_error s with None => Ok (contents s) | Some e => Err e end).
Proof.
  intros H. unfold store_iter, mbind. rewrite (store_load_spec _ _ _ H).
  destruct (load_error s); [reflexivity|].
  rewrite (get_store_ok _ _ (loaded s)).
  - unfold mret. now rewrite items_loaded.
  - rewrite (nth_with_store _ _ _ _ _ H), Nat.eqb_refl. reflexivity.
Qed.

Lemma readable_load_error s : readable s <-> load_error s = None.
Proof.
  unfold readable, load_error. destruct (s_location s) as [l|].
  - destruct (s_loaded s).
    + split; [reflexivity|]. intros _ ? ? H. discriminate H.
    + split; [intros H; now apply H|]. intros H ? E _. now injection E as <-.
  - split; [reflexivity|]. discriminate.
Qed.

(** ** What loading does to the world *)

(** The view of a store that loading preserves. *)
Definition same_view (s s' : store) : Prop :=
  contents s' = contents s /\ s_trusted s' = s_trusted s /\ s_ctl s' = s_ctl s /\
  (readable s -> readable s') /\ (ready s -> s' = s).

Lemma same_view_refl s : same_view s s.
Proof. repeat (split; [reflexivity || auto|]); auto. Qed.

Lemma same_view_trans a b c : same_view a b -> same_view b c -> same_view a c.
Proof.
  intros (A1 & A2 & A3 & A4 & A5) (B1 & B2 & B3 & B4 & B5).
  repeat (split; [congruence || auto|]).
  intros H. rewrite (A5 H) in *. now apply B5.
Qed.

Lemma contents_loaded s : contents (loaded s) = contents s.
Proof. unfold loaded, contents. destruct s as [items tr ct [l|] ld]; reflexivity. Qed.

Lemma same_view_loaded s : same_view s (loaded s).
Proof.
  split; [apply contents_loaded|]. unfold loaded.
  destruct s as [items tr ct [l|] ld]; cbn; repeat (split; [reflexivity|]).
  - split.
    + intros _ ? ? H. discriminate H.
    + intros [H|H]; [discriminate H|]. cbn in H. now subst ld.
  - split; [auto|reflexivity].
Qed.

Definition advance (w w' : world) : Prop :=
  w_contexts w' = w_contexts w /\ w_file w' = w_file w /\
  length (w_stores w') = length (w_stores w) /\
  forall r s, nth_error (w_stores w) r = Some s ->
    exists s', nth_error (w_stores w') r = Some s' /\ same_view s s'.

Lemma advance_refl w : advance w w.
Proof.
  split; [reflexivity|]. split; [reflexivity|]. split; [reflexivity|].
  intros r s H. exists s. split; [assumption|apply same_view_refl].
Qed.

Lemma advance_trans a b c : advance a b -> advance b c -> advance a c.
Proof.
  intros (A1 & A2 & A3 & A4) (B1 & B2 & B3 & B4).
  split; [congruence|]. split; [congruence|]. split; [congruence|].
  intros r s H. destruct (A4 r s H) as (s' & H' & V). destruct (B4 r s' H') as (s'' & H'' & V').
  exists s''. split; [assumption|]. eapply same_view_trans; eassumption.
Qed.

Lemma length_list_set {A} (l : list A) n a : length (list_set n a l) = length l.
Proof. revert n; induction l as [|x l IH]; intros [|n]; cbn; auto. Qed.

Lemma advance_loaded w r s : nth_error (w_stores w) r = Some s -> advance w (with_store r (loaded s) w).
Proof.
  intros H. split; [reflexivity|]. split; [reflexivity|]. split; [apply length_list_set|].
  intros m t Hm. rewrite (nth_with_store _ _ _ _ _ H). destruct (Nat.eqb_spec r m) as [<-|].
  - rewrite H in Hm. injection Hm as <-. exists (loaded s). split; [reflexivity|apply same_view_loaded].
  - exists t. split; [assumption|apply same_view_refl].
Qed.

Definition refs (w : world) (rs : list nat) (l : list store) : Prop :=
  Forall2 (fun r s => nth_error (w_stores w) r = Some s) rs l.

Lemma advance_refs w w' rs l :
  advance w w' -> refs w rs l ->
  exists l', refs w' rs l' /\ Forall2 same_view l l'.
Proof.
  intros A H. induction H as [|r s rs l Hr _ (l' & Hl & Hv)].
  - exists []. split; constructor.
  - destruct A as (_ & _ & _ & A). destruct (A r s Hr) as (s' & Hs & Vs).
    exists (s' :: l'). split; constructor; assumption.
Qed.

Lemma same_view_contents l l' :
  Forall2 same_view l l' -> map contents l' = map contents l.
Proof. induction 1 as [|s s' l l' V _ IH]; cbn; [reflexivity|]. destruct V as (V & _). now rewrite V, IH. Qed.

Lemma same_view_readable l l' : Forall2 same_view l l' -> Forall readable l -> Forall readable l'.
Proof.
  induction 1 as [|s s' l l' V _ IH]; intros F; [constructor|]. inversion F; subst.
  constructor; [apply V; assumption|auto].
Qed.

Lemma ready_readable s : ready s -> readable s.
Proof. intros [H|H] l Hl Hn; congruence. Qed.

Lemma ready_contents s : ready s -> contents s = s_items s.
Proof. unfold contents. intros [H|H]; rewrite H; [reflexivity|]. now destruct (s_location s). Qed.

Lemma ready_loaded s : ready s -> loaded s = s.
Proof. apply same_view_loaded. Qed.

Lemma with_store_same w r s : nth_error (w_stores w) r = Some s -> with_store r s w = w.
Proof. intros H. unfold with_store. rewrite list_set_same by assumption. now destruct w. Qed.

Lemma store_iter_ready w r s :
  nth_error (w_stores w) r = Some s -> ready s -> store_iter r w = (w, Ok (s_items s)).
Proof.
  intros H R. rewrite (store_iter_spec _ _ _ H), (ready_loaded _ R), (with_store_same _ _ _ H).
  rewrite (ready_contents _ R). apply ready_readable, readable_load_error in R. now rewrite R.
Qed.

(** The failure of the first store that cannot be read. *)
Fixpoint first_failure (l : list store) : option exn :=
  match l with
  | [] => None
  | s :: l' => match load_error s with Some e => Some e | None => first_failure l' end
  end.

(** The error met when the stores are read in order: a store that is met again has been
    marked as loaded by then. *)
Lemma iter_stores_spec rs : forall w l,
  refs w rs l ->
  (exists w' l', advance w w' /\ refs w' rs l' /\ Forall2 same_view l l' /\ Forall ready l' /\
    iter_stores rs w = (w', Ok (concat (map (fun p => map (fun c => (fst p, c)) (contents (snd p))) (combine rs l)))))
  \/ (exists w' e, advance w w' /\ iter_stores rs w = (w', Err e)).
Proof.
  induction rs as [|r rs IH]; intros w l H; inversion H as [|? s ? l' Hr Hl]; subst; cbn [iter_stores].
  - left. exists w, []. split; [apply advance_refl|]. repeat (split; [constructor|]). reflexivity.
  - unfold mbind. rewrite (store_iter_spec _ _ _ Hr). pose proof (advance_loaded _ _ _ Hr) as A.
    destruct (load_error s).
    + right. eexists; eexists. split; [exact A|reflexivity].
    + destruct (advance_refs _ _ _ _ A Hl) as (l2 & Hl2 & Hv).
      assert (Hr' : nth_error (w_stores (with_store r (loaded s) w)) r = Some (loaded s)).
      { rewrite (nth_with_store _ _ _ _ _ Hr), Nat.eqb_refl. reflexivity. }
      assert (Rs : ready (loaded s)).
      { unfold loaded. destruct (s_location s) eqn:El; [right; reflexivity|left; assumption]. }
      destruct (IH _ _ Hl2) as [(w' & l3 & A' & Hl3 & Hv3 & R3 & E)|(w' & e & A' & E)]; rewrite E.
      * left. exists w', (loaded s :: l3). split; [eapply advance_trans; eassumption|].
        split.
        { constructor; [|assumption]. destruct A' as (_ & _ & _ & A'). destruct (A' _ _ Hr') as (s' & Hs' & V).
          rewrite Hs'. f_equal. now apply V. }
        split.
        { constructor; [apply same_view_loaded|]. clear -Hv Hv3. revert l3 Hv3.
          induction Hv as [|a b l l' V _ IH]; intros l3 H3; inversion H3; subst; constructor.
          - eapply same_view_trans; eassumption.
          - now apply IH. }
        split; [constructor; assumption|].
        unfold mret. cbn [combine map concat fst snd]. do 3 f_equal.
        f_equal. clear -Hv. revert rs. induction Hv as [|s s' l l' V _ IHv]; intros rs; [reflexivity|].
        destruct rs as [|r rs]; [reflexivity|]. cbn [combine map fst snd]. destruct V as (V & _).
        now rewrite V, IHv.
      * right. exists w', e. split; [eapply advance_trans; eassumption|reflexivity].
Qed.

Lemma readable_advance w w' r s :
  advance w w' -> nth_error (w_stores w) r = Some s -> readable s ->
  exists s', nth_error (w_stores w') r = Some s' /\ readable s' /\ contents s' = contents s.
Proof.
  intros (_ & _ & _ & A) H R. destruct (A r s H) as (s' & Hs & V1 & _ & _ & V4 & _).
  exists s'. auto.
Qed.

(** ** Queries *)

Lemma query_matches_spec E q c : query_matches E q c = true <-> satisfies E q c.
Proof.
  unfold query_matches, satisfies. rewrite !andb_true_iff.
  assert (A : match q_subject q with Some n => name_eqb (c_subject c) n | None => true end = true <->
              forall n, q_subject q = Some n -> rdns (c_subject c) = rdns n).
  { destruct (q_subject q) as [n|]; [rewrite name_eqb_rdns|]; split.
    - intros H ? Ei. now injection Ei as <-.
    - intros H. now apply H.
    - discriminate.
    - reflexivity. }
  assert (B : match q_serial q with Some n => Z.eqb (c_serial c) n | None => true end = true <->
              forall n, q_serial q = Some n -> c_serial c = n).
  { destruct (q_serial q) as [n|]; [rewrite Z.eqb_eq|]; split.
    - intros H ? Ei. now injection Ei as <-.
    - intros H. now apply H.
    - discriminate.
    - reflexivity. }
  assert (C : match q_issuer q with Some n => name_eqb (c_issuer c) n | None => true end = true <->
              forall n, q_issuer q = Some n -> rdns (c_issuer c) = rdns n).
  { destruct (q_issuer q) as [n|]; [rewrite name_eqb_rdns|]; split.
    - intros H ? Ei. now injection Ei as <-.
    - intros H. now apply H.
    - discriminate.
    - reflexivity. }
  assert (D : match q_sha256 q with Some s => String.eqb (fp_norm (sha256_fingerprint E c)) (fp_norm s) | None => true end = true <->
              forall s, q_sha256 q = Some s -> spells s (digits (e_hash E "sha256" (c_der c)))).
  { unfold sha256_fingerprint. destruct (q_sha256 q) as [n|]; [rewrite String.eqb_eq, hex_norm|]; split.
    - intros H ? Ei. injection Ei as <-. now apply spells_hex.
    - intros H. apply spells_hex. now apply H.
    - discriminate.
    - reflexivity. }
  rewrite A, B, C, D. tauto.
Qed.

Lemma cert_mem_spec c l : cert_mem c l = true <-> exists d, In d l /\ cert_eqb c d = true.
Proof. unfold cert_mem. apply existsb_exists. Qed.

Lemma cert_mem_app c l m : cert_mem c (l ++ m) = cert_mem c l || cert_mem c m.
Proof. unfold cert_mem. apply existsb_app. Qed.

(** The certificates not seen before, without repetition. *)
Fixpoint fresh (seen l : list cert) : list cert :=
  match l with
  | [] => []
  | c :: l' => if cert_mem c seen then fresh seen l' else c :: fresh (seen ++ [c]) l'
  end.

Fixpoint mfold {S A} (body : cert -> A -> M S A) (l : list cert) (acc : A) : M S A :=
  match l with
  | [] => mret acc
  | c :: l' => do acc' <- body c acc ; mfold body l' acc'
  end.

Lemma find_items_fold {A} E q (body : cert -> A -> M world A) l :
  forall seen acc w,
  find_items E q body l seen acc w =
  (do a <- mfold body (fresh seen (filter (query_matches E q) l)) acc ;
   mret (seen ++ fresh seen (filter (query_matches E q) l), a)) w.
Proof.
  induction l as [|c l IH]; intros seen acc w; cbn [find_items filter].
  - cbn [fresh mfold]. unfold mbind, mret. now rewrite app_nil_r.
  - destruct (query_matches E q c); [|apply IH]. cbn [fresh].
    destruct (cert_mem c seen); [apply IH|]. cbn [mfold]. unfold mbind.
    destruct (body c acc w) as [w' [a|e]]; [|reflexivity].
    rewrite IH. unfold mbind. rewrite <- app_assoc. reflexivity.
Qed.

Lemma fresh_app seen l m : fresh seen (l ++ m) = fresh seen l ++ fresh (seen ++ fresh seen l) m.
Proof.
  revert seen; induction l as [|c l IH]; intros seen; cbn [app fresh].
  - now rewrite app_nil_r.
  - destruct (cert_mem c seen); [apply IH|]. cbn [app]. now rewrite IH, <- app_assoc.
Qed.

Lemma mfold_app {A} (body : cert -> A -> M world A) l m acc w :
  mfold body (l ++ m) acc w = (do a <- mfold body l acc ; mfold body m a) w.
Proof.
  revert acc w; induction l as [|c l IH]; intros acc w; cbn [app mfold]; [reflexivity|].
  unfold mbind at 1. unfold mbind at 1. unfold mbind. destruct (body c acc w) as [w' [a|e]]; [|reflexivity].
  rewrite IH. reflexivity.
Qed.

Lemma mfold_append l acc (w : world) : mfold (fun c acc => mret (acc ++ [c])) l acc w = (w, Ok (acc ++ l)).
Proof.
  revert acc; induction l as [|c l IH]; intros acc; cbn [mfold].
  - now rewrite app_nil_r.
  - unfold mbind, mret at 1. rewrite IH, <- app_assoc. reflexivity.
Qed.

(** Members, order and coverage of [fresh]. *)
Lemma fresh_subseq seen l : subseq (fresh seen l) l.
Proof.
  revert seen; induction l as [|c l IH]; intros seen; cbn [fresh]; [constructor|].
  destruct (cert_mem c seen); constructor; apply IH.
Qed.

Lemma subseq_filter p l : @subseq cert (filter p l) l.
Proof. induction l as [|c l IH]; cbn [filter]; [constructor|]. destruct (p c); constructor; assumption. Qed.

Lemma subseq_trans {A} (a b c : list A) : subseq a b -> subseq b c -> subseq a c.
Proof.
  intros H1 H2. revert a H1. induction H2 as [m|x l m H IH|x l m H IH]; intros a H1.
  - inversion H1; subst; constructor.
  - inversion H1; subst; try constructor; auto.
  - constructor. now apply IH.
Qed.

Lemma subseq_in {A} (a b : list A) x : subseq a b -> In x a -> In x b.
Proof.
  induction 1 as [l|y l m H IH|y l m H IH]; cbn; [easy| |]; intros Hin.
  - destruct Hin; auto.
  - auto.
Qed.

Lemma fresh_not_seen seen l c : In c (fresh seen l) -> cert_mem c seen = false.
Proof.
  revert seen; induction l as [|d l IH]; intros seen H; cbn [fresh] in H; [destruct H|].
  destruct (cert_mem d seen) eqn:E; [now apply IH|].
  destruct H as [<-|H]; [assumption|]. apply IH in H. rewrite cert_mem_app in H.
  now apply orb_false_iff in H.
Qed.

Lemma fresh_different seen l : all_different (fresh seen l).
Proof.
  revert seen; induction l as [|d l IH]; intros seen; cbn [fresh]; [constructor|].
  destruct (cert_mem d seen) eqn:E; [apply IH|]. constructor; [|apply IH].
  apply Forall_forall. intros c Hc. apply fresh_not_seen in Hc. rewrite cert_mem_app in Hc.
  apply orb_false_iff in Hc. destruct Hc as [_ Hc]. cbn in Hc. rewrite orb_false_r in Hc.
  now rewrite cert_eqb_sym.
Qed.

Lemma fresh_covers seen l c :
  In c l -> cert_mem c seen = true \/ exists d, In d (fresh seen l) /\ cert_eqb c d = true.
Proof.
  revert seen; induction l as [|d l IH]; intros seen H; cbn [fresh]; [destruct H|].
  destruct H as [->|H].
  - destruct (cert_mem c seen) eqn:E; [now left|]. right. exists c. split; [now left|apply cert_eqb_refl].
  - destruct (cert_mem d seen) eqn:E.
    + now apply IH.
    + destruct (IH (seen ++ [d]) H) as [Hs|(e & He & Hd)].
      * rewrite cert_mem_app in Hs. apply orb_true_iff in Hs. destruct Hs as [Hs|Hs]; [now left|].
        cbn in Hs. rewrite orb_false_r in Hs. right. exists d. split; [now left|assumption].
      * right. exists e. split; [now right|assumption].
Qed.

Lemma fresh_first seen l c :
  In c (fresh seen l) <->
  exists pre post, l = pre ++ c :: post /\ Forall (fun d => cert_eqb d c = false) pre /\
                   cert_mem c seen = false.
Proof.
  revert seen; induction l as [|d l IH]; intros seen; cbn [fresh].
  - split; [easy|]. intros ([|? ?] & post & E & _); discriminate E.
  - destruct (cert_mem d seen) eqn:E.
    + rewrite IH. split.
      * intros (pre & post & -> & F & N). exists (d :: pre), post. split; [reflexivity|].
        split; [|assumption]. constructor; [|assumption].
        destruct (cert_eqb d c) eqn:Ed; [|reflexivity]. exfalso.
        apply cert_mem_spec in E. destruct E as (y & Hy & Ey).
        assert (cert_mem c seen = true); [|congruence]. apply cert_mem_spec. exists y.
        split; [assumption|]. rewrite cert_eqb_sym in Ed. eapply cert_eqb_trans; eassumption.
      * intros ([|d' pre] & post & El & F & N).
        -- injection El as -> ->. congruence.
        -- injection El as -> ->. inversion F; subst. exists pre, post. auto.
    + cbn [In]. rewrite IH. split.
      * intros [->|(pre & post & -> & F & N)].
        -- exists [], l. split; [reflexivity|]. split; [constructor|assumption].
        -- rewrite cert_mem_app in N. apply orb_false_iff in N. destruct N as [N N'].
           cbn in N'. rewrite orb_false_r in N'.
           exists (d :: pre), post. split; [reflexivity|]. split; [|assumption].
           constructor; [now rewrite cert_eqb_sym|assumption].
      * intros ([|d' pre] & post & El & F & N).
        -- left. now injection El.
        -- right. injection El as -> ->. inversion F; subst. exists pre, post.
           split; [reflexivity|]. split; [assumption|]. rewrite cert_mem_app, N. cbn.
           rewrite orb_false_r. now rewrite cert_eqb_sym.
Qed.

(** ** find_certificates *)

Definition matching (E : env) (q : query) (l : list store) : list cert :=
  filter (query_matches E q) (concat (map contents l)).

(** With readable stores and a body that only advances the world. *)
Lemma find_stores_spec {A} E q (body : cert -> A -> M world A) (f : cert -> A -> A) :
  (forall c a w, body c a w = (w, Ok (f c a))) ->
  forall rs w l seen acc, refs w rs l -> Forall readable l ->
  exists w', advance w w' /\
  find_stores E q body rs seen acc w =
  (w', Ok (fold_left (fun a c => f c a) (fresh seen (matching E q l)) acc)).
Proof.
  intros Hb. assert (Hf : forall l acc w, mfold body l acc w = (w, Ok (fold_left (fun a c => f c a) l acc))).
  { induction l as [|c l IH]; intros acc w; cbn [mfold fold_left]; [reflexivity|].
    unfold mbind. now rewrite Hb, IH. }
  induction rs as [|r rs IH]; intros w l seen acc H R; inversion H as [|? s ? l' Hr Hl]; subst; cbn [find_stores].
  - exists w. split; [apply advance_refl|reflexivity].
  - inversion R as [|? ? Rs Rl]; subst. unfold mbind at 1. rewrite (store_iter_spec _ _ _ Hr).
    pose proof (advance_loaded _ _ _ Hr) as A1. apply readable_load_error in Rs. rewrite Rs.
    unfold mbind at 1. rewrite find_items_fold. unfold mbind at 1. rewrite Hf. unfold mret. cbn [fst snd].
    destruct (advance_refs _ _ _ _ A1 Hl) as (l2 & Hl2 & Hv).
    destruct (IH _ _ (seen ++ fresh seen (filter (query_matches E q) (contents s)))
      (fold_left (fun a c => f c a) (fresh seen (filter (query_matches E q) (contents s))) acc)
      Hl2 (same_view_readable _ _ Hv Rl)) as (w' & A2 & ->).
    exists w'. split; [eapply advance_trans; eassumption|].
    unfold matching. cbn [map concat]. rewrite filter_app, fresh_app, fold_left_app.
    now rewrite (same_view_contents _ _ Hv).
Qed.

Lemma fold_append (l acc : list cert) : fold_left (fun a c => a ++ [c]) l acc = acc ++ l.
Proof.
  revert acc; induction l as [|c l IH]; intros acc; cbn [fold_left]; [now rewrite app_nil_r|].
  now rewrite IH, <- app_assoc.
Qed.

Lemma find_certificates_spec E w x l q :
  context_stores w x l -> Forall readable l ->
  exists w', advance w w' /\ find_certificates E x q w = (w', Ok (fresh [] (matching E q l))).
Proof.
  intros (c & Hc & Hl) R. unfold find_certificates, for_certificates, mbind at 1.
  rewrite (get_context_ok _ _ _ Hc).
  destruct (find_stores_spec E q (fun c acc => mret (acc ++ [c])) (fun c acc => acc ++ [c])
              (fun _ _ _ => eq_refl) (x_stores c) w l [] [] Hl R) as (w' & A & ->).
  exists w'. split; [assumption|]. now rewrite fold_append.
Qed.

(** The first store that cannot be read makes the search fail with its error. *)
Lemma find_stores_error {A} E q (body : cert -> A -> M world A) (f : cert -> A -> A) :
  (forall c a w, body c a w = (w, Ok (f c a))) ->
  forall rs1 r rs2 w l1 s seen acc e, refs w rs1 l1 -> Forall readable l1 ->
  nth_error (w_stores w) r = Some s -> load_error s = Some e -> ~ In r rs1 ->
  exists w', find_stores E q body (rs1 ++ r :: rs2) seen acc w = (w', Err e).
Proof.
  intros Hb. assert (Hf : forall l acc w, mfold body l acc w = (w, Ok (fold_left (fun a c => f c a) l acc))).
  { induction l as [|c l IH]; intros acc w; cbn [mfold fold_left]; [reflexivity|].
    unfold mbind. now rewrite Hb, IH. }
  induction rs1 as [|r1 rs1 IH]; intros r rs2 w l1 s seen acc e H R Hs He N;
    inversion H as [|? s1 ? l' Hr Hl]; subst; cbn [app find_stores].
  - unfold mbind at 1. rewrite (store_iter_spec _ _ _ Hs), He. eexists; reflexivity.
  - inversion R as [|? ? Rs Rl]; subst. unfold mbind at 1. rewrite (store_iter_spec _ _ _ Hr).
    pose proof (advance_loaded _ _ _ Hr) as A1. apply readable_load_error in Rs. rewrite Rs.
    unfold mbind at 1. rewrite find_items_fold. unfold mbind at 1. rewrite Hf. unfold mret. cbn [fst snd].
    destruct (advance_refs _ _ _ _ A1 Hl) as (l2 & Hl2 & Hv).
    eapply IH; [exact Hl2|now apply (same_view_readable _ _ Hv)| |exact He|].
    + rewrite (nth_with_store _ _ _ _ _ Hr). destruct (Nat.eqb_spec r1 r) as [->|]; [|exact Hs].
      exfalso. apply N. now left.
    + intros Hi. apply N. now right.
Qed.

Lemma in_matching E q l c : In c (matching E q l) <-> In c (concat (map contents l)) /\ satisfies E q c.
Proof. unfold matching. now rewrite filter_In, query_matches_spec. Qed.

Lemma find_certificates_facts E q l :
  subseq (fresh [] (matching E q l)) (concat (map contents l)) /\
  Forall (satisfies E q) (fresh [] (matching E q l)) /\
  all_different (fresh [] (matching E q l)) /\
  (forall c, In c (fresh [] (matching E q l)) ->
     exists pre post, concat (map contents l) = pre ++ c :: post /\
       Forall (fun d => satisfies E q d -> cert_eqb d c = false) pre) /\
  (forall c, In c (concat (map contents l)) -> satisfies E q c ->
     exists d, In d (fresh [] (matching E q l)) /\ cert_eqb c d = true).
Proof.
  split; [eapply subseq_trans; [apply fresh_subseq|apply subseq_filter]|].
  split.
  { apply Forall_forall. intros c Hc. eapply subseq_in in Hc; [|apply fresh_subseq].
    now apply in_matching in Hc. }
  split; [apply fresh_different|]. split.
  - intros c Hc. apply fresh_first in Hc. destruct Hc as (pre & post & Em & F & _).
    revert pre Em F. unfold matching.
    induction (concat (map contents l)) as [|d m IH]; intros pre Em F; cbn [filter] in Em.
    + destruct pre; discriminate Em.
    + destruct (query_matches E q d) eqn:Q.
      * destruct pre as [|p pre]; injection Em as -> Em.
        -- exists [], m. split; [reflexivity|constructor].
        -- inversion F; subst. destruct (IH pre Em) as (p1 & p2 & -> & Hp); [assumption|].
           exists (p :: p1), p2. split; [reflexivity|]. constructor; auto.
      * destruct (IH pre Em F) as (p1 & p2 & -> & Hp). exists (d :: p1), p2.
        split; [reflexivity|]. constructor; [|assumption]. intros S. apply query_matches_spec in S. congruence.
  - intros c Hc S. destruct (fresh_covers [] (matching E q l) c) as [H|H]; [now apply in_matching|discriminate H|exact H].
Qed.

Lemma fresh_firsts (P : cert -> Prop) (p : cert -> bool) : (forall c, p c = true <-> P c) ->
  forall certs earlier seen,
  (forall x, cert_mem x seen = true <-> exists d, In d earlier /\ P d /\ cert_eqb d x = true) ->
  firsts P earlier certs (fresh seen (filter p certs)).
Proof.
  intros Hp. induction certs as [|c certs IH]; intros earlier seen I; cbn [filter]; [constructor|].
  destruct (p c) eqn:Pc.
  - apply Hp in Pc. cbn [fresh]. destruct (cert_mem c seen) eqn:M.
    + apply firsts_skip; [intros _; now apply I|]. apply IH. intros x. rewrite I. split.
      * intros (d & H & Q). exists d. split; [now right|exact Q].
      * intros (d & [->|H] & Q & Eq); [|eauto]. apply I in M. destruct M as (d0 & H0 & Q0 & E0).
        exists d0. split; [exact H0|]. split; [exact Q0|]. eapply cert_eqb_trans; eassumption.
    + apply firsts_take; [exact Pc| |].
      * intros d H Q. destruct (cert_eqb d c) eqn:Eq; [|reflexivity]. rewrite <- M. symmetry. apply I. eauto.
      * apply IH. intros x. rewrite cert_mem_app, orb_true_iff, I. split.
        -- intros [(d & H & Q)|H]; [exists d; split; [now right|exact Q]|].
           exists c. split; [now left|]. split; [exact Pc|]. cbn in H. rewrite orb_false_r in H. now rewrite cert_eqb_sym.
        -- intros (d & [->|H] & Q & Eq); [right|left; eauto]. cbn. now rewrite orb_false_r, cert_eqb_sym.
  - apply firsts_skip; [intros H; apply Hp in H; congruence|]. apply IH. intros x. rewrite I. split.
    + intros (d & H & Q). exists d. split; [now right|exact Q].
    + intros (d & [->|H] & Q & Eq); [apply Hp in Q; congruence|eauto].
Qed.
Lemma firsts_fun P earlier l out out' : firsts P earlier l out -> firsts P earlier l out' -> out = out'.
Proof.
  intros H. revert out'. induction H as [earlier|earlier c l out Pc N H IH|earlier c l out S H IH]; intros out' H'; inversion H' as [|? ? ? ? Pc' N' H1|? ? ? ? S' H1]; subst.
  - reflexivity.
  - f_equal. auto.
  - destruct (S' Pc) as (d & A & B & Q). rewrite (N d A B) in Q. discriminate Q.
  - destruct (S Pc') as (d & A & B & Q). rewrite (N' d A B) in Q. discriminate Q.
  - auto.
Qed.
Lemma firsts_impl (P Q : cert -> Prop) : (forall c, P c <-> Q c) -> forall earlier l out, firsts P earlier l out -> firsts Q earlier l out.
Proof.
  intros E earlier l out H. induction H as [earlier|earlier c l out Pc N H IH|earlier c l out S H IH].
  - constructor.
  - apply firsts_take; [now apply E| |exact IH]. intros d A B. apply N; [exact A|now apply E].
  - apply firsts_skip; [|exact IH]. intros B. apply E in B. destruct (S B) as (d & A & C & F). exists d. split; [exact A|].
    split; [now apply E|exact F].
Qed.
Lemma matching_firsts E q l : firsts (satisfies E q) [] (concat (map contents l)) (fresh [] (matching E q l)).
Proof.
  unfold matching. apply fresh_firsts; [intros c; apply query_matches_spec|].
  intros x. split; [discriminate|]. intros (d & [] & _).
Qed.

(** [find_certificate] *)
Lemma find_certificate_spec E w x l q :
  context_stores w x l -> Forall readable l ->
  exists w', advance w w' /\
  ((exists c, find_certificate E x q w = (w', Ok c) /\ In c (concat (map contents l)) /\ satisfies E q c /\
      (forall d, In d (concat (map contents l)) -> satisfies E q d -> cert_eqb d c = true)) \/
   (exists e, find_certificate E x q w = (w', Err e) /\ e_class e = KeyError /\
      ((forall d, In d (concat (map contents l)) -> ~ satisfies E q d) \/
       (exists c d, In c (concat (map contents l)) /\ In d (concat (map contents l)) /\
          satisfies E q c /\ satisfies E q d /\ cert_eqb c d = false)))).
Proof.
  intros H R. destruct (find_certificates_spec E w x l q H R) as (w' & A & F).
  exists w'. split; [assumption|]. unfold find_certificate, mbind. rewrite F. unfold mres.
  destruct (find_certificates_facts E q l) as (F1 & F2 & F3 & F4 & F5).
  destruct (fresh [] (matching E q l)) as [|c [|d m]]; cbn [the_only].
  - right. eexists. split; [reflexivity|]. split; [reflexivity|]. left. intros d Hd S.
    destruct (F5 d Hd S) as (? & [] & _).
  - left. exists c. split; [reflexivity|]. split; [eapply subseq_in; [exact F1|now left]|].
    split; [now inversion F2|]. intros d Hd S. destruct (F5 d Hd S) as (e & [<-|[]] & He). exact He.
  - right. eexists. split; [reflexivity|]. split; [reflexivity|]. right. exists c, d.
    split; [eapply subseq_in; [exact F1|now left]|]. split; [eapply subseq_in; [exact F1|now right; left]|].
    inversion F2 as [|? ? S1 F2']; subst. inversion F2'; subst. split; [assumption|]. split; [assumption|].
    inversion F3 as [|? ? F3' _]; subst. now inversion F3'.
Qed.
