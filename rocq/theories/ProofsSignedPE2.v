(** Verification of all signatures of a file: the choice, the hashes, the loop. *)
From Verif Require Import Base Bytes Monad ModelFile ModelFingerprint SpecFingerprint ProofsFingerprint ProofsFingerprint2 ProofsFingerprint3
  ModelPE SpecPE ProofsPE ProofsPE2 ProofsPE3 ModelX509 SpecX509 ProofsX509 ProofsX509b
  ModelContext SpecContext ModelPkcs7 SpecPkcs7 ProofsPkcs7 ProofsPkcs7b
  ModelAuthenticode SpecAuthenticode ProofsVerify ProofsVerify2 ProofsVerify3 ProofsVerify4 ProofsVerify5 SpecSignedPE ProofsSignedPE.
From Coq Require Import ZifyBool ZifyNat.

(** ** The loop *)

Definition conj_mode (mode : string) : bool := String.eqb mode "all" || String.eqb mode "first".

Lemma conj_mode_spec mode : conj_mode mode = true <-> conjunctive mode.
Proof. unfold conj_mode, conjunctive. rewrite orb_true_iff, !String.eqb_eq. reflexivity. Qed.

Section verify_loop.
Context {A B : Type} (mode : string) (one : A -> M world B).

Lemma conj_loop : conj_mode mode = true -> forall l chains w,
  let vs := verdicts one l w in
  (exists out, snd (verify_loop mode one l chains None w) = Ok (chains ++ out) /\
     map (fun ab => (fst ab, Ok (snd ab))) out = vs) \/
  (exists pre a e post, vs = pre ++ (a, Err e) :: post /\ Forall succeeds pre /\
     snd (verify_loop mode one l chains None w) = Err e).
Proof.
  intros Hm. induction l as [|a l IH]; intros chains w; cbn [verify_loop verdicts].
  - left. exists []. rewrite app_nil_r. auto.
  - unfold every. unfold conj_mode in Hm. rewrite Hm. destruct (one a w) as [w' [b|e]]; cbn [fst snd].
    + destruct (IH (chains ++ [(a, b)]) w') as [(out & H1 & H2)|(pre & c & e & post & H1 & H2 & H3)].
      * left. exists ((a, b) :: out). cbn [map fst snd]. rewrite H2. split; [|reflexivity].
        rewrite H1, <- app_assoc. reflexivity.
      * right. exists ((a, Ok b) :: pre), c, e, post. cbn [app]. rewrite H1. split; [reflexivity|].
        split; [constructor; [now exists b|assumption]|assumption].
    + right. exists [], a, e, (verdicts one l w'). split; [reflexivity|]. split; [constructor|].
      destruct (catches Exception_ e); reflexivity.
Qed.

Lemma disj_loop : conj_mode mode = false -> forall l last w,
  let vs := verdicts one l w in
  let r := snd (verify_loop mode one l [] last w) in
  (exists pre a b post, vs = pre ++ (a, Ok b) :: post /\ Forall fails pre /\ r = Ok [(a, b)]) \/
  (exists pre a e post, vs = pre ++ (a, Err e) :: post /\ Forall fails pre /\
     issubclass (e_class e) Exception_ = false /\ r = Err e) \/
  (exists pre a e, vs = pre ++ [(a, Err e)] /\ Forall fails vs /\ r = Err e) \/
  (l = [] /\ r = match last with Some e => Err e | None => Ok [] end).
Proof.
  intros Hm. induction l as [|a l IH]; intros last w; cbn [verify_loop verdicts].
  - right. right. right. split; [reflexivity|]. destruct last; reflexivity.
  - unfold every. unfold conj_mode in Hm. rewrite Hm. destruct (one a w) as [w' [b|e]]; cbn [fst snd].
    + left. exists [], a, b, (verdicts one l w'). auto.
    + unfold catches. destruct (issubclass (e_class e) Exception_) eqn:S; cbn [snd].
      2: { right. left. exists [], a, e, (verdicts one l w'). auto. }
      assert (Fa : @fails A B (a, Err e)) by (exists e; auto).
      destruct (IH (Some e) w') as [(pre & c & b & post & H1 & H2 & H3)|[(pre & c & e' & post & H1 & H2 & H3 & H4)|[(pre & c & e' & H1 & H2 & H3)|[-> H]]]].
      * left. exists ((a, Err e) :: pre), c, b, post. cbn [app]. rewrite H1. auto.
      * right. left. exists ((a, Err e) :: pre), c, e', post. cbn [app]. rewrite H1. auto.
      * right. right. left. exists ((a, Err e) :: pre), c, e'. split; [cbn [app]; now rewrite H1|]. auto.
      * right. right. left. exists [], a, e. cbn [verdicts app]. auto.
Qed.

Theorem loop_outcome l w : l <> [] ->
  outcome (verdicts one l w) (conj_mode mode) (snd (verify_loop mode one l [] None w)).
Proof.
  intros Hl. destruct (conj_mode mode) eqn:Hm.
  - destruct (conj_loop Hm l [] w) as [(out & H1 & H2)|(pre & a & e & post & H1 & H2 & H3)].
    + rewrite H1. now apply all_hold.
    + rewrite H3. eapply one_fails; eassumption.
  - destruct (disj_loop Hm l None w) as [(pre & c & b & post & H1 & H2 & H3)|[(pre & c & e' & post & H1 & H2 & H3 & H4)|[(pre & c & e' & H1 & H2 & H3)|[-> H]]]].
    + rewrite H3. eapply one_holds; eassumption.
    + rewrite H4. eapply interrupted_by; eassumption.
    + rewrite H3. eapply none_holds; eassumption.
    + now elim Hl.
Qed.
End verify_loop.

Lemma verdicts_ext {A B} (one one' : A -> M world B) l : forall w,
  (forall a w, In a l -> one a w = one' a w) -> verdicts one l w = verdicts one' l w.
Proof.
  induction l as [|a l IH]; intros w H; cbn [verdicts]; [reflexivity|].
  rewrite H by now left. f_equal. apply IH. intros b w' Hb. apply H. now right.
Qed.

(** What the outcome says, for a conjunctive mode and for the others. *)
Lemma outcome_conj {A B} (vs : list (A * res B)) r :
  outcome vs true r -> ((exists out, r = Ok out) <-> Forall succeeds vs).
Proof.
  intros H. inversion H as [out Hv|pre a e post Hv Hp| | |]; subst.
  - split; [intros _|eauto]. clear H. apply Forall_forall. intros x Hx. apply in_map_iff in Hx as ([a b] & <- & _).
    now exists b.
  - split; [intros [out Ho]; discriminate Ho|]. intros F. apply Forall_app in F as [_ F].
    apply Forall_inv in F as [b Hb]. discriminate Hb.
Qed.

Lemma outcome_disj {A B} (vs : list (A * res B)) r :
  outcome vs false r -> Forall (fun v => ~ interrupts v) vs -> ((exists out, r = Ok out) <-> Exists succeeds vs).
Proof.
  intros H N. inversion H as [| |pre a b post Hv Hp|pre a e Hv Hp|pre a e post Hv Hp He]; subst.
  - split; [intros _|eauto]. apply Exists_app. right. left. now exists b.
  - split; [intros [out Ho]; discriminate Ho|]. intros X. rewrite Exists_exists in X. destruct X as (v & Hv & b & Hb).
    rewrite Forall_forall in Hp. destruct (Hp v Hv) as (e' & He & _). congruence.
  - exfalso. apply Forall_app in N as [_ N]. apply Forall_inv in N. apply N. exists e. auto.
Qed.

(** ** The choice *)

Lemma accepted_strength alg : In alg accepted_digest_algorithms -> rank alg = Ok (strength alg - 1) /\ 0 < strength alg.
Proof. intros H. cbn in H. repeat (destruct H as [<-|H]; [split; [reflexivity|reflexivity]|]). destruct H. Qed.

Lemma strength_inj a b :
  In a accepted_digest_algorithms -> In b accepted_digest_algorithms -> strength a = strength b -> a = b.
Proof.
  intros Ha Hb. cbn in Ha, Hb.
  repeat (destruct Ha as [<-|Ha];
    [repeat (destruct Hb as [<-|Hb]; [intros H; first [reflexivity|discriminate H]|]); destruct Hb|]). destruct Ha.
Qed.

Lemma max_by_rank_spec l : forall best,
  (forall a, In a (best :: l) -> In a accepted_digest_algorithms) ->
  exists b, max_by_rank best (strength best - 1) l = Ok b /\ In b (best :: l) /\
    forall a, In a (best :: l) -> strength a <= strength b.
Proof.
  induction l as [|a l IH]; intros best H; cbn [max_by_rank].
  - exists best. split; [reflexivity|]. split; [now left|]. intros a [<-|[]]. lia.
  - destruct (accepted_strength a) as [-> _]; [apply H; right; now left|]. cbn [rbind].
    destruct (Z.ltb_spec (strength best - 1) (strength a - 1)) as [L|L].
    + destruct (IH a) as (b & H1 & H2 & H3); [intros x Hx; apply H; now right|]. exists b. split; [assumption|].
      split; [now right|]. intros x [<-|Hx]; [|auto]. specialize (H3 a (or_introl eq_refl)). lia.
    + destruct (IH best) as (b & H1 & H2 & H3); [intros x [<-|Hx]; apply H; [now left|right; now right]|].
      exists b. split; [assumption|]. split; [destruct H2 as [<-|H2]; [now left|right; now right]|].
      intros x [<-|[<-|Hx]]; [apply H3; now left| |apply H3; now right].
      specialize (H3 best (or_introl eq_refl)). lia.
Qed.

Lemma filter_ext_in' {A} (f g : A -> bool) l : (forall a, In a l -> f a = g a) -> filter f l = filter g l.
Proof. apply filter_ext_in. Qed.

Lemma select_spec mode l :
  l <> [] -> (forall a, In a l -> In (digest_of a) accepted_digest_algorithms) ->
  exists sel, select_signed_datas mode l = Ok sel /\ chosen mode l sel /\ sel <> [] /\ incl sel l.
Proof.
  intros Hl Ha. unfold select_signed_datas, chosen.
  destruct (String.eqb_spec mode "first") as [->|N1].
  { destruct l as [|a l]; [now elim Hl|]. exists [a]. split; [reflexivity|]. split.
    - split; [intros _; eauto|]. split; [discriminate|]. intros H. now elim H.
    - split; [discriminate|]. intros x [<-|[]]. now left. }
  destruct (String.eqb_spec mode "best") as [->|N2].
  - destruct l as [|a l]; [now elim Hl|]. cbn [map best_algorithm].
    assert (Hall : forall x, In x (digest_of a :: map digest_of l) -> In x accepted_digest_algorithms).
    { intros x Hx. change (In x (map digest_of (a :: l))) in Hx. apply in_map_iff in Hx as (b & <- & Hb). auto. }
    change (sd_digest_alg (asd_data a)) with (digest_of a).
    destruct (accepted_strength (digest_of a)) as [-> _]; [apply Hall; now left|]. cbn [rbind].
    destruct (max_by_rank_spec (map digest_of l) (digest_of a) Hall) as (b & H1 & H2 & H3).
    change (map (fun a : asd => sd_digest_alg (asd_data a)) l) with (map digest_of l) in *.
    change (map (fun a : asd => sd_digest_alg (asd_data a)) l) with (map digest_of l). rewrite H1. cbn [rbind].
    eexists. split; [reflexivity|]. split.
    + split; [discriminate|]. split; [|intros _ H; now elim H]. intros _. apply filter_ext_in'. intros x Hx.
      change (sd_digest_alg (asd_data x)) with (digest_of x).
      assert (Hax : In (digest_of x) (map digest_of (a :: l))) by now apply in_map.
      destruct (String.eqb_spec (digest_of x) b) as [Eb|Nb].
      * symmetry. apply forallb_forall. intros y Hy. rewrite Eb. apply Z.leb_le. apply H3.
        change (In (digest_of y) (map digest_of (a :: l))). now apply in_map.
      * symmetry. apply not_true_iff_false. intros F. rewrite forallb_forall in F. apply Nb.
        change (In b (map digest_of (a :: l))) in H2. pose proof H2 as Hb. apply in_map_iff in H2 as (y & <- & Hy).
        specialize (F y Hy). apply strength_inj; [now apply Hall|now apply Hall|].
        specialize (H3 (digest_of x) Hax). lia.
    + split.
      * change (In b (map digest_of (a :: l))) in H2. apply in_map_iff in H2 as (y & Ey & Hy). intros E.
        assert (In y []) as []. rewrite <- E. apply filter_In. split; [assumption|]. apply String.eqb_eq. exact Ey.
      * intros x Hx. now apply filter_In in Hx as [Hx _].
  - exists l. split; [reflexivity|]. split; [|split; [assumption|apply incl_refl]].
    split; [intros H; contradiction|]. split; [intros H; contradiction|]. reflexivity.
Qed.

(** Signatures that were read have an accepted digest algorithm. *)
Lemma at_path_recursive p : forall a b, at_path a p = Some b -> In b (recursive_nested true a).
Proof.
  induction p as [|i p IH]; intros [d s [i0 cs nested] pe] b; cbn [at_path recursive_nested asd_signer asi_nested].
  - intros H. injection H as <-. now left.
  - destruct (nth_error nested i) as [a'|] eqn:En; [|discriminate]. intros H. right.
    apply in_flat_map. exists a'. split; [eapply nth_error_In; eassumption|]. now apply IH.
Qed.

Lemma envelope_reads load depth pe b a :
  from_envelope load depth pe b = Ok a -> exists r, asd_reads pe r a.
Proof.
  unfold from_envelope.
  destruct (load b) as [[r|t s]|]; cbn [rbind ci_type ci_content]; [|destruct (String.eqb t "signed_data")|discriminate].
  - rewrite String.eqb_refl. cbn [rbind]. intros H. exists r. eapply parse_asd_sound; eassumption.
  - destruct s; discriminate.
  - discriminate.
Qed.

Lemma in_table_reads load depth es p a : in_table load depth es p = Some a -> exists r, asd_reads true r a.
Proof.
  destruct p as [|i p]; cbn [in_table]; [discriminate|]. destruct (nth_error es i) as [c|]; [|discriminate].
  destruct (_ =? 2); [|discriminate]. destruct (from_envelope _ _ _ _) as [a0|] eqn:E; [|discriminate].
  intros H. apply at_path_recursive in H. apply envelope_reads in E as (r & Hr). eapply recursive_reads; eassumption.
Qed.

Lemma reads_accepted pe r a : asd_reads pe r a -> In (digest_of a) accepted_digest_algorithms /\ asd_pe a = pe.
Proof.
  intros H. inversion H. subst. cbn [asd_pe]. split; [|reflexivity]. unfold digest_of. cbn [asd_data].
  match goal with D : data_reads _ _ _ |- _ => unfold data_reads in D; destruct r; destruct D as ((al & _ & _ & Hd & _) & _) end.
  exact Hd.
Qed.

(** ** The expected hashes *)

Lemma str_add_in x y l : In x (str_add y l) <-> x = y \/ In x l.
Proof.
  induction l as [|z l IH]; cbn [str_add].
  - cbn. intuition.
  - destruct (String.eqb_spec y z) as [->|N]; cbn [In]; [intuition subst; auto|]. rewrite IH. tauto.
Qed.

Lemma str_set_in x l : In x (str_set l) <-> In x l.
Proof.
  unfold str_set. assert (forall s, In x (fold_left (fun s x => str_add x s) l s) <-> In x s \/ In x l) as H.
  { induction l as [|y l IH]; intros s; cbn [fold_left]; [cbn; tauto|]. rewrite IH, str_add_in. cbn [In]. intuition. }
  rewrite H. cbn. tauto.
Qed.

Lemma provided_spec E keys : (forall k, In k keys -> e_hashlib_has E k = true) -> provided_hashes E keys = Ok keys.
Proof.
  induction keys as [|k keys IH]; intros H; cbn [provided_hashes]; [reflexivity|].
  rewrite H by now left. rewrite IH by (intros; apply H; now right). reflexivity.
Qed.

Lemma provided_fails E keys k : In k keys -> e_hashlib_has E k = false ->
  exists e, provided_hashes E keys = Err e /\ e_class e = AttributeError.
Proof.
  induction keys as [|y keys IH]; intros Hin Hk; [destruct Hin|]. destruct Hin as [->|H]; cbn [provided_hashes].
  - rewrite Hk. eexists. split; reflexivity.
  - destruct (IH H Hk) as (e & -> & He). destruct (e_hashlib_has E y); eexists; split; try reflexivity; assumption.
Qed.

Lemma dict_get_keys {V} k (d : dict V) : In k (map fst d) <-> dict_get k d <> None.
Proof.
  induction d as [|[k1 v1] d IH]; cbn [map fst dict_get]; [cbn; tauto|].
  destruct (String.eqb_spec k k1) as [->|N]; cbn [In]; [intuition discriminate|]. rewrite IH. intuition congruence.
Qed.

Lemma dict_get_rev {V} k (d : dict V) : NoDup (map fst d) -> dict_get k (rev d) = dict_get k d.
Proof.
  induction d as [|[k1 v1] d IH]; cbn [map fst rev]; intros H; [reflexivity|]. inversion H as [|? ? H1 H2]. subst.
  assert (forall l, dict_get k (l ++ [(k1, v1)]) = match dict_get k l with Some v => Some v | None => dict_get k [(k1, v1)] end) as Ha.
  { induction l as [|[k2 v2] l IHl]; cbn [app dict_get]; [reflexivity|]. destruct (String.eqb k k2); [reflexivity|exact IHl]. }
  rewrite Ha, IH by assumption. cbn [dict_get]. destruct (String.eqb_spec k k1) as [->|N].
  - destruct (dict_get k1 d) eqn:E; [|reflexivity]. elim H1. apply dict_get_keys. congruence.
  - now destruct (dict_get k d).
Qed.

Lemma needed_in x keys l :
  In x (filter (fun x => negb (str_mem x keys)) (str_set l)) <-> In x l /\ ~ In x keys.
Proof.
  rewrite filter_In, str_set_in, negb_true_iff, <- not_true_iff_false, str_mem_in. reflexivity.
Qed.

Definition needed_hashes (l : list asd) (d : dict bytes) : list string :=
  filter (fun x => negb (str_mem x (map fst d))) (str_set (map digest_of l)).

Lemma calculate_eq E fuel l d w :
  (forall k h, In (k, h) d -> e_hashlib_has E k = true) ->
  calculate_expected_hashes E fuel l d w =
  match needed_hashes l d with
  | [] => (w, Ok d)
  | _ =>
      match add_authenticode_hashers (fp_new [] (w_file w) default_block) (needed_hashes l d) with
      | (st, Err e) => (mkWorld (w_stores w) (w_contexts w) (fp_file st), Err e)
      | (st, Ok _) =>
          match hashes (e_hash E) fuel st with
          | None => (w, Err out_of_fuel)
          | Some (st', r) =>
              (mkWorld (w_stores w) (w_contexts w) (fp_file st'),
               let? d' := r in
               match dict_get "authentihash" d' with
               | Some h => Ok (dict_update d h)
               | None => raise KeyError "authentihash"
               end)
          end
      end
  end.
Proof.
  intros Hk. unfold calculate_expected_hashes. cbv zeta. rewrite provided_spec.
  2: { intros k H. apply in_map_iff in H as ([k' h] & <- & H). eapply Hk. exact H. }
  unfold mres, mbind. change (filter _ _) with (needed_hashes l d). now destruct (needed_hashes l d).
Qed.

(** The dict afterwards: the supplied entries are as before, and each algorithm of a
    signature that was not supplied now has the hash of the file. *)
Definition completed (E : env) (secs : dict relrange) (data : bytes) (algs : list string) (d d' : dict bytes) : Prop :=
  forall alg, dict_get alg d' =
    match dict_get alg d with
    | Some h => Some h
    | None => if in_dec string_dec alg algs then Some (e_hash E alg (kept (map snd secs) data)) else None
    end.

Lemma calculate_spec E secs l d w :
  snd (omit_sections (mkFile (f_bytes (w_file w)) 0)) = Ok (Some secs) ->
  (forall k h, In (k, h) d -> e_hashlib_has E k = true) ->
  (forall fuel w' r, calculate_expected_hashes E fuel l d w = (w', r) ->
     same_objects w w' /\
     (r = Err out_of_fuel \/
      exists d', r = Ok d' /\ completed E secs (f_bytes (w_file w)) (map digest_of l) d d' /\
        ((forall a, In a l -> dict_get (digest_of a) d <> None) -> d' = d))) /\
  exists N, forall fuel, (N <= fuel)%nat -> snd (calculate_expected_hashes E fuel l d w) <> Err out_of_fuel.
Proof.
  intros Ho Hk.
  enough (forall C, (forall fuel, C fuel = calculate_expected_hashes E fuel l d w) ->
    (forall fuel w' r, C fuel = (w', r) ->
     same_objects w w' /\
     (r = Err out_of_fuel \/
      exists d', r = Ok d' /\ completed E secs (f_bytes (w_file w)) (map digest_of l) d d' /\
        ((forall a, In a l -> dict_get (digest_of a) d <> None) -> d' = d))) /\
    exists N, forall fuel, (N <= fuel)%nat -> snd (C fuel) <> Err out_of_fuel) as H by now apply H.
  intros C HC. assert (HC' := fun fuel => eq_trans (HC fuel) (calculate_eq E fuel l d w Hk)). clear HC.
  remember (needed_hashes l d) as needed eqn:Eneed.
  assert (Hn : forall x, In x needed <-> In x (map digest_of l) /\ dict_get x d = None).
  { intros x. rewrite Eneed. unfold needed_hashes. rewrite needed_in, dict_get_keys. destruct (dict_get x d); intuition congruence. }
  assert (Hd : (needed = [] /\ forall fuel, C fuel = (w, Ok d)) \/ (exists n0, In n0 needed) /\
    forall fuel, C fuel =
      match add_authenticode_hashers (fp_new [] (w_file w) default_block) needed with
      | (st, Err e) => (mkWorld (w_stores w) (w_contexts w) (fp_file st), Err e)
      | (st, Ok _) =>
          match hashes (e_hash E) fuel st with
          | None => (w, Err out_of_fuel)
          | Some (st', r) =>
              (mkWorld (w_stores w) (w_contexts w) (fp_file st'),
               let? d' := r in
               match dict_get "authentihash" d' with
               | Some h => Ok (dict_update d h)
               | None => raise KeyError "authentihash"
               end)
          end
      end).
  { destruct needed; [left; split; [reflexivity|exact HC']|right; split; [eexists; now left|exact HC']]. }
  clear HC' Eneed. destruct Hd as [[-> Hd]|[Hz' Hd]].
  { split; [|exists 0%nat; intros; rewrite Hd; discriminate]. intros fuel w' r H. rewrite Hd in H. injection H as <- <-.
    split; [apply same_objects_refl|].
    right. exists d. split; [reflexivity|]. split; [|reflexivity]. intros alg.
    destruct (dict_get alg d) eqn:Eg; [reflexivity|]. destruct (in_dec string_dec alg (map digest_of l)) as [i|]; [|reflexivity].
    destruct (proj2 (Hn alg) (conj i Eg)). }
  destruct (authenticode_hashes (e_hash E) (w_file w) needed) as (Hb & o & Ho' & Hh).
  assert (o = Some secs) as ->.
  { destruct (w_file w) as [data p]. cbn [f_bytes] in Ho. destruct (c08 data p) as (o1 & H1 & _ & H2).
    rewrite H1 in Ho'. rewrite H2 in Ho. congruence. }
  destruct (add_authenticode_hashers (fp_new [] (w_file w) default_block) needed) as [st b]. cbn [fst snd] in *.
  destruct Hh as (-> & st' & inner & Ht & Nn & Hin). split.
  - intros fuel w' r. rewrite Hd. destruct (hashes (e_hash E) fuel st) as [[st2 r2]|] eqn:Eh.
    + pose proof (hashes_file_bytes _ _ _ _ _ Eh) as Hf.
      assert (Eq : (st', Ok [("authentihash", inner)]) = (st2, r2)).
      { eapply terminates_unique; [exact Ht| |exact Eh]. intros i j x. apply hashes_mono. }
      injection Eq as <- <-. intros H. injection H as <- <-. cbn [rbind dict_get].
      change (String.eqb "authentihash" "authentihash") with true. cbv iota.
      split; [split; [reflexivity|split; [reflexivity|cbn [w_file]; congruence]]|]. right.
      eexists. split; [reflexivity|]. split.
      * intros alg. rewrite dict_get_update, dict_get_rev, Hin by assumption. specialize (Hn alg).
        destruct (in_dec string_dec alg needed) as [i|i].
        -- apply Hn in i as [i ->]. now rewrite (in_dec_names _ (fun alg => e_hash E alg _)).
        -- destruct (dict_get alg d); [reflexivity|].
           destruct (in_dec string_dec alg (map digest_of l)) as [j|]; [|reflexivity]. elim i. apply Hn. auto.
      * intros Ha. exfalso. destruct Hz' as (n1 & i). apply Hn in i as [i Hdn].
        apply in_map_iff in i as (a & <- & Hal). now apply (Ha a).
    + intros H. injection H as <- <-. split; [apply same_objects_refl|]. now left.
  - destruct Ht as [N Ht]. exists N. intros fuel Hf. rewrite Hd, (Ht fuel Hf). cbn [rbind dict_get snd].
    change (String.eqb "authentihash" "authentihash") with true. cbv iota. discriminate.
Qed.

(** ** Opening and verifying *)

Definition supplied_dict (expected : option (dict bytes)) : dict bytes :=
  match expected with Some d => d | None => [] end.

Lemma supplied_get expected alg : supplied expected alg = dict_get alg (supplied_dict expected).
Proof. destruct expected; reflexivity. Qed.

Lemma same_position w w' : same_objects w w' -> w' = at_position (f_pos (w_file w')) w.
Proof.
  destruct w as [ss ks [b p]], w' as [ss' ks' [b' p']]. intros (H1 & H2 & H3). cbn in *. subst. reflexivity.
Qed.

Lemma same_objects_trans a b c : same_objects a b -> same_objects b c -> same_objects a c.
Proof. intros (A & B & C) (A' & B' & C'). repeat split; congruence. Qed.

Lemma open_eq load E depth fuel mode expected ign v w l x :
  iterate load depth true ign fuel (w_file w) = Some (l, x) ->
  exists w1, same_objects w w1 /\ forall fuel', (fuel <= fuel')%nat ->
    pe_open_verify load E depth fuel' mode expected ign v w =
    match x with
    | Some e => (w1, expected, Err e)
    | None =>
        match l with
        | [] => (w1, expected, raise AuthenticodeNotSignedError "No valid SignedData structure was found.")
        | _ =>
            match select_signed_datas mode l with
            | Err e => (w1, expected, Err e)
            | Ok sel =>
                match calculate_expected_hashes E fuel' sel (supplied_dict expected) w1 with
                | (w2, Err e) => (w2, expected, Err e)
                | (w2, Ok hashes) =>
                    let (w3, r) := verify_loop mode (verify_one E fuel' hashes v) sel [] None w2 in
                    (w3, option_map (fun _ => hashes) expected, r)
                end
            end
        end
    end.
Proof.
  rewrite iterate_eq. destruct (iter_loop _ _ _ _ _ _ _ _) as [[f' [l' x']]|] eqn:El; [|discriminate].
  intros H. injection H as <- <-. pose proof (loop_bytes _ _ _ _ _ _ _ _ _ _ El) as Hb. cbn [f_bytes] in Hb.
  exists (mkWorld (w_stores w) (w_contexts w) f'). split; [repeat split; exact Hb|]. intros fuel' Hf.
  pose proof (loop_mono load depth true _ _ _ Hf _ _ _ _ El) as El'.
  unfold pe_open_verify. rewrite signed_pe_init_eq. unfold pe_verify, signed_datas, mbind. cbn [w_file w_stores w_contexts].
  unfold iter_signed_datas. rewrite El'.
  destruct x' as [e|]; cbn [silenced]; unfold catches.
  - destruct (_ && ign); [|reflexivity]. destruct l'; [reflexivity|]. unfold mres. now destruct (select_signed_datas _ _).
  - destruct l'; [reflexivity|]. unfold mres. now destruct (select_signed_datas _ _).
Qed.

Lemma table_ok load depth ign f l x a :
  terminates_with (fun k => iterate load depth true ign k f) (l, x) -> In a l ->
  (exists es tail n p, terminates_with (fun k => cert_table k f) (es, tail) /\
     Forall (readable_entry load depth) (firstn n es) /\ wanted_paths load depth es n true p /\
     in_table load depth es p = Some a) /\
  exists secs, snd (omit_sections (mkFile (f_bytes f) 0)) = Ok (Some secs).
Proof.
  intros Hi Ha. destruct (c17 load depth true f) as (es & tail & n & l' & x' & H1 & H2 & H3 & H4 & H5 & ps & P1 & P2 & P3).
  assert (l' = l) as ->.
  { destruct H2 as [N2 H2], Hi as [N1 Hi]. specialize (H2 (N1 + N2)%nat ltac:(lia)). specialize (Hi (N1 + N2)%nat ltac:(lia)).
    rewrite iterate_eq in H2, Hi. destruct (iter_loop _ _ _ _ _ _ _ _) as [[f' [l0 x0]]|]; congruence. }
  apply in_split in Ha as (l1 & l2 & ->). apply Forall2_app_inv_r in P3 as (ps1 & ps2 & P3 & P4 & ->).
  inversion P4 as [|p a' ps2' l2' Hp P5]. subst.
  assert (W : wanted_paths load depth es n true p) by (apply P2, in_or_app; right; now left).
  split; [exists es, tail, n, p; auto|].
  destruct (snd (omit_sections f)) as [o|e] eqn:Eo.
  - destruct f as [data q]. destruct (c08 data q) as (o1 & E1 & _ & E2). cbn [f_bytes]. rewrite E2.
    rewrite E1 in Eo. injection Eo as <-. destruct o1 as [secs|]; [eauto|]. exfalso.
    destruct (c14_no_table (mkFile data q)) as (e & _ & H); [intros d s Hd; congruence|].
    destruct H as [N H], H1 as [N1 H1]. specialize (H (N + N1)%nat ltac:(lia)). specialize (H1 (N + N1)%nat ltac:(lia)).
    rewrite H1 in H. injection H as -> ->. destruct p as [|i p]; cbn [in_table] in Hp; [discriminate|]. now destruct i.
  - destruct f as [data q]. destruct (c08 data q) as (o1 & E1 & _). congruence.
Qed.

Lemma table_accepted load depth ign f l x a :
  terminates_with (fun k => iterate load depth true ign k f) (l, x) -> In a l ->
  In (digest_of a) accepted_digest_algorithms /\ asd_pe a = true.
Proof.
  intros Hi Ha. destruct (table_ok _ _ _ _ _ _ _ Hi Ha) as [(es & tail & n & p & _ & _ & _ & Hp) _].
  apply in_table_reads in Hp as (r & Hr). eapply reads_accepted; eassumption.
Qed.

Lemma asd_verify_fuel E i j a h v w : asd_verify E i a (Some h) v w = asd_verify E j a (Some h) v w.
Proof. reflexivity. Qed.

(** ** C19, C20 *)

Section verified.
Variables (load : loader) (E : env) (depth : nat) (mode : string) (expected : option (dict bytes))
  (ign : bool) (v : vargs) (w : world) (l : list asd).
Hypothesis Hi : terminates_with (fun k => iterate load depth true ign k (w_file w)) (l, None).
Hypothesis Hl : l <> [].
Hypothesis Hk : known_names E expected.

Theorem verified :
  exists sel hash,
    chosen mode l sel /\ sel <> [] /\ incl sel l /\
    (forall a, In a sel -> due E (f_bytes (w_file w)) expected (digest_of a) (hash (digest_of a))) /\
    (forall fuel w' d' r, pe_open_verify load E depth fuel mode expected ign v w = (w', d', r) ->
       (r = Err out_of_fuel /\ d' = expected) \/
       exists p, outcome (verdicts (fun a => asd_verify E 0 a (Some (hash (digest_of a))) v) sel (at_position p w))
                   (conj_mode mode) r /\
         w' = fst (verify_loop mode (fun a => asd_verify E 0 a (Some (hash (digest_of a))) v) sel [] None (at_position p w)) /\
         (expected = None -> d' = None) /\
         (forall d, expected = Some d -> exists d1, d' = Some d1 /\
            ((forall a, In a sel -> dict_get (digest_of a) d <> None) -> d1 = d) /\
            forall alg, dict_get alg d1 = match dict_get alg d with
              | Some h => Some h
              | None => if in_dec string_dec alg (map digest_of sel) then Some (hash alg) else None
              end)) /\
    exists N, forall fuel w' d' r, (N <= fuel)%nat ->
      pe_open_verify load E depth fuel mode expected ign v w = (w', d', r) ->
      exists p, outcome (verdicts (fun a => asd_verify E 0 a (Some (hash (digest_of a))) v) sel (at_position p w))
                   (conj_mode mode) r /\
         w' = fst (verify_loop mode (fun a => asd_verify E 0 a (Some (hash (digest_of a))) v) sel [] None (at_position p w)).
Proof.
  destruct (select_spec mode l Hl) as (sel & Es & Hc & Hn & Hin).
  { intros a Ha. now apply (table_accepted _ _ _ _ _ _ _ Hi Ha). }
  assert (exists a, In a l) as [a0 Ha0] by (destruct l as [|a l']; [now elim Hl|exists a; now left]).
  destruct (table_ok _ _ _ _ _ _ _ Hi Ha0) as [_ (secs & Hs)].
  set (data := f_bytes (w_file w)) in *.
  set (hash := fun alg => match supplied expected alg with Some h => h | None => e_hash E alg (kept (map snd secs) data) end).
  assert (Kd : forall k h, In (k, h) (supplied_dict expected) -> e_hashlib_has E k = true).
  { intros k h H. destruct expected as [d|]; [|destruct H]. eapply Hk; [reflexivity|exact H]. }
  assert (Step : forall w1 w2 hashes, same_objects w w1 -> same_objects w1 w2 ->
    completed E secs data (map digest_of sel) (supplied_dict expected) hashes ->
    forall fuel, verify_loop mode (verify_one E fuel hashes v) sel [] None w2 =
      verify_loop mode (fun a => asd_verify E 0 a (Some (hash (digest_of a))) v) sel [] None (at_position (f_pos (w_file w2)) w)).
  { intros w1 w2 hashes S1 S2 Hh fuel. rewrite <- (same_position _ _ (same_objects_trans _ _ _ S1 S2)).
    assert (forall l0 ch last w0, incl l0 sel -> verify_loop mode (verify_one E fuel hashes v) l0 ch last w0 =
      verify_loop mode (fun a => asd_verify E 0 a (Some (hash (digest_of a))) v) l0 ch last w0) as H.
    { induction l0 as [|a l0 IH]; intros ch last w0 Hi0; cbn [verify_loop]; [reflexivity|].
      assert (verify_one E fuel hashes v a w0 = asd_verify E 0 a (Some (hash (digest_of a))) v w0) as ->.
      { unfold verify_one. change (sd_digest_alg (asd_data a)) with (digest_of a). rewrite Hh.
        unfold hash. rewrite supplied_get. destruct (dict_get (digest_of a) (supplied_dict expected)); [apply asd_verify_fuel|].
        rewrite (in_dec_names _ (fun alg => e_hash E alg _)); [apply asd_verify_fuel|]. apply in_map, Hi0. now left. }
      assert (I0 : incl l0 sel) by (intros y Hy; apply Hi0; now right).
      destruct (asd_verify _ _ _ _ _ _) as [w' [b|e]]; destruct (every mode); auto.
      destruct (catches Exception_ e); auto. }
    apply H. apply incl_refl. }
  exists sel, hash. split; [assumption|]. split; [assumption|]. split; [assumption|]. split.
  { intros a Ha. unfold due, hash. destruct (supplied expected (digest_of a)); [reflexivity|]. exists secs. auto. }
  split.
  - intros fuel w' d' r H. destruct Hi as [N Hit].
    destruct (iterate load depth true ign fuel (w_file w)) as [[l1 x1]|] eqn:Ei.
    2: { left. rewrite iterate_eq in Ei. unfold pe_open_verify in H. rewrite signed_pe_init_eq in H.
         unfold pe_verify, signed_datas, iter_signed_datas, mbind in H. cbn [w_file] in H.
         destruct (iter_loop _ _ _ _ _ _ _ _) as [[? [? ?]]|]; [discriminate|]. now injection H as <- <- <-. }
    assert (l1 = l /\ x1 = None) as [-> ->].
    { specialize (Hit (N + fuel)%nat ltac:(lia)). rewrite (iterate_mono load depth true ign (w_file w) fuel (N + fuel)%nat (l1, x1) ltac:(lia) Ei) in Hit.
      injection Hit as -> ->. auto. }
    destruct (open_eq load E depth fuel mode expected ign v w l None Ei) as (w1 & S1 & Hw).
    rewrite (Hw fuel ltac:(lia)), Es in H. clear Hw. destruct l as [|a1 l1] eqn:El; [now elim Hl|]. rewrite <- El in *. clear El a1 l1.
    assert (Hs1 : snd (omit_sections (mkFile (f_bytes (w_file w1)) 0)) = Ok (Some secs)).
    { destruct S1 as (_ & _ & ->). exact Hs. }
    destruct (calculate_spec E secs sel (supplied_dict expected) w1 Hs1 Kd) as [Hcal _].
    destruct (calculate_expected_hashes E fuel sel (supplied_dict expected) w1) as [w2 rh] eqn:Ec.
    destruct (Hcal fuel w2 rh Ec) as (S2 & [->|(hashes & -> & Hcomp & Hsame)]).
    { left. injection H as <- <- <-. auto. }
    right. assert (Hb1 : f_bytes (w_file w1) = data) by (destruct S1 as (_ & _ & ->); reflexivity). rewrite Hb1 in Hcomp.
    rewrite (Step w1 w2 hashes S1 S2 Hcomp fuel) in H.
    exists (f_pos (w_file w2)). pose proof (loop_outcome mode
      (fun a => asd_verify E 0 a (Some (hash (digest_of a))) v) sel (at_position (f_pos (w_file w2)) w) Hn) as Ho.
    destruct (verify_loop _ _ _ _ _ _) as [w3 r3]. injection H as <- <- <-. cbn [fst snd] in *.
    split; [exact Ho|]. split; [reflexivity|]. split; [now intros ->|].
    intros d ->. exists hashes. split; [reflexivity|]. split; [exact Hsame|]. intros alg. rewrite Hcomp. cbn [supplied_dict].
    unfold hash. cbn [supplied]. destruct (dict_get alg d) eqn:Eg; [reflexivity|]. reflexivity.
  - destruct Hi as [N Hit]. destruct (open_eq load E depth N mode expected ign v w l None (Hit N ltac:(lia))) as (w1 & S1 & Hw).
    assert (Hs1 : snd (omit_sections (mkFile (f_bytes (w_file w1)) 0)) = Ok (Some secs)).
    { destruct S1 as (_ & _ & ->). exact Hs. }
    destruct (calculate_spec E secs sel (supplied_dict expected) w1 Hs1 Kd) as [Hcal (N2 & HN)].
    exists (N + N2)%nat. intros fuel w' d' r Hf H. rewrite (Hw fuel ltac:(lia)), Es in H.
    destruct l as [|a1 l1] eqn:El; [now elim Hl|]. rewrite <- El in *. clear El a1 l1.
    destruct (calculate_expected_hashes E fuel sel (supplied_dict expected) w1) as [w2 rh] eqn:Ec.
    destruct (Hcal fuel w2 rh Ec) as (S2 & [->|(hashes & -> & Hcomp & _)]).
    { specialize (HN fuel ltac:(lia)). rewrite Ec in HN. now elim HN. }
    assert (Hb1 : f_bytes (w_file w1) = data) by (destruct S1 as (_ & _ & ->); reflexivity). rewrite Hb1 in Hcomp.
    rewrite (Step w1 w2 hashes S1 S2 Hcomp fuel) in H.
    exists (f_pos (w_file w2)). pose proof (loop_outcome mode
      (fun a => asd_verify E 0 a (Some (hash (digest_of a))) v) sel (at_position (f_pos (w_file w2)) w) Hn) as Ho.
    destruct (verify_loop _ _ _ _ _ _) as [w3 r3]. injection H as <- <- <-. cbn [fst snd] in *. auto.
Qed.
End verified.

(** ** One at a time *)

Lemma verdicts_alone E v (hash : string -> bytes) w sel :
  shareable w v sel -> (forall a, In a sel -> usable w v a) ->
  (forall a c, In a sel -> considered a v c -> distinct_contexts v) ->
  forall w1, similar v w w1 ->
  verdicts (fun a => asd_verify E 0 a (Some (hash (digest_of a))) v) sel w1 =
  map (fun a => (a, snd (asd_verify E 0 a (Some (hash (digest_of a))) v w))) sel.
Proof.
  induction sel as [|a sel IH]; intros Hs Hu Hd w1 Sim; cbn [verdicts map]; [reflexivity|]. f_equal.
  - f_equal. destruct (verdict_similar E 0 v w w1 a (Some (hash (digest_of a))) Sim) as [H|[H _]];
      [apply Hu; now left|intros c; apply (Hd a); now left|congruence|discriminate].
  - apply IH.
    + eapply shareable_incl; [|exact Hs]. intros b Hb. now right.
    + intros b Hb. apply Hu. now right.
    + intros b c Hb. apply Hd. now right.
    + eapply similar_trans; [exact Sim|].
      destruct (asd_verify E 0 a (Some (hash (digest_of a))) v w1) as [w2 r2] eqn:E2. cbn [fst].
      eapply asd_verify_similar; [|exact E2]. eapply shareable_similar; [|exact Sim].
      eapply shareable_incl; [|exact Hs]. intros b [<-|[]]. now left.
Qed.

Lemma at_position_similar v p w : similar v w (at_position p w).
Proof. apply similar_objects. repeat split. Qed.

(** ** C21 *)

Lemma no_item load depth f x :
  terminates_with (fun k => iterate load depth true false k f) ([], x) -> exists e, x = Some e.
Proof.
  intros Hi. destruct (c17 load depth true f) as (es & tail & n & l & x' & H1 & H2 & H3 & H4 & H5 & ps & P1 & P2 & P3).
  assert (l = [] /\ x' = x) as [-> ->].
  { destruct H2 as [N2 H2], Hi as [N1 Hi]. specialize (H2 (N1 + N2)%nat ltac:(lia)). specialize (Hi (N1 + N2)%nat ltac:(lia)).
    rewrite H2 in Hi. injection Hi as -> ->. auto. }
  inversion P3. subst ps. inversion H5 as [| | |c Ht Hc Hty|]; subst; eauto. exfalso.
  rewrite firstn_all in H4. rewrite Forall_forall in H4. destruct (H4 c Hc) as [_ Hr]. destruct (Hr Hty) as (a & Ha).
  apply In_nth_error in Hc as (i & Hn). apply (P2 [i]). split.
  - cbn [in_table]. rewrite Hn, Hty, Ha. discriminate.
  - split; [|discriminate]. exists i, []. split; [reflexivity|]. apply nth_error_Some. congruence.
Qed.

Theorem unsigned load E depth mode expected ign v w x :
  terminates_with (fun k => iterate load depth true false k (w_file w)) ([], x) ->
  exists e, x = Some e /\ exists r N, forall fuel, (N <= fuel)%nat ->
    snd (pe_open_verify load E depth fuel mode expected ign v w) = Err r /\
    snd (fst (pe_open_verify load E depth fuel mode expected ign v w)) = expected /\
    (if ign && issubclass (e_class e) SignedPEParseError then e_class r = AuthenticodeNotSignedError else r = e).
Proof.
  intros Hi. destruct (no_item _ _ _ _ Hi) as (e & ->). exists e. split; [reflexivity|].
  destruct Hi as [N Hi].
  assert (Hj : iterate load depth true ign N (w_file w) =
     Some ([], if issubclass (e_class e) SignedPEParseError && ign then None else Some e)).
  { specialize (Hi N ltac:(lia)). rewrite iterate_eq in *. destruct (iter_loop _ _ _ _ _ _ _ _) as [[f' [l0 [e0|]]]|]; try discriminate.
    cbn [silenced] in *. rewrite andb_false_r in Hi. injection Hi as -> ->. reflexivity. }
  destruct (open_eq load E depth N mode expected ign v w _ _ Hj) as (w1 & _ & Hw).
  rewrite andb_comm. destruct (_ && ign).
  - eexists. exists N. intros fuel Hf. rewrite (Hw fuel Hf). cbn [fst snd]. split; [reflexivity|]. split; reflexivity.
  - exists e, N. intros fuel Hf. rewrite (Hw fuel Hf). auto.
Qed.

(** An error that ends the iteration is raised, whatever came before. *)
Theorem iteration_error load E depth mode expected ign v w l e :
  terminates_with (fun k => iterate load depth true ign k (w_file w)) (l, Some e) ->
  exists N, forall fuel, (N <= fuel)%nat ->
    snd (pe_open_verify load E depth fuel mode expected ign v w) = Err e /\
    snd (fst (pe_open_verify load E depth fuel mode expected ign v w)) = expected.
Proof.
  intros [N Hi]. destruct (open_eq load E depth N mode expected ign v w _ _ (Hi N ltac:(lia))) as (w1 & _ & Hw).
  exists N. intros fuel Hf. now rewrite (Hw fuel Hf).
Qed.

(** Files without an entry of type 2. *)
Lemma no_type2 load depth f es tail :
  terminates_with (fun k => cert_table k f) (es, tail) -> (forall c, In c es -> ce_type c <> 2) ->
  exists e, terminates_with (fun k => iterate load depth true false k f) ([], Some e).
Proof.
  intros Ht H2. destruct (c17 load depth true f) as (es' & tail' & n & l & x & H1 & Hi & H3 & H4 & H5 & ps & P1 & P2 & P3).
  assert (es' = es) as ->.
  { destruct Ht as [N Ht], H1 as [N1 H1]. specialize (Ht (N + N1)%nat ltac:(lia)). specialize (H1 (N + N1)%nat ltac:(lia)). congruence. }
  assert (l = []) as ->.
  { destruct P3 as [|p a ps l Hp P3]; [reflexivity|]. exfalso. destruct p as [|i p]; cbn [in_table] in Hp; [discriminate|].
    destruct (nth_error es i) as [c|] eqn:En; [|discriminate]. destruct (Z.eqb_spec (ce_type c) 2); [|discriminate].
    apply (H2 c); [eapply nth_error_In; eassumption|assumption]. }
  destruct (no_item _ _ _ _ Hi) as (e & ->). eauto.
Qed.

Lemma no_type2_error load depth f es tail e :
  terminates_with (fun k => cert_table k f) (es, tail) -> (forall c, In c es -> ce_type c <> 2) ->
  terminates_with (fun k => iterate load depth true false k f) ([], Some e) ->
  issubclass (e_class e) SignedPEParseError = true.
Proof.
  intros Ht H2 Hi0. destruct (c17 load depth true f) as (es' & tail' & n & l & x & H1 & Hi & H3 & H4 & H5 & _).
  assert (es' = es /\ tail' = tail) as [-> ->].
  { destruct Ht as [N Ht], H1 as [N1 H1]. specialize (Ht (N + N1)%nat ltac:(lia)). specialize (H1 (N + N1)%nat ltac:(lia)).
    rewrite Ht in H1. injection H1 as -> ->. auto. }
  assert (x = Some e) as ->.
  { destruct Hi as [N2 H2'], Hi0 as [N1 Hi]. specialize (H2' (N1 + N2)%nat ltac:(lia)). specialize (Hi (N1 + N2)%nat ltac:(lia)). congruence. }
  assert (Hty : forall c e, e_class e = c -> c = SignedPEParseError -> issubclass (e_class e) SignedPEParseError = true).
  { intros c e0 <- ->. reflexivity. }
  inversion H5 as [n0 c e0 A B C|n0 c e0 A B C D|e0 A| |e0 A B C]; subst.
  - eapply Hty; [reflexivity|assumption].
  - exfalso. apply (H2 c); [eapply nth_error_In; eassumption|assumption].
  - destruct (snd (omit_sections f)) as [[d|]|e1] eqn:Eo.
    + destruct (dict_get "certtable" d) as [s|] eqn:Es.
      * destruct (c14_table f d s Eo Es) as (es1 & x1 & ps & last & T & _ & _ & _ & X).
        assert (x1 = Some e) as ->.
        { destruct T as [N T], H1 as [N1 H1]. specialize (T (N + N1)%nat ltac:(lia)). specialize (H1 (N + N1)%nat ltac:(lia)). congruence. }
        destruct X as [[X _]|(e2 & X & Y & _)]; [discriminate|]. injection X as <-. eapply Hty; [reflexivity|assumption].
      * destruct (c14_no_table f) as (e2 & X & T); [intros d' s' H; congruence|].
        destruct T as [N T], H1 as [N1 H1]. specialize (T (N + N1)%nat ltac:(lia)). specialize (H1 (N + N1)%nat ltac:(lia)).
        rewrite T in H1. injection H1 as _ <-. eapply Hty; [reflexivity|assumption].
    + destruct (c14_no_table f) as (e2 & X & T); [intros d' s' H; congruence|].
      destruct T as [N T], H1 as [N1 H1]. specialize (T (N + N1)%nat ltac:(lia)). specialize (H1 (N + N1)%nat ltac:(lia)).
      rewrite T in H1. injection H1 as _ <-. eapply Hty; [reflexivity|assumption].
    + destruct (c14_no_table f) as (e2 & X & T); [intros d' s' H; congruence|].
      destruct T as [N T], H1 as [N1 H1]. specialize (T (N + N1)%nat ltac:(lia)). specialize (H1 (N + N1)%nat ltac:(lia)).
      rewrite T in H1. injection H1 as _ <-. eapply Hty; [reflexivity|assumption].
  - eapply Hty; [reflexivity|assumption].
Qed.

(** ** C22: names that are not those of hash functions *)

Theorem unknown_name load E depth mode d ign v w l k h :
  terminates_with (fun n => iterate load depth true ign n (w_file w)) (l, None) -> l <> [] ->
  In (k, h) d -> e_hashlib_has E k = false ->
  exists e N, e_class e = AttributeError /\ forall fuel, (N <= fuel)%nat ->
    snd (pe_open_verify load E depth fuel mode (Some d) ign v w) = Err e.
Proof.
  intros Hi Hl Hk He. destruct (select_spec mode l Hl) as (sel & Es & _).
  { intros a Ha. now apply (table_accepted _ _ _ _ _ _ _ Hi Ha). }
  destruct Hi as [N Hi]. destruct (open_eq load E depth N mode (Some d) ign v w _ _ (Hi N ltac:(lia))) as (w1 & _ & Hw).
  destruct (provided_fails E (map fst d) k) as (e & Hp & Hcl); [|assumption|].
  { change k with (fst (k, h)). now apply in_map. }
  exists e, N. split; [assumption|]. intros fuel Hf. rewrite (Hw fuel Hf), Es. destruct l as [|a0 l0]; [now elim Hl|].
  unfold calculate_expected_hashes. cbv zeta. cbn [supplied_dict]. rewrite Hp. reflexivity.
Qed.
