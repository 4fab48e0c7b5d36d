(** Proofs about the command line. *)
From Coq Require Import Sorted.
From Verif Require Import Base Bytes ModelFile ModelFingerprint SpecFingerprint ProofsFingerprint ProofsFingerprint2 ProofsFingerprint3
  ModelPE SpecPE ProofsPE ProofsPE2 ModelX509 ModelMain SpecMain.
From Verif Require ProofsCtl2.

(** ** Sorting *)

Lemma str_lt_irr s : str_ltb s s = false.
Proof. induction s as [|x s IH]; [reflexivity|]. cbn [str_ltb]. rewrite Nat.ltb_irrefl, Nat.eqb_refl, IH. reflexivity. Qed.
Lemma str_lt_trans a : forall b c, str_ltb a b = true -> str_ltb b c = true -> str_ltb a c = true.
Proof.
  induction a as [|x a IH]; intros [|y b] [|z c]; cbn [str_ltb]; try discriminate; try reflexivity.
  rewrite !orb_true_iff, !andb_true_iff, !Nat.ltb_lt, !Nat.eqb_eq.
  intros [L|[Q L]] [L'|[Q' L']]; [left|left|left|right]; try lia. split; [lia|eapply IH; eassumption].
Qed.
Lemma str_lt_total a : forall b, str_ltb a b = false -> a = b \/ str_ltb b a = true.
Proof.
  induction a as [|x a IH]; intros [|y b]; cbn [str_ltb]; auto; try discriminate.
  rewrite !orb_false_iff, !orb_true_iff, !andb_true_iff, !andb_false_iff, !Nat.ltb_lt, !Nat.ltb_ge, !Nat.eqb_eq, !Nat.eqb_neq.
  intros [L [N|N]]; [right; left; lia|].
  destruct (Nat.eq_dec (nat_of_ascii y) (nat_of_ascii x)) as [Q|Q]; [|right; left; lia].
  destruct (IH b N) as [->|B]; [|right; right; split; assumption].
  left. f_equal. rewrite <- (ascii_nat_embedding x), <- (ascii_nat_embedding y), Q. reflexivity.
Qed.

Section Sort.
Context {V : Type}.
Definition key_lt (x y : string * V) : Prop := str_ltb (fst x) (fst y) = true.

Lemma insert_in x y (l : dict V) : In y (item_insert x l) <-> y = x \/ In y l.
Proof.
  induction l as [|z l IH]; cbn [item_insert In]; [intuition|]. destruct (str_ltb (fst z) (fst x)); cbn [In]; [rewrite IH|]; intuition.
Qed.
Lemma sorted_in y (l : dict V) : In y (sorted_items l) <-> In y l.
Proof. induction l as [|x l IH]; [reflexivity|]. cbn [sorted_items fold_right In]. rewrite insert_in. fold (sorted_items l). rewrite IH. intuition. Qed.

Lemma insert_sorted x (l : dict V) : ~ In (fst x) (map fst l) -> StronglySorted key_lt l -> StronglySorted key_lt (item_insert x l).
Proof.
  induction l as [|z l IH]; intros N S; cbn [item_insert]; [repeat constructor|].
  inversion S as [|? ? S' F]; subst. destruct (str_ltb (fst z) (fst x)) eqn:L.
  - constructor; [apply IH; [intro I; apply N; right; exact I|exact S']|].
    apply Forall_forall. intros y Hy. apply insert_in in Hy. destruct Hy as [->|Hy]; [exact L|]. rewrite Forall_forall in F. apply F. exact Hy.
  - destruct (str_lt_total _ _ L) as [Q|Q]; [elim N; left; exact Q|].
    constructor; [exact S|]. constructor; [exact Q|]. rewrite Forall_forall in *. intros y Hy. eapply str_lt_trans; [exact Q|apply F; exact Hy].
Qed.
Lemma sorted_sorted (l : dict V) : NoDup (map fst l) -> StronglySorted key_lt (sorted_items l).
Proof.
  induction l as [|x l IH]; intro N; [constructor|]. inversion N; subst. cbn [sorted_items fold_right]. apply insert_sorted; [|apply IH; assumption].
  intro I. apply in_map_iff in I. destruct I as (y & Q & I). apply (proj1 (sorted_in y l)) in I.
  apply H1. rewrite <- Q. apply in_map. exact I.
Qed.

Lemma sorted_unique (l : dict V) : forall m, StronglySorted key_lt l -> StronglySorted key_lt m -> (forall x, In x l <-> In x m) -> l = m.
Proof.
  induction l as [|x l IH]; intros [|y m] S T I; [reflexivity|destruct (proj2 (I y)); left; reflexivity|destruct (proj1 (I x)); left; reflexivity|].
  inversion S as [|? ? S' F]; inversion T as [|? ? T' G]; subst. rewrite Forall_forall in F, G.
  assert (Q : x = y).
  { destruct (proj1 (I x) (or_introl eq_refl)) as [Q|X]; [symmetry; exact Q|]. destruct (proj2 (I y) (or_introl eq_refl)) as [Q|Y]; [exact Q|].
    exfalso. pose proof (str_lt_trans _ _ _ (G _ X) (F _ Y)) as L. rewrite str_lt_irr in L. discriminate L. }
  subst y. f_equal. apply IH; [assumption|assumption|]. intro z. split; intro Z.
  - destruct (proj1 (I z) (or_intror Z)) as [<-|R]; [|exact R]. specialize (F _ Z). unfold key_lt in F. rewrite str_lt_irr in F. discriminate F.
  - destruct (proj2 (I z) (or_intror Z)) as [<-|R]; [|exact R]. specialize (G _ Z). unfold key_lt in G. rewrite str_lt_irr in G. discriminate G.
Qed.

Lemma sorted_is (d l : dict V) : NoDup (map fst d) -> StronglySorted key_lt l -> (forall k, dict_get k d = dict_get k l) -> sorted_items d = l.
Proof.
  intros N S G. apply sorted_unique; [apply sorted_sorted; exact N|exact S|].
  assert (M : NoDup (map fst l)).
  { clear - S. induction S as [|x l S IH F]; [constructor|]. cbn [map]. constructor; [|exact IH].
    intro I. apply in_map_iff in I. destruct I as (y & Q & I). rewrite Forall_forall in F. specialize (F _ I). unfold key_lt in F.
    rewrite Q, str_lt_irr in F. discriminate F. }
  intros [k v]. rewrite sorted_in. split; intro I.
  - apply ProofsCtl2.get_in. rewrite <- G. apply ProofsCtl2.in_get; assumption.
  - apply ProofsCtl2.get_in. rewrite G. apply ProofsCtl2.in_get; assumption.
Qed.
End Sort.

(** ** The lines of one file *)

Definition of_names (H : string -> bytes -> bytes) (names : list string) (b : bytes) : dict bytes := map (fun n => (n, H n b)) names.
Lemma get_names H names b n : dict_get n (of_names H names b) = if in_dec string_dec n names then Some (H n b) else None.
Proof.
  induction names as [|m names IH]; [reflexivity|]. cbn [of_names map dict_get]. destruct (String.eqb_spec n m) as [->|N].
  - destruct (in_dec string_dec m (m :: names)) as [|X]; [reflexivity|elim X; left; reflexivity].
  - fold (of_names H names b). rewrite IH. destruct (in_dec string_dec n names), (in_dec string_dec n (m :: names)) as [X|X]; try reflexivity.
    + elim X. right. assumption.
    + destruct X as [X|X]; [congruence|contradiction].
Qed.
Lemma names_sorted H names b : StronglySorted (fun x y => str_ltb x y = true) names -> StronglySorted key_lt (of_names H names b).
Proof.
  induction 1 as [|x l S IH F]; [constructor|]. cbn [of_names map]. constructor; [exact IH|].
  apply Forall_forall. intros y Hy. apply in_map_iff in Hy. destruct Hy as (n & <- & Hn). rewrite Forall_forall in F. exact (F _ Hn).
Qed.
Lemma inner_is H names b inner : StronglySorted (fun x y => str_ltb x y = true) names -> NoDup (map fst inner) ->
  (forall n, dict_get n inner = if in_dec string_dec n names then Some (H n b) else None) -> sorted_items inner = of_names H names b.
Proof.
  intros S N G. apply sorted_is; [exact N|apply names_sorted; exact S|]. intro k. rewrite G, get_names. reflexivity.
Qed.

Definition generic_names := ["md5"; "sha1"; "sha256"; "sha512"].
Definition image_names := ["md5"; "sha1"; "sha256"].
Lemma generic_sorted : StronglySorted (fun x y => str_ltb x y = true) generic_names.
Proof. repeat constructor. Qed.
Lemma image_sorted : StronglySorted (fun x y => str_ltb x y = true) image_names.
Proof. repeat constructor. Qed.

Definition the_call : call := mkCall generic_names None "generic".
Lemma the_calls data : let f := mkFile data 0 in
  distinct_lists [] [the_call] /\
  (forall c, In c [the_call] -> Forall (valid_range (file_len f)) (requested [] (file_len f) c)) /\
  slices (f_bytes f) (requested [] (file_len f) the_call) = data.
Proof.
  cbv zeta. unfold file_len. cbn [f_bytes]. pose proof (zlen_nonneg data) as L. split; [split; constructor|]. split.
  - intros c [<-|[]]. repeat constructor; cbn; lia.
  - cbn [requested the_call c_ranges slices map concat slice r_start r_end]. unfold slices, slice. cbn [map concat r_start r_end].
    rewrite app_nil_r. apply zslice_all.
Qed.

Lemma only_generic (r : dict (dict bytes)) inner :
  NoDup (map fst r) -> dict_get "generic" r = Some inner -> (forall k, k <> "generic" -> dict_get k r = None) ->
  sorted_items r = [("generic", inner)].
Proof.
  intros N G O. apply sorted_is; [exact N|repeat constructor|]. intro k. cbn [dict_get].
  destruct (String.eqb_spec k "generic") as [->|K]; [exact G|apply O; exact K].
Qed.
Lemma image_and_generic (r : dict (dict bytes)) image inner :
  NoDup (map fst r) -> dict_get "authentihash" r = Some image -> dict_get "generic" r = Some inner ->
  (forall k, k <> "authentihash" -> k <> "generic" -> dict_get k r = None) ->
  sorted_items r = [("authentihash", image); ("generic", inner)].
Proof.
  intros N I G O. apply sorted_is; [exact N|repeat constructor|]. intro k. cbn [dict_get].
  destruct (String.eqb_spec k "authentihash") as [->|K]; [exact I|].
  destruct (String.eqb_spec k "generic") as [->|K']; [exact G|apply O; assumption].
Qed.

Lemma generic_only k cs : cs = [the_call] -> last_call k cs = if String.eqb "generic" k then Some the_call else None.
Proof. intros ->. unfold last_call. cbn [rev app find the_call c_desc]. destruct (String.eqb "generic" k); reflexivity. Qed.

Lemma file_lines H open n data : open n = Ok data ->
  exists lines, digest_lines H data lines /\
    terminates_with (fun k => main_file H open k n) ((n ++ ":")%string :: lines, Ok tt).
Proof.
  intros O. set (f := mkFile data 0). destruct (the_calls data) as (D & Va & Sl). fold f in Va, Sl.
  unfold main_file, digest_lines. rewrite O. fold f.
  change (add_hashers (fp_new [] f 1000000) ["md5"; "sha1"; "sha256"; "sha512"] None "generic")
    with (do_calls (fp_new [] f 1000000) [the_call]).
  destruct (c08 data 0) as (r & R & _). fold f in R. rewrite R.
  destruct r as [d|].
  - destruct (add_authenticode_hashers (do_calls (fp_new [] f 1000000) [the_call]) ["md5"; "sha1"; "sha256"]) as [st1 b] eqn:A.
    destruct (c11_ok H [] f 1000000 [the_call] ["md5"; "sha1"; "sha256"] [] d st1 b) as (-> & st' & res & T & N & (image & I & Ni & Gi) & G);
      [lia|exact D|exact Va|intros c []|exact R|exact A|].
    pose proof (G "generic" ltac:(discriminate)) as Gg. rewrite generic_only in Gg by reflexivity. cbn [String.eqb Ascii.eqb Bool.eqb] in Gg.
    destruct Gg as (inner & Ig & Ng & Gg). rewrite Sl in Gg.
    eexists. split; [reflexivity|]. destruct T as (N0 & T). exists N0. intros m Hm. specialize (T m Hm). cbn [do_calls fold_left] in T. rewrite T.
    rewrite (image_and_generic res image inner N I Ig).
    + cbn [flat_map fst snd print_result app]. unfold print_result.
      rewrite (inner_is H image_names _ image image_sorted Ni Gi), (inner_is H generic_names data inner generic_sorted Ng Gg). reflexivity.
    + intros k K K'. specialize (G k K). rewrite generic_only in G by reflexivity. destruct (String.eqb_spec "generic" k); [congruence|exact G].
  - pose proof (c11_unparsable [] f 1000000 [the_call] ["md5"; "sha1"; "sha256"] R) as C. cbv zeta in C.
    destruct (add_authenticode_hashers (do_calls (fp_new [] f 1000000) [the_call]) ["md5"; "sha1"; "sha256"]) as [st1 b]. cbn [fst snd] in C.
    destruct C as [-> P]. destruct (c01 H [] f 1000000 [the_call]) as (st' & res & T & N & G); [lia|exact D|exact Va|].
    pose proof (G "generic") as Gg. rewrite generic_only in Gg by reflexivity. cbn [String.eqb Ascii.eqb Bool.eqb] in Gg.
    destruct Gg as (inner & Ig & Ng & Gg). rewrite Sl in Gg.
    eexists. split; [reflexivity|]. destruct T as (N0 & T). exists N0. intros m Hm. specialize (T m Hm).
    pose proof (hashes_pos H m _ _ P) as Q. rewrite T in Q. destruct (hashes H m st1) as [[st2 r2]|]; [|contradiction]. destruct Q as [_ ->].
    rewrite (only_generic res inner N Ig).
    + cbn [flat_map fst snd app]. unfold print_result.
      rewrite (inner_is H generic_names data inner generic_sorted Ng Gg). reflexivity.
    + intros k K. specialize (G k). rewrite generic_only in G by reflexivity. destruct (String.eqb_spec "generic" k); [congruence|exact G].
Qed.

Theorem c80 H open names :
  exists lines r, report H open names lines r /\ terminates_with (fun k => main H open k names) (lines, r).
Proof.
  induction names as [|n names (more & r & R & N & T)].
  - exists [], (Ok tt). split; [constructor|]. exists 0%nat. reflexivity.
  - destruct (open n) as [data|e] eqn:O.
    + destruct (file_lines H open n data O) as (lines & L & N' & T'). exists ((n ++ ":")%string :: lines ++ more), r.
      split; [eapply report_file; eassumption|]. exists (N + N')%nat. intros m Hm. cbn [main].
      rewrite T' by lia. rewrite T by lia. reflexivity.
    + exists [(n ++ ":")%string], (Err e). split; [apply report_unopened; exact O|]. exists 0%nat. intros m _. cbn [main].
      unfold main_file. rewrite O. reflexivity.
Qed.

Lemma report_unique H open names lines r : report H open names lines r -> forall lines' r', report H open names lines' r' -> lines' = lines /\ r' = r.
Proof.
  induction 1 as [|n names data lines more r O D R IH|n names e O]; intros lines' r' R'; inversion R'; subst.
  - split; reflexivity.
  - rewrite O in *. match goal with Q : Ok _ = Ok _ |- _ => injection Q as <- end.
    destruct (IH _ _ ltac:(eassumption)) as [-> ->]. split; [|reflexivity].
    match goal with D' : digest_lines H data ?x |- (_ :: ?y ++ _) = _ => replace y with lines; [reflexivity|] end.
    unfold digest_lines in *. cbv zeta in *. destruct (snd (omit_sections (mkFile data 0))) as [[d|]|]; [| |contradiction];
      repeat match goal with Q : _ = ?rhs |- _ => is_var rhs; fail 1 | Q : ?v = _ |- _ => is_var v; rewrite Q end; reflexivity.
  - congruence.
  - congruence.
  - split; [reflexivity|congruence].
Qed.
