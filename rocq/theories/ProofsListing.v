(** Proofs about the listing of a store. *)
From Coq Require Import DecimalString DecimalN Sorting.Permutation Sorting.Sorted ZifyBool ZifyNat.
From Verif Require Import Base Bytes Monad ModelX509 SpecX509 ProofsX509 ModelContext SpecContext ProofsContext ProofsCTL ModelDecode ModelListing SpecListing.

(** ** Numbers *)
Definition chars (d : Decimal.uint) : ustr := ustr_of (NilEmpty.string_of_uint d).
Lemma chars_digits d : Forall digit (chars d).
Proof. unfold chars, ustr_of. induction d; cbn; constructor; try assumption; unfold digit; cbn; lia. Qed.

Definition step (v : Z) (d : N) : Z := 10 * v + (Z.of_N d - 48).
Lemma value_acc d : forall acc, fold_left step (chars d) (Z.pos acc) = Z.pos (Pos.of_uint_acc d acc).
Proof.
  unfold chars, ustr_of. induction d; intros acc; [reflexivity|..];
    cbn [NilEmpty.string_of_uint list_ascii_of_string map fold_left Pos.of_uint_acc]; rewrite <- IHd; f_equal; unfold step;
    match goal with |- context [N_of_ascii ?c] => let n := eval vm_compute in (N_of_ascii c) in change (N_of_ascii c) with n end;
    lia.
Qed.
Lemma value_chars d : digits_value (chars d) = Z.of_N (N.of_uint d).
Proof.
  unfold digits_value. fold step.
  change (fold_left step (chars d) 0 = Z.of_N (N.of_uint d)).
  unfold N.of_uint. induction d; [reflexivity| |..];
    cbn [Pos.of_uint Z.of_N].
  - rewrite <- IHd. reflexivity.
  - rewrite <- value_acc. reflexivity.
  - rewrite <- value_acc. reflexivity.
  - rewrite <- value_acc. reflexivity.
  - rewrite <- value_acc. reflexivity.
  - rewrite <- value_acc. reflexivity.
  - rewrite <- value_acc. reflexivity.
  - rewrite <- value_acc. reflexivity.
  - rewrite <- value_acc. reflexivity.
  - rewrite <- value_acc. reflexivity.
Qed.
Lemma nzhead_no_zero d w : Decimal.nzhead d <> Decimal.D0 w.
Proof. induction d; cbn [Decimal.nzhead]; try discriminate. exact IHd. Qed.
Lemma to_uint_norm n : N.to_uint n = Decimal.unorm (N.to_uint n).
Proof. rewrite <- (DecimalN.Unsigned.to_of (N.to_uint n)). now rewrite DecimalN.Unsigned.of_to. Qed.
Lemma chars_nil d : chars d = [] -> d = Decimal.Nil.
Proof. destruct d; cbn; intros H; [reflexivity|discriminate H..]. Qed.
Lemma chars_zero d w : chars d = 48%N :: w -> exists d', d = Decimal.D0 d' /\ w = chars d'.
Proof. destruct d; cbn; intros H; try discriminate H. injection H as H. exists d. now split. Qed.
Lemma unorm_shape d : Decimal.unorm d <> Decimal.Nil /\ forall d', Decimal.unorm d = Decimal.D0 d' -> d' = Decimal.Nil.
Proof.
  unfold Decimal.unorm. pose proof (nzhead_no_zero d) as Z. destruct (Decimal.nzhead d); split; try discriminate.
  - intros d' H. now injection H.
  - intros d' H. now destruct (Z d').
Qed.
Lemma decimal_decimals z : 0 <= z ->
  let v := ustr_of (decimal z) in Forall digit v /\ v <> [] /\ (forall w, v = 48%N :: w -> w = []) /\ digits_value v = z.
Proof.
  intros H. cbv zeta. unfold decimal. change (ustr_of (NilEmpty.string_of_uint (N.to_uint (Z.to_N z)))) with (chars (N.to_uint (Z.to_N z))).
  pose proof (unorm_shape (N.to_uint (Z.to_N z))) as [U1 U2]. rewrite <- to_uint_norm in U1, U2.
  split; [apply chars_digits|]. split; [intros C; now apply U1, chars_nil|]. split.
  - intros w C. apply chars_zero in C. destruct C as (d' & E & ->). now rewrite (U2 d' E).
  - rewrite value_chars, DecimalN.Unsigned.of_to. lia.
Qed.
Lemma int_str_decimals z : decimals (ustr_of (int_str z)) z.
Proof.
  unfold int_str. destruct (z <? 0) eqn:Hz.
  - destruct (decimal_decimals (- z) ltac:(lia)) as (D & N0 & L & V). exists (ustr_of (decimal (- z))).
    split; [exact D|]. split; [exact N0|]. split; [exact L|]. right. split; [lia|]. split; [reflexivity|exact V].
  - destruct (decimal_decimals z ltac:(lia)) as (D & N0 & L & V). exists (ustr_of (decimal z)).
    split; [exact D|]. split; [exact N0|]. split; [exact L|]. left. split; [lia|]. split; [reflexivity|exact V].
Qed.

(** A number is determined by its decimals, and conversely. *)
Lemma decimals_fun u y z : decimals u y -> decimals u z -> y = z.
Proof.
  intros (v & D & N0 & _ & A) (v' & D' & N0' & _ & B).
  destruct A as [(Ha & -> & Va)|(Ha & -> & Va)]; destruct B as [(Hb & E & Vb)|(Hb & E & Vb)].
  - subst v'. congruence.
  - subst v. inversion D as [|? ? Q _]; subst. unfold digit in Q. lia.
  - subst v'. inversion D' as [|? ? Q _]; subst. unfold digit in Q. lia.
  - injection E as ->. lia.
Qed.
Lemma decimals_chars u z : decimals u z -> Forall (fun n => n = 45%N \/ digit n) u.
Proof.
  intros (v & D & _ & _ & A). assert (F : Forall (fun n => n = 45%N \/ digit n) v) by (eapply Forall_impl; [|exact D]; intros; now right).
  destruct A as [(_ & -> & _)|(_ & -> & _)]; [exact F|]. constructor; [now left|exact F].
Qed.

(** ** The text of a certificate *)
Lemma split_last {A} (x : A) : forall p p' s s', ~ In x s -> ~ In x s' -> p ++ x :: s = p' ++ x :: s' -> p = p' /\ s = s'.
Proof.
  induction p as [|y p IH]; intros [|y' p'] s s' Hs Hs' H; cbn [app] in H.
  - injection H as ->. now split.
  - injection H as -> ->. destruct Hs. apply in_or_app. right. now left.
  - injection H as -> <-. destruct Hs'. apply in_or_app. right. now left.
  - injection H as -> H. destruct (IH p' s s' Hs Hs' H) as [-> ->]. now split.
Qed.
Lemma ustr_of_app s t : ustr_of (s ++ t) = ustr_of s ++ ustr_of t.
Proof.
  unfold ustr_of. rewrite <- map_app. f_equal. induction s as [|c s IH]; [reflexivity|]. cbn. now rewrite IH.
Qed.
Lemma hex_no_colon b : ~ In 58%N (ustr_of (hex b)).
Proof.
  unfold ustr_of. induction b as [|x b IH]; [intros []|].
  assert (D : forall z, 0 <= z < 16 -> N_of_ascii (hex_digit z) <> 58%N).
  { intros z Hz. assert (H : forallb (fun z => negb (N.eqb (N_of_ascii (hex_digit z)) 58)) [0;1;2;3;4;5;6;7;8;9;10;11;12;13;14;15] = true)
      by (vm_compute; reflexivity).
    rewrite forallb_forall in H. assert (I : In z [0;1;2;3;4;5;6;7;8;9;10;11;12;13;14;15]) by (cbn [In]; lia).
    specialize (H z I). apply Bool.negb_true_iff, N.eqb_neq in H. exact H. }
  pose proof (Z_of_byte_range x) as R.
  cbn [hex list_ascii_of_string map In]. intros [H|[H|H]]; [| |now apply IH].
  - apply (D (Z_of_byte x / 16)); [|exact H]. split; [apply Z.div_pos; lia|apply Z.div_lt_upper_bound; lia].
  - apply (D (Z_of_byte x mod 16)); [|exact H]. apply Z.mod_pos_bound. lia.
Qed.
Lemma ustr_of_inj s t : ustr_of s = ustr_of t -> s = t.
Proof.
  unfold ustr_of. revert t. induction s as [|c s IH]; intros [|c' t] H; cbn in H; try discriminate H; [reflexivity|].
  injection H as H1 H2. apply (f_equal ascii_of_N) in H1. rewrite !ascii_N_embedding in H1. subst c'. f_equal. now apply IH.
Qed.

Lemma cert_text_is E c t : cert_text E c = Ok t <->
  exists d, dn (c_subject c) = Ok d /\
  t = d ++ ustr_of " (serial:" ++ ustr_of (int_str (c_serial c)) ++ ustr_of ", sha1:" ++ ustr_of (hex (e_hash E "sha1" (c_der c))) ++ ustr_of ")".
Proof.
  unfold cert_text, sha1_fingerprint. destruct (dn (c_subject c)) as [d|e]; cbn [rbind].
  - rewrite !ustr_of_app. split.
    + intros H. injection H as <-. exists d. now split.
    + intros (d' & Ed & ->). injection Ed as <-. reflexivity.
  - split; [discriminate|]. intros (d' & Ed & _). discriminate Ed.
Qed.
Lemma no_colon_num z : ~ In 58%N (ustr_of (int_str z) ++ ustr_of ", sha1").
Proof.
  intros H. apply in_app_or in H. destruct H as [H|H].
  - pose proof (decimals_chars _ _ (int_str_decimals z)) as F. rewrite Forall_forall in F. specialize (F _ H). unfold digit in F. lia.
  - cbn in H. repeat destruct H as [H|H]; try discriminate H. exact H.
Qed.
Theorem text_inj E a b t : cert_text E a = Ok t -> cert_text E b = Ok t ->
  dn (c_subject a) = dn (c_subject b) /\ c_serial a = c_serial b /\ e_hash E "sha1" (c_der a) = e_hash E "sha1" (c_der b).
Proof.
  intros Ha Hb. apply (proj1 (cert_text_is _ _ _)) in Ha, Hb. destruct Ha as (d & Da & ->). destruct Hb as (d' & Db & H).
  assert (S : forall d n h, d ++ ustr_of " (serial:" ++ n ++ ustr_of ", sha1:" ++ h ++ ustr_of ")" =
              (d ++ ustr_of " (serial") ++ 58%N :: ((n ++ ustr_of ", sha1") ++ 58%N :: (h ++ ustr_of ")"))).
  { intros. rewrite <- !app_assoc. reflexivity. }
  rewrite !S in H.
  assert (A : forall d n m, (d ++ ustr_of " (serial") ++ 58%N :: (n ++ 58%N :: m) = (d ++ ustr_of " (serial" ++ 58%N :: n) ++ 58%N :: m).
  { intros. rewrite <- !app_assoc. reflexivity. }
  rewrite !A in H. apply split_last in H.
  2: { intros I. apply in_app_or in I. destruct I as [I|I]; [now apply hex_no_colon in I|]. cbn in I. destruct I as [I|[]]. discriminate I. }
  2: { intros I. apply in_app_or in I. destruct I as [I|I]; [now apply hex_no_colon in I|]. cbn in I. destruct I as [I|[]]. discriminate I. }
  destruct H as [H1 H2]. apply app_inv_tail in H2. apply ustr_of_inj, hex_inj in H2.
  rewrite !(app_assoc _ (ustr_of " (serial")) in H1.
  apply split_last in H1; [|apply no_colon_num|apply no_colon_num].
  destruct H1 as [H0 H1]. apply app_inv_tail in H0, H1. subst d'.
  split; [congruence|]. split; [|exact H2].
  eapply decimals_fun; [apply int_str_decimals|]. rewrite H1. apply int_str_decimals.
Qed.

(** ** Sorting *)
Definition sorted_by_end := StronglySorted (fun c d => moment (c_valid_to c) <= moment (c_valid_to d)).
Definition same_kind (c d : cert) : Prop := aware (c_valid_to c) <-> aware (c_valid_to d).
Lemma earlier_same c d : same_kind c d -> earlier (c_valid_to c) (c_valid_to d) = Ok (moment (c_valid_to c) <? moment (c_valid_to d)).
Proof. unfold same_kind. destruct (c_valid_to c), (c_valid_to d); cbn; intros H; try reflexivity; tauto. Qed.
Lemma earlier_other c d : ~ same_kind c d -> exists e, earlier (c_valid_to c) (c_valid_to d) = Err e /\ e_class e = TypeError.
Proof. unfold same_kind. destruct (c_valid_to c), (c_valid_to d); cbn; intros H; try tauto; eexists; split; reflexivity. Qed.
Lemma same_kind_dec c d : same_kind c d \/ ~ same_kind c d.
Proof. unfold same_kind. destruct (c_valid_to c), (c_valid_to d); cbn; tauto. Qed.

Lemma insert_ok c l : Forall (same_kind c) l -> sorted_by_end l ->
  exists l', expiry_insert c l = Ok l' /\ Permutation (c :: l) l' /\ sorted_by_end l' /\
  forall t, filter (fun c => moment (c_valid_to c) =? t) l' = filter (fun c => moment (c_valid_to c) =? t) (c :: l).
Proof.
  intros K S. induction S as [|d l S IH F].
  - exists [c]. repeat split; auto. constructor; constructor.
  - inversion K as [|? ? Kd Kl]; subst. cbn [expiry_insert].
    rewrite earlier_same by (unfold same_kind in *; tauto). cbn [rbind].
    destruct (moment (c_valid_to d) <? moment (c_valid_to c)) eqn:B.
    + destruct (IH Kl) as (l' & -> & P & S' & Ft). cbn [rbind]. exists (d :: l').
      split; [reflexivity|]. split; [rewrite perm_swap; now constructor|]. split.
      * constructor; [exact S'|]. eapply Permutation_Forall; [exact P|]. constructor; [lia|exact F].
      * intros t. cbn [filter]. rewrite (Ft t). cbn [filter].
        destruct (moment (c_valid_to d) =? t) eqn:B1, (moment (c_valid_to c) =? t) eqn:B2; try reflexivity. lia.
    + exists (c :: d :: l). split; [reflexivity|]. split; [reflexivity|]. split; [|reflexivity].
      constructor; [now constructor|]. constructor; [lia|]. eapply Forall_impl; [|exact F]. cbn. lia.
Qed.
Lemma one_kind_cons c l : of_one_kind (c :: l) <-> Forall (same_kind c) l.
Proof.
  unfold of_one_kind, same_kind. rewrite !Forall_cons_iff, !Forall_forall. destruct (c_valid_to c); cbn; split.
  - intros [[_ H]|[H _]]; [|tauto]. intros x Hx. specialize (H x Hx). tauto.
  - intros H. left. split; [tauto|]. intros x Hx. specialize (H x Hx). tauto.
  - intros [[H _]|[_ H]]; [tauto|]. intros x Hx. specialize (H x Hx). tauto.
  - intros H. right. split; [tauto|]. intros x Hx. specialize (H x Hx). tauto.
Qed.
Lemma one_kind_tail c l : of_one_kind (c :: l) -> of_one_kind l.
Proof. intros [H|H]; inversion H; subst; [now left|now right]. Qed.
Lemma sort_spec l :
  (of_one_kind l /\ exists l', expiry_sort l = Ok l' /\ by_expiry l l') \/
  (~ of_one_kind l /\ exists e, expiry_sort l = Err e /\ e_class e = TypeError).
Proof.
  induction l as [|c l IH].
  - left. split; [now left|]. exists []. repeat split; auto. constructor.
  - cbn [expiry_sort]. destruct IH as [(K & l' & -> & P & S & Ft)|(K & e & -> & C)]; cbn [rbind].
    + destruct l' as [|d l'].
      * apply Permutation_sym, Permutation_nil in P. subst l. left. split; [apply one_kind_cons; constructor|].
        exists [c]. repeat split; auto. constructor; constructor.
      * destruct (same_kind_dec c d) as [Sd|Sd].
        -- left. assert (F : Forall (same_kind c) (d :: l')).
           { constructor; [exact Sd|]. assert (K' : of_one_kind (d :: l')).
             { destruct K as [K|K]; [left|right]; eapply Permutation_Forall; eassumption. }
             apply one_kind_cons in K'. eapply Forall_impl; [|exact K']. cbn. unfold same_kind in *. tauto. }
           assert (Fl : Forall (same_kind c) l) by (eapply Permutation_Forall; [apply Permutation_sym; exact P|exact F]).
           split; [now apply one_kind_cons|]. destruct (insert_ok c (d :: l') F S) as (l'' & -> & P' & S' & Ft').
           exists l''. split; [reflexivity|]. split; [rewrite <- P'; now constructor|]. split; [exact S'|].
           intros t. rewrite Ft'. cbn [filter]. cbn [filter] in Ft. now rewrite Ft.
        -- right. split.
           ++ intros K'. apply one_kind_cons in K'. apply Sd. rewrite Forall_forall in K'. apply K'.
              eapply Permutation_in; [apply Permutation_sym; exact P|]. now left.
           ++ cbn [expiry_insert]. destruct (earlier_other d c) as (e & -> & C); [unfold same_kind in *; tauto|].
              exists e. now split.
    + right. split; [|exists e; now split]. intros K'. apply K. exact (one_kind_tail _ _ K').
Qed.

(** ** The lines *)
Definition named (c : cert) : Prop := exists d, dn (c_subject c) = Ok d.
Lemma dn_error n e : dn n = Err e -> e_class e = TypeError.
Proof.
  unfold dn. generalize (get_components n). intros l. destruct (dn_items l) as [x|e'] eqn:D; cbn [rbind]; [discriminate|].
  intros H. injection H as <-. revert e' D. induction l as [|[t [v|b]] l IH]; intros e' D; cbn [dn_items] in D.
  - discriminate D.
  - destruct (dn_items l) as [x|e] eqn:Dl; cbn [rbind] in D; [discriminate D|]. injection D as <-. now apply (IH e).
  - injection D as <-. reflexivity.
Qed.
Lemma print_spec E show l : forall i,
  (Forall named l /\ exists lines, print_certificates E show i l = (lines, Ok tt) /\ numbered E show i l lines) \/
  (exists pre c post lines s e, l = pre ++ c :: post /\ Forall named pre /\ ~ named c /\
     numbered E show i pre lines /\ line_start show (i + zlen pre) c s /\ e_class e = TypeError /\
     print_certificates E show i l = (lines ++ [s], Err e)).
Proof.
  induction l as [|c l IH]; intros i.
  - left. split; [constructor|]. exists []. split; [reflexivity|constructor].
  - cbn [print_certificates].
    set (st := ustr_of (int_str i) ++ ustr_of " " ++ show (c_valid_to c) ++ ustr_of " ").
    assert (LS : line_start show i c st) by (exists (ustr_of (int_str i)); split; [apply int_str_decimals|reflexivity]).
    destruct (cert_text E c) as [t|e] eqn:T.
    + apply (proj1 (cert_text_is _ _ _)) in T. destruct T as (d & D & Et).
      assert (L : line E show i c (st ++ t)).
      { exists st, d, (ustr_of (int_str (c_serial c))). split; [exact LS|]. split; [exact D|]. split; [apply int_str_decimals|now subst t]. }
      assert (Nc : named c) by now exists d.
      destruct (IH (i + 1)) as [(F & lines & -> & Nm)|(pre & c' & post & lines & s & e & -> & F & N' & Nm & S' & C & ->)].
      * left. split; [now constructor|]. exists ((st ++ t) :: lines). split; [reflexivity|now constructor].
      * right. exists (c :: pre), c', post, ((st ++ t) :: lines), s, e.
        split; [reflexivity|]. split; [now constructor|]. split; [exact N'|]. split; [now constructor|]. split; [|now split].
        replace (i + zlen (c :: pre)) with (i + 1 + zlen pre); [exact S'|]. unfold zlen. cbn [length]. lia.
    + right. exists [], c, l, [], st, e. split; [reflexivity|]. split; [constructor|].
      assert (D : dn (c_subject c) = Err e).
      { unfold cert_text in T. destruct (dn (c_subject c)); cbn [rbind] in T; [discriminate T|]. now injection T as <-. }
      split; [intros (d & D'); congruence|]. split; [constructor|]. split; [|split; [now apply (dn_error (c_subject c))|reflexivity]].
      replace (i + zlen []) with i by (unfold zlen; cbn [length]; lia). exact LS.
Qed.

Theorem c81 E show r w s : nth_error (w_stores w) r = Some s -> readable s ->
  exists w' lines res, list_store E show r w = (w', (heading :: lines, res)) /\ 
  ((~ of_one_kind (contents s) /\ lines = [] /\ exists e, res = Err e /\ e_class e = TypeError) \/
   exists l, by_expiry (contents s) l /\
   ((Forall named l /\ res = Ok tt /\ numbered E show 1 l lines) \/
    exists pre c post before cut e, l = pre ++ c :: post /\ Forall named pre /\ ~ named c /\
      numbered E show 1 pre before /\ line_start show (1 + zlen pre) c cut /\ lines = before ++ [cut] /\
      res = Err e /\ e_class e = TypeError)).
Proof.
  intros Hs R. unfold list_store. rewrite (store_iter_spec _ _ _ Hs). apply (proj1 (readable_load_error s)) in R. rewrite R.
  destruct (sort_spec (contents s)) as [(K & l & -> & B)|(K & e & -> & C)].
  - destruct (print_spec E show l 1) as [(F & lines & -> & Nm)|(pre & c' & post & lines & st & e & El & F & N' & Nm & S' & C & ->)].
    + exists (with_store r (loaded s) w), lines, (Ok tt). split; [reflexivity|]. right. exists l. split; [exact B|]. left. auto.
    + exists (with_store r (loaded s) w), (lines ++ [st]), (Err e). split; [reflexivity|]. right. exists l. split; [exact B|]. right.
      exists pre, c', post, lines, st, e. repeat (split; [assumption || reflexivity|]). exact C.
  - exists (with_store r (loaded s) w), [], (Err e). split; [reflexivity|]. left. split; [exact K|]. split; [reflexivity|]. exists e. now split.
Qed.

(** The order is determined. *)
Lemma by_expiry_unique l : forall m m', sorted_by_end m -> sorted_by_end m' ->
  (forall t, filter (fun c => moment (c_valid_to c) =? t) m = filter (fun c => moment (c_valid_to c) =? t) m') -> length m = l -> m = m'.
Proof.
  induction l as [|l IH]; intros m m' S S' F L.
  - destruct m; [|discriminate L]. destruct m' as [|c m']; [reflexivity|]. specialize (F (moment (c_valid_to c))). cbn [filter] in F.
    rewrite Z.eqb_refl in F. discriminate F.
  - destruct m as [|c m]; [discriminate L|]. destruct m' as [|d m'].
    { specialize (F (moment (c_valid_to c))). cbn [filter] in F. rewrite Z.eqb_refl in F. discriminate F. }
    assert (Sm := S). assert (Sm' := S'). apply StronglySorted_inv in Sm, Sm'. destruct Sm as [Sm Fm], Sm' as [Sm' Fm'].
    assert (Le : moment (c_valid_to d) <= moment (c_valid_to c)).
    { assert (I : In c (filter (fun x => moment (c_valid_to x) =? moment (c_valid_to c)) (d :: m'))).
      { rewrite <- F. cbn [filter]. rewrite Z.eqb_refl. now left. }
      apply filter_In in I. destruct I as [[->|I] _]; [lia|]. rewrite Forall_forall in Fm'. now apply Fm'. }
    assert (Ge : moment (c_valid_to c) <= moment (c_valid_to d)).
    { assert (I : In d (filter (fun x => moment (c_valid_to x) =? moment (c_valid_to d)) (c :: m))).
      { rewrite F. cbn [filter]. rewrite Z.eqb_refl. now left. }
      apply filter_In in I. destruct I as [[->|I] _]; [lia|]. rewrite Forall_forall in Fm. now apply Fm. }
    assert (Ecd : c = d).
    { specialize (F (moment (c_valid_to c))). cbn [filter] in F. rewrite Z.eqb_refl in F.
      replace (moment (c_valid_to d) =? moment (c_valid_to c)) with true in F by (symmetry; apply Z.eqb_eq; lia). now injection F. }
    subst d. f_equal. apply IH; try assumption; [|now injection L].
    intros t. specialize (F t). cbn [filter] in F. destruct (moment (c_valid_to c) =? t); [now injection F|exact F].
Qed.
Theorem expiry_unique l m m' : by_expiry l m -> by_expiry l m' -> m = m'.
Proof.
  intros (_ & S & F) (_ & S' & F'). eapply by_expiry_unique; [exact S|exact S'| |reflexivity]. intros t. now rewrite F, F'.
Qed.
Lemma c81_unreadable E show r w s l e : nth_error (w_stores w) r = Some s -> s_location s = Some l -> s_loaded s = false ->
  location_error l = Some e -> exists w', list_store E show r w = (w', ([heading], Err e)).
Proof.
  intros Hs Hl Ho He. exists (with_store r (loaded s) w). unfold list_store. rewrite (store_iter_spec _ _ _ Hs).
  unfold load_error. rewrite Hl, Ho. rewrite He. reflexivity.
Qed.
Lemma text_names E a b t : wf_name (c_subject a) -> wf_name (c_subject b) -> cert_text E a = Ok t -> cert_text E b = Ok t ->
  rdns (c_subject a) = rdns (c_subject b) /\ c_serial a = c_serial b /\ e_hash E "sha1" (c_der a) = e_hash E "sha1" (c_der b).
Proof.
  intros Wa Wb Ta Tb. destruct (text_inj E a b t Ta Tb) as (D & S & H). split; [|now split].
  apply (proj1 (cert_text_is _ _ _)) in Ta. destruct Ta as (d & Da & _). eapply dn_injective; [exact Wa|exact Wb|exact Da|congruence].
Qed.
Lemma text_defined E c : (exists t, cert_text E c = Ok t) <-> cert_str c = Ok tt.
Proof.
  unfold cert_text, cert_str. destruct (dn (c_subject c)); cbn [rbind].
  - split; [reflexivity|]. eexists. reflexivity.
  - split; [intros (t & H); discriminate H|discriminate].
Qed.
