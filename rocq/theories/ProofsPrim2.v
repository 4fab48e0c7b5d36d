(** Names of identifiers, and times. *)
From Verif Require Import Base Bytes ModelX509 ModelDer ModelSpc ModelDecode SpecPrim ProofsPrim.
From Coq Require Import ZifyBool ZifyNat DecimalString.

(** ** Names *)

(** Does not start as a numeral. *)
Definition wordy (s : string) : bool :=
  match s with String c _ => negb ((48 <=? N_of_ascii c)%N && (N_of_ascii c <=? 57)%N) && negb (Ascii.eqb c ".") | "" => false end.
Lemma uint_not_wordy u : wordy (NilEmpty.string_of_uint u) = false.
Proof. destruct u; reflexivity. Qed.
Lemma dots_not_wordy l : wordy (dots l) = false.
Proof.
  unfold dots. destruct l as [|x [|y l]]; [reflexivity|apply uint_not_wordy|]. cbn [map String.concat].
  pose proof (uint_not_wordy (N.to_uint (Z.to_N x))) as U. fold (numeral x) in U.
  destruct (numeral x); [reflexivity|exact U].
Qed.
(** The entries of [T] with one of the names of [L] are those of [L]. *)
Lemma named T L : forallb (fun p => match dict_get (dots (fst p)) T with Some s => String.eqb s (snd p) | None => false end) L = true ->
  forallb (fun p => wordy (snd p) && forallb (Z.leb 0) (fst p) && negb (match fst p with [] => true | _ => false end)) L = true ->
  forallb (fun e => negb (existsb (String.eqb (snd e)) (map snd L)) || existsb (fun p => String.eqb (dots (fst p)) (fst e)) L) T = true ->
  forall b arcs name, components b arcs -> In name (map snd L) ->
  oid_native T b = name <-> In (arcs, name) L.
Proof.
  intros H W X b arcs name C Hn. rewrite forallb_forall in H, W, X.
  assert (Hx : forall k, In (k, name) T -> exists p, In p L /\ dots (fst p) = k).
  { intros k Ik. specialize (X _ Ik). cbn [fst snd] in X. apply orb_true_iff in X as [X|X].
    - exfalso. apply negb_true_iff in X. assert (existsb (String.eqb name) (map snd L) = true); [|congruence].
      apply existsb_exists. exists name. split; [exact Hn|apply String.eqb_refl].
    - apply existsb_exists in X as (p & Ip & Ep). apply String.eqb_eq in Ep. eauto. }
  destruct (components_nonneg _ _ C) as [Hp Ha]. unfold oid_native. rewrite (oid_dotted _ _ C). split.
  - intro E. destruct (dict_get (dots arcs) T) as [s|] eqn:G.
    + subst s.
      assert (I : In (dots arcs, name) T).
      { clear -G. induction T as [|[k v] T IH]; [discriminate G|]. cbn in G. destruct (String.eqb_spec (dots arcs) k) as [->|N].
        - injection G as <-. now left.
        - right. auto. }
      destruct (Hx _ I) as (p & Ip & Ep). specialize (W _ Ip). rewrite !andb_true_iff in W. destruct W as [[_ W2] W3].
      assert (fst p = arcs).
      { apply dots_inj; auto.
        - rewrite forallb_forall in W2. apply Forall_forall. intros z Hz. specialize (W2 z Hz). lia.
        - destruct (fst p); [discriminate W3|discriminate]. }
      destruct p as [x y]. cbn [fst] in *. subst x. specialize (H _ Ip). cbn [fst snd] in H. rewrite G in H.
      apply String.eqb_eq in H. subst y. exact Ip.
    + exfalso. apply in_map_iff in Hn as (p & Ep & Ip). specialize (W _ Ip). rewrite !andb_true_iff in W.
      destruct W as [[W1 _] _]. rewrite Ep, <- E, dots_not_wordy in W1. discriminate W1.
  - intro I. specialize (H _ I). cbn [fst snd] in H. destruct (dict_get (dots arcs) T) as [s|]; [|discriminate H].
    now apply String.eqb_eq.
Qed.

Lemma digest_named b arcs name : components b arcs -> In name (map snd digest_names) ->
  (oid_native digest_algorithms b = name <-> In (arcs, name) digest_names).
Proof. apply named; vm_compute; reflexivity. Qed.
Lemma content_named b arcs name : components b arcs -> In name (map snd content_names) ->
  (oid_native content_types b = name <-> In (arcs, name) content_names).
Proof. apply named; vm_compute; reflexivity. Qed.
Lemma attribute_named b arcs name : components b arcs -> In name (map snd attribute_names) ->
  (oid_native attribute_types b = name <-> In (arcs, name) attribute_names).
Proof. apply named; vm_compute; reflexivity. Qed.
Lemma purpose_named b arcs name : components b arcs -> In name (map snd purpose_names) ->
  (oid_native key_purposes b = name <-> In (arcs, name) purpose_names).
Proof. apply named; vm_compute; reflexivity. Qed.

(** ** Times *)

Lemma month_days_length y m : 1 <= m <= 12 -> month_days y m = month_length y m.
Proof.
  intro H. unfold month_days, month_length, leap.
  assert (m = 1 \/ m = 2 \/ m = 3 \/ m = 4 \/ m = 5 \/ m = 6 \/ m = 7 \/ m = 8 \/ m = 9 \/ m = 10 \/ m = 11 \/ m = 12) as C by lia.
  repeat destruct C as [->|C]; try subst m; reflexivity.
Qed.
Lemma civil_day y m d : days_from_civil y m (d + 1) = days_from_civil y m d + 1.
Proof. unfold days_from_civil. cbv zeta. lia. Qed.
Lemma civil_february y : days_from_civil y 3 1 = days_from_civil y 2 (month_length y 2) + 1.
Proof.
  unfold days_from_civil, month_length, leap. cbv zeta. change (Z.to_nat (2 - 1)) with 1%nat. cbn [nth].
  change (3 <=? 2) with false. change (2 <=? 2) with true. cbv iota.
  change ((3 + 9) mod 12) with 0. change ((2 + 9) mod 12) with 11.
  change ((153 * 0 + 2) / 5) with 0. change ((153 * 11 + 2) / 5) with 337.
  destruct (y mod 4 =? 0) eqn:E4, (y mod 100 =? 0) eqn:E100, (y mod 400 =? 0) eqn:E400; cbn [andb orb negb];
    Z.to_euclidean_division_equations; lia.
Qed.
Ltac months m H :=
  let C := fresh in
  assert (m = 1 \/ m = 2 \/ m = 3 \/ m = 4 \/ m = 5 \/ m = 6 \/ m = 7 \/ m = 8 \/ m = 9 \/ m = 10 \/ m = 11 \/ m = 12) as C by lia;
  repeat destruct C as [->|C]; try subst m; clear H.
(** All but February. *)
Ltac ml := repeat match goal with
  | |- context [month_length ?y ?m] => lazymatch m with 2 => fail | _ =>
      let v := eval cbv in (match m with 4 | 6 | 9 | 11 => 30 | _ => 31 end) in change (month_length y m) with v end
  | H : context [month_length ?y ?m] |- _ => lazymatch m with 2 => fail | _ =>
      let v := eval cbv in (match m with 4 | 6 | 9 | 11 => 30 | _ => 31 end) in change (month_length y m) with v in H end
  end.
Lemma february y : month_length y 2 = 28 \/ month_length y 2 = 29.
Proof. unfold month_length. change (Z.to_nat (2 - 1)) with 1%nat. cbn [nth]. destruct (leap y); auto. Qed.
Lemma month_length_ge y m : 1 <= m <= 12 -> 28 <= month_length y m <= 31.
Proof. intro H. pose proof (february y). months m H; ml; lia. Qed.

Lemma civil_month y m : 1 <= m < 12 -> days_from_civil y (m + 1) 1 = days_from_civil y m (month_length y m) + 1.
Proof.
  intro H. destruct (Z.eq_dec m 2) as [->|N]; [apply civil_february|].
  months m H; try congruence;
  ml;
  unfold days_from_civil; cbv zeta;
  match goal with |- context [?a + 1 <=? 2] => change (a + 1) with (Z.succ a) end || idtac; cbn [Z.succ]; 
  repeat match goal with |- context [?a <=? 2] => let v := eval vm_compute in (a <=? 2) in change (a <=? 2) with v; cbv iota end;
  repeat match goal with |- context [(153 * ?a + 2) / 5] => let v := eval vm_compute in ((153 * a + 2) / 5) in change ((153 * a + 2) / 5) with v end;
  lia.
Qed.
Lemma civil_year y : days_from_civil (y + 1) 1 1 = days_from_civil y 12 31 + 1.
Proof.
  unfold days_from_civil; cbv zeta. change (1 <=? 2) with true. change (12 <=? 2) with false. cbv iota.
  replace (y + 1 - 1) with y by lia.
  change ((153 * ((1 + 9) mod 12) + 2) / 5) with 306. change ((153 * ((12 + 9) mod 12) + 2) / 5) with 275. lia.
Qed.
Definition valid (t : Z * Z * Z) : Prop := let '(y, m, d) := t in date y m d.
Definition number_of (t : Z * Z * Z) : Z := let '(y, m, d) := t in days_from_civil y m d.
Lemma tomorrow_valid t t' : valid t -> tomorrow t t' -> valid t' /\ number_of t' = number_of t + 1.
Proof.
  intros V T. destruct T as [y m d L|y m d E L|y d E]; cbn [valid number_of] in *; unfold date in *.
  - split; [lia|apply civil_day].
  - subst d. split; [|apply civil_month; lia]. pose proof (month_length_ge y (m + 1)). lia.
  - subst d. split; [ml; lia|apply civil_year].
Qed.
Lemma days_after_number t n : days_after t n -> valid t /\ number_of t = n.
Proof.
  induction 1 as [|t t' n H [V IH] T|y m d t' n H [V IH] D T].
  - split; [cbn [valid]; unfold date; ml; lia|reflexivity].
  - destruct (tomorrow_valid _ _ V T). split; [assumption|lia].
  - split; [exact D|]. destruct (tomorrow_valid (y, m, d) t' D T). lia.
Qed.
Lemma has_tomorrow t : valid t -> exists t', tomorrow t t'.
Proof.
  destruct t as [[y m] d]. intros [Hm Hd]. destruct (Z.eq_dec d (month_length y m)) as [E|N].
  - destruct (Z.eq_dec m 12) as [->|M]; eexists; [apply next_year; exact E|apply next_month; [exact E|lia]].
  - eexists. apply next_day. lia.
Qed.
Lemma has_yesterday t' : valid t' -> exists t, valid t /\ tomorrow t t'.
Proof.
  destruct t' as [[y m] d]. intros [Hm Hd]. destruct (Z.eq_dec d 1) as [->|N].
  - destruct (Z.eq_dec m 1) as [->|M].
    + exists (y - 1, 12, 31). split; [cbn [valid]; unfold date; ml; lia|].
      replace y with (y - 1 + 1) at 2 by lia. now apply next_year.
    + exists (y, m - 1, month_length y (m - 1)). pose proof (month_length_ge y (m - 1)).
      split; [cbn [valid]; unfold date; lia|]. replace m with (m - 1 + 1) at 3 by lia. apply next_month; [reflexivity|lia].
  - exists (y, m, d - 1). split; [cbn [valid]; unfold date; lia|]. replace d with (d - 1 + 1) at 2 by lia. apply next_day. lia.
Qed.
Lemma civil_zero y m d : date y m d -> days_from_civil y m d = 0 -> (y, m, d) = (1601, 1, 1).
Proof.
  intros [Hm Hd] E. unfold days_from_civil in E. cbv zeta in E.
  set (y' := if m <=? 2 then y - 1 else y) in E.
  set (doy := (153 * ((m + 9) mod 12) + 2) / 5 + d - 1) in E.
  assert (D : 0 <= doy <= 365 /\ (doy = 306 -> m = 1 /\ d = 1)).
  { subst doy. clear E. clearbody y'. pose proof (february y). months m Hm; 
      repeat match goal with |- context [(153 * ?a + 2) / 5] => let v := eval vm_compute in ((153 * a + 2) / 5) in change ((153 * a + 2) / 5) with v end;
      ml; lia. }
  clearbody doy. destruct D as [D1 D2].
  assert (R : 0 <= y' mod 400 < 400) by (apply Z.mod_pos_bound; lia).
  set (yoe := y' mod 400) in *. set (era := y' / 400) in *.
  assert (Y : y' = 400 * era + yoe) by (apply Z.div_mod; lia). clearbody yoe era.
  assert (B : 0 <= yoe * 365 + yoe / 4 - yoe / 100 /\ (yoe > 0 -> 365 <= yoe * 365 + yoe / 4 - yoe / 100) /\ yoe * 365 + yoe / 4 - yoe / 100 <= 145731).
  { Z.to_euclidean_division_equations. lia. }
  set (k := yoe * 365 + yoe / 4 - yoe / 100) in *.
  assert (era = 4) by lia. subst era. assert (yoe = 0) by lia. subst yoe.
  assert (doy = 306) by (subst k; change (0 * 365 + 0 / 4 - 0 / 100) with 0 in E; lia).
  destruct (D2 H) as [-> ->]. subst y'. cbn in Y. f_equal. f_equal. lia.
Qed.
Lemma number_days_after k : forall t, valid t -> Z.abs_nat (number_of t) = k -> days_after t (number_of t).
Proof.
  induction k as [|k IH]; intros t V E.
  - destruct t as [[y m] d]. cbn [number_of] in *. assert (Z0 : days_from_civil y m d = 0) by lia.
    rewrite Z0. rewrite (civil_zero y m d V Z0). constructor.
  - destruct (Z_lt_le_dec 0 (number_of t)) as [P|P].
    + destruct (has_yesterday t V) as (t0 & V0 & T). destruct (tomorrow_valid _ _ V0 T) as [_ N].
      rewrite N. eapply day_later; [apply IH; [exact V0|lia]|exact T].
    + destruct (has_tomorrow t V) as (t' & T). destruct (tomorrow_valid _ _ V T) as [V' N].
      replace (number_of t) with (number_of t' - 1) by lia. destruct t as [[y m] d].
      eapply day_earlier; [apply IH; [exact V'|lia]|exact V|exact T].
Qed.
Theorem days_civil y m d n : date y m d -> (days_after (y, m, d) n <-> days_from_civil y m d = n).
Proof.
  intro D. split.
  - intro H. apply days_after_number in H. apply H.
  - intros <-. exact (number_days_after _ (y, m, d) D eq_refl).
Qed.

Lemma digit_value z : 0 <= z < 10 -> Z_of_byte (digit z) - 48 = z.
Proof. intro H. unfold digit. rewrite Z_of_byte_of_Z by lia. lia. Qed.
Lemma number_two z b : digits2 z -> number 2 (two z ++ b) = Some (z, b).
Proof.
  unfold digits2. intro H. unfold number, two. cbn [app].
  replace (zlen (digit (z / 10) :: digit (z mod 10) :: b) <? 2) with false.
  2: { unfold zlen. cbn [length]. lia. }
  rewrite ztake_firstn, zskip_skipn by lia. change (Z.to_nat 2) with 2%nat. cbn [firstn skipn].
  assert (0 <= z / 10 < 10) by (split; [apply Z.div_pos; lia|apply Z.div_lt_upper_bound; lia]).
  assert (0 <= z mod 10 < 10) by (apply Z.mod_pos_bound; lia).
  unfold ModelDecode.digits. cbv zeta. rewrite !digit_value by assumption.
  replace ((0 <=? z / 10) && (z / 10 <=? 9)) with true by lia.
  replace ((0 <=? z mod 10) && (z mod 10 <=? 9)) with true by lia.
  f_equal. f_equal. pose proof (Z.div_mod z 10 ltac:(lia)). lia.
Qed.
Lemma optional_two z b : digits2 z -> optional_number 2 (two z ++ b) = (Some z, b).
Proof. intro H. unfold optional_number. now rewrite number_two. Qed.
Lemma number_four z b : 0 <= z < 10000 -> number 4 (four z ++ b) = Some (z, b).
Proof.
  intro H. unfold number, four, two. cbn [app].
  match goal with |- context [zlen ?l <? 4] => replace (zlen l <? 4) with false by (unfold zlen; cbn [length]; lia) end.
  assert (0 <= z / 100 < 100) by (split; [apply Z.div_pos; lia|apply Z.div_lt_upper_bound; lia]).
  assert (0 <= z mod 100 < 100) by (apply Z.mod_pos_bound; lia).
  set (p := z / 100) in *. set (q := z mod 100) in *. assert (E : z = 100 * p + q) by (apply Z.div_mod; lia). clearbody p q.
  rewrite ztake_firstn, zskip_skipn by lia. change (Z.to_nat 4) with 4%nat. cbn [firstn skipn].
  assert (0 <= p / 10 < 10) by (split; [apply Z.div_pos; lia|apply Z.div_lt_upper_bound; lia]).
  assert (0 <= p mod 10 < 10) by (apply Z.mod_pos_bound; lia).
  assert (0 <= q / 10 < 10) by (split; [apply Z.div_pos; lia|apply Z.div_lt_upper_bound; lia]).
  assert (0 <= q mod 10 < 10) by (apply Z.mod_pos_bound; lia).
  unfold ModelDecode.digits. cbv zeta. rewrite !digit_value by assumption.
  replace ((0 <=? p / 10) && (p / 10 <=? 9)) with true by lia.
  replace ((0 <=? p mod 10) && (p mod 10 <=? 9)) with true by lia.
  replace ((0 <=? q / 10) && (q / 10 <=? 9)) with true by lia.
  replace ((0 <=? q mod 10) && (q mod 10 <=? 9)) with true by lia.
  f_equal. f_equal. pose proof (Z.div_mod p 10 ltac:(lia)). pose proof (Z.div_mod q 10 ltac:(lia)). lia.
Qed.
Lemma zone_read g b off : zone b off -> time_zone g b = Some off /\ Z.abs off < 1440 /\ time_fraction 1 b = (0, b).
Proof.
  intro H. destruct H as [|h m Hh Hm|h m Hh Hm].
  - repeat split; lia.
  - split; [|split; [lia|reflexivity]]. unfold time_zone, two. cbn [app at_end]. cbv iota. change [digit (h / 10); digit (h mod 10); digit (m / 10); digit (m mod 10)] with (two h ++ two m).
    change (Z_of_byte (byte_of_Z 43) =? 90) with false.
    change ((Z_of_byte (byte_of_Z 43) =? 43) || (Z_of_byte (byte_of_Z 43) =? 45)) with true.
    change (Z_of_byte (byte_of_Z 43) =? 43) with true. cbv iota.
    rewrite number_two by (unfold digits2; lia). rewrite <- (app_nil_r (two m)), optional_two by (unfold digits2; lia).
    cbn [at_end]. rewrite orb_true_r. cbn [andb]. f_equal. lia.
  - split; [|split; [lia|reflexivity]]. unfold time_zone, two. cbn [app at_end]. cbv iota. change [digit (h / 10); digit (h mod 10); digit (m / 10); digit (m mod 10)] with (two h ++ two m).
    change (Z_of_byte (byte_of_Z 45) =? 90) with false.
    change ((Z_of_byte (byte_of_Z 45) =? 43) || (Z_of_byte (byte_of_Z 45) =? 45)) with true.
    change (Z_of_byte (byte_of_Z 45) =? 43) with false. cbv iota.
    rewrite number_two by (unfold digits2; lia). rewrite <- (app_nil_r (two m)), optional_two by (unfold digits2; lia).
    cbn [at_end]. rewrite orb_true_r. cbn [andb]. f_equal. lia.
Qed.
(** With a zone, or (in a GeneralizedTime) without. *)
Definition zoned (g : bool) (zb : bytes) (off : Z) (wrap : Z -> datetime) : Prop :=
  (zone zb off /\ wrap = Aware) \/ (g = true /\ zb = [] /\ off = 0 /\ wrap = Naive).
Lemma zoned_read g b off wrap : zoned g b off wrap ->
  time_zone g b = Some off /\ Z.abs off < 1440 /\ time_fraction 1 b = (0, b) /\
  (if at_end b then Naive else Aware) = wrap.
Proof.
  intros [[H ->]|(-> & -> & -> & ->)]; [|repeat split; lia].
  destruct (zone_read g b off H) as (A & B & C). split; [exact A|]. split; [exact B|]. split; [exact C|].
  now destruct H.
Qed.
Lemma before_end y m d : y < 10000 -> date y m d -> days_from_civil y m d < days_from_civil 10000 1 1.
Proof.
  intros Y [M D]. pose proof (month_length_ge y m M) as L. change (days_from_civil 10000 1 1) with 3067671.
  unfold days_from_civil. cbv zeta.
  assert (MP : 0 <= (m + 9) mod 12 < 12) by (apply Z.mod_pos_bound; lia).
  destruct (m <=? 2) eqn:Hm.
  - assert (Y1 : (y - 1) / 400 * 400 + (y - 1) mod 400 <= 9998) by (pose proof (Z.div_mod (y - 1) 400 ltac:(lia)); lia).
    assert (Y2 : 0 <= (y - 1) mod 400 < 400) by (apply Z.mod_pos_bound; lia).
    set (e := (y - 1) / 400) in *. set (r := (y - 1) mod 400) in *. clearbody e r.
    assert (r / 4 < 100) by (apply Z.div_lt_upper_bound; lia). assert (0 <= r / 100) by (apply Z.div_pos; lia).
    assert ((153 * ((m + 9) mod 12) + 2) / 5 < 338) by (apply Z.div_lt_upper_bound; lia).
    assert (e <= 24) by lia. destruct (Z.eq_dec e 24) as [->|]; [|lia].
    assert (r <= 398) by lia. lia.
  - assert (Y1 : y / 400 * 400 + y mod 400 <= 9999) by (pose proof (Z.div_mod y 400 ltac:(lia)); lia).
    assert (Y2 : 0 <= y mod 400 < 400) by (apply Z.mod_pos_bound; lia).
    set (e := y / 400) in *. set (r := y mod 400) in *. clearbody e r.
    assert (r / 4 < 100) by (apply Z.div_lt_upper_bound; lia). assert (0 <= r / 100) by (apply Z.div_pos; lia).
    assert (Q : (m + 9) mod 12 = m - 3) by (replace (m + 9) with (m - 3 + 1 * 12) by lia; rewrite Z.mod_add, Z.mod_small by lia; reflexivity).
    rewrite Q. assert ((153 * (m - 3) + 2) / 5 < 276) by (apply Z.div_lt_upper_bound; lia).
    assert (e <= 24) by lia. destruct (Z.eq_dec e 24) as [->|]; [|lia].
    assert (r = 399 \/ r <= 398) as [->|] by lia; [|lia]. change (399 / 4) with 99. change (399 / 100) with 3. lia.
Qed.
Lemma local_end y m d h mi s us : y < 10000 -> date y m d -> h < 24 -> mi < 60 -> s < 60 -> us < 1000000 ->
  ((days_from_civil y m d * 24 + h) * 60 + mi) * 60000000 + s * 1000000 + us < end_of_time.
Proof. intros. pose proof (before_end y m d ltac:(assumption) ltac:(assumption)). unfold end_of_time. lia. Qed.
Lemma civil_read g y mo d h mi s zb off wrap t :
  0 <= y < 10000 -> Forall digits2 [mo; d; h; mi; s] -> zoned g zb off wrap ->
  civil g y (two mo ++ two d ++ two h ++ two mi ++ two s ++ zb) = Ok t <->
  1 <= y /\ date y mo d /\ clock h mi s /\
  exists n, days_after (y, mo, d) n /\ t = wrap ((((n * 24 + h) * 60 + mi - off) * 60 + s) * 1000000).
Proof.
  intros Hy F Z. destruct (zoned_read g zb off wrap Z) as (Zz & Zo & Zf & Zw).
  repeat match goal with F : Forall _ (_ :: _) |- _ => inversion F; clear F; subst end.
  unfold civil. rewrite !number_two by assumption. cbv beta iota. rewrite !optional_two by assumption.
  assert ((if g then time_fraction 1 zb else (0, zb)) = (0, zb)) as -> by (destruct g; auto).
  rewrite Zz.
  replace (g || true) with true by (destruct g; reflexivity).
  unfold clock, digits2 in *. set (wr := if at_end zb then Naive else Aware). clearbody wr. clear Z Zz Zf.
  split.
  - destruct (_ && _) eqn:C; [|discriminate]. intro E. injection E as <-.
    assert (M : 1 <= mo <= 12) by lia. rewrite (month_days_length _ _ M) in C.
    assert (D : date y mo d) by (unfold date; lia).
    split; [lia|]. split; [exact D|]. split; [lia|]. exists (days_from_civil y mo d).
    split; [now apply days_civil|f_equal; lia].
  - intros (Y & D & K & n & Hn & ->). apply (days_civil _ _ _ _ D) in Hn. destruct D as [D1 D2].
    rewrite (month_days_length _ _ D1).
    pose proof (local_end y mo d h mi s 0 ltac:(lia) (conj D1 D2) ltac:(lia) ltac:(lia) ltac:(lia) ltac:(lia)).
    match goal with |- (if ?c then _ else _) = _ => replace c with true by lia end.
    f_equal. f_equal. rewrite Hn. lia.
Qed.
Theorem utc_read y mo d h mi s zb off t :
  Forall digits2 [y; mo; d; h; mi; s] -> zone zb off ->
  time_native "utc_time" (two y ++ two mo ++ two d ++ two h ++ two mi ++ two s ++ zb) = Ok t <->
  date (utc_year y) mo d /\ clock h mi s /\
  exists n, days_after (utc_year y, mo, d) n /\ t = Aware ((((n * 24 + h) * 60 + mi - off) * 60 + s) * 1000000).
Proof.
  intros F Z. inversion F as [|? ? Hy F']; subst. unfold time_native. cbn [String.eqb Ascii.eqb Bool.eqb].
  change (String.eqb "utc_time" "utc_time") with true. cbv iota. rewrite number_two by exact Hy.
  assert (Y : 1900 <= utc_year y < 10000) by (unfold utc_year, digits2 in *; destruct (_ <? _); lia).
  fold (utc_year y). rewrite (civil_read false (utc_year y) mo d h mi s zb off Aware t ltac:(lia) F' (or_introl (conj Z eq_refl))). split; [tauto|]. intro. split; [lia|assumption].
Qed.
Theorem local_read y mo d h mi s t :
  0 <= y < 10000 -> Forall digits2 [mo; d; h; mi; s] ->
  time_native "general_time" (four y ++ two mo ++ two d ++ two h ++ two mi ++ two s) = Ok t <->
  1 <= y /\ date y mo d /\ clock h mi s /\
  exists n, days_after (y, mo, d) n /\ t = Naive ((((n * 24 + h) * 60 + mi) * 60 + s) * 1000000).
Proof.
  intros Hy F. unfold time_native. change (String.eqb "general_time" "utc_time") with false. cbv iota.
  rewrite number_four by exact Hy. rewrite <- (app_nil_r (two s)).
  rewrite (civil_read true y mo d h mi s [] 0 Naive t ltac:(lia) F ltac:(right; auto)).
  now setoid_rewrite Z.sub_0_r.
Qed.
Theorem general_read y mo d h mi s zb off t :
  0 <= y < 10000 -> Forall digits2 [mo; d; h; mi; s] -> zone zb off ->
  time_native "general_time" (four y ++ two mo ++ two d ++ two h ++ two mi ++ two s ++ zb) = Ok t <->
  1 <= y /\ date y mo d /\ clock h mi s /\
  exists n, days_after (y, mo, d) n /\ t = Aware ((((n * 24 + h) * 60 + mi - off) * 60 + s) * 1000000).
Proof.
  intros Hy F Z. unfold time_native. change (String.eqb "general_time" "utc_time") with false. cbv iota.
  rewrite number_four by exact Hy. apply civil_read; [lia|exact F|left; auto].
Qed.
