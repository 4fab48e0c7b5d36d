(** Proofs about the texts of times. *)
From Coq Require Import ZifyBool ZifyNat.
From Verif Require Import Base Bytes ModelX509 ModelDer ModelDecode SpecPrim ProofsPrim ProofsPrim2 SpecTime.

Lemma digit_byte x : 48 <= Z_of_byte x <= 57 -> SpecPrim.digit (Z_of_byte x - 48) = x.
Proof. intros _. unfold SpecPrim.digit. replace (48 + (Z_of_byte x - 48)) with (Z_of_byte x) by lia. apply byte_of_Z_of_byte. Qed.
Lemma two_of a b : 48 <= Z_of_byte a <= 57 -> 48 <= Z_of_byte b <= 57 ->
  [a; b] = two ((Z_of_byte a - 48) * 10 + (Z_of_byte b - 48)) /\ digits2 ((Z_of_byte a - 48) * 10 + (Z_of_byte b - 48)).
Proof.
  intros Ha Hb. unfold two, digits2. split; [|lia].
  rewrite <- (Z.div_unique ((Z_of_byte a - 48) * 10 + (Z_of_byte b - 48)) 10 (Z_of_byte a - 48) (Z_of_byte b - 48)) by lia.
  rewrite <- (Z.mod_unique ((Z_of_byte a - 48) * 10 + (Z_of_byte b - 48)) 10 (Z_of_byte a - 48) (Z_of_byte b - 48)) by lia.
  rewrite !digit_byte by assumption. reflexivity.
Qed.
Lemma number2_inv b v r : number 2 b = Some (v, r) -> b = two v ++ r /\ digits2 v.
Proof.
  unfold number. destruct (zlen b <? 2) eqn:L; [discriminate|]. destruct b as [|x [|y b]]; try (cbn in L; discriminate L).
  rewrite ztake_firstn, zskip_skipn by lia. change (Z.to_nat 2) with 2%nat. cbn [firstn skipn ModelDecode.digits]. cbv zeta.
  destruct ((0 <=? Z_of_byte x - 48) && (Z_of_byte x - 48 <=? 9)) eqn:Hx; [|discriminate].
  destruct ((0 <=? Z_of_byte y - 48) && (Z_of_byte y - 48 <=? 9)) eqn:Hy; [|discriminate].
  intros H. injection H as <- <-. destruct (two_of x y ltac:(lia) ltac:(lia)) as [T D].
  replace ((0 * 10 + (Z_of_byte x - 48)) * 10 + (Z_of_byte y - 48)) with ((Z_of_byte x - 48) * 10 + (Z_of_byte y - 48)) by lia.
  rewrite <- T. now split.
Qed.
Lemma number4_inv b v r : number 4 b = Some (v, r) -> b = four v ++ r /\ 0 <= v < 10000.
Proof.
  unfold number. destruct (zlen b <? 4) eqn:L; [discriminate|]. destruct b as [|x [|y [|z [|w b]]]]; try (cbn in L; discriminate L).
  rewrite ztake_firstn, zskip_skipn by lia. change (Z.to_nat 4) with 4%nat. cbn [firstn skipn ModelDecode.digits]. cbv zeta.
  destruct ((0 <=? Z_of_byte x - 48) && (Z_of_byte x - 48 <=? 9)) eqn:Hx; [|discriminate].
  destruct ((0 <=? Z_of_byte y - 48) && (Z_of_byte y - 48 <=? 9)) eqn:Hy; [|discriminate].
  destruct ((0 <=? Z_of_byte z - 48) && (Z_of_byte z - 48 <=? 9)) eqn:Hz; [|discriminate].
  destruct ((0 <=? Z_of_byte w - 48) && (Z_of_byte w - 48 <=? 9)) eqn:Hw; [|discriminate].
  intros H. injection H as <- <-. destruct (two_of x y ltac:(lia) ltac:(lia)) as [T D]. destruct (two_of z w ltac:(lia) ltac:(lia)) as [T' D'].
  set (p := (Z_of_byte x - 48) * 10 + (Z_of_byte y - 48)) in *. set (q := (Z_of_byte z - 48) * 10 + (Z_of_byte w - 48)) in *.
  match goal with |- context [four ?v] => replace v with (p * 100 + q) by (unfold p, q; lia) end. unfold digits2 in *.
  split; [|lia]. unfold four. rewrite <- (Z.div_unique (p * 100 + q) 100 p q), <- (Z.mod_unique (p * 100 + q) 100 p q) by lia.
  rewrite <- T, <- T'. reflexivity.
Qed.

(** What follows the digits. *)
Definition no_digit (b : bytes) : Prop := match b with [] => True | x :: _ => ~ decimal_digit x end.
Lemma number_none b : no_digit b -> number 2 b = None.
Proof.
  intros N. unfold number. destruct (zlen b <? 2) eqn:L; [reflexivity|]. destruct b as [|x [|y b]]; try (cbn in L; discriminate L).
  rewrite ztake_firstn, zskip_skipn by lia. change (Z.to_nat 2) with 2%nat. cbn [firstn skipn ModelDecode.digits]. cbv zeta.
  unfold no_digit, decimal_digit in N. replace ((0 <=? Z_of_byte x - 48) && (Z_of_byte x - 48 <=? 9)) with false by lia. reflexivity.
Qed.
Lemma optional_none b : no_digit b -> optional_number 2 b = (None, b).
Proof. intros N. unfold optional_number. now rewrite number_none. Qed.

(** ** Fractions *)
Lemma digit_run_is ds : forall acc n tail, Forall decimal_digit ds -> no_digit tail ->
  digit_run acc n (ds ++ tail) = (fold_left (fun v x => 10 * v + (Z_of_byte x - 48)) ds acc, n + zlen ds, tail).
Proof.
  induction ds as [|x ds IH]; intros acc n tail F N.
  - cbn [app fold_left]. replace (n + zlen []) with n by (unfold zlen; cbn [length]; lia).
    destruct tail as [|y tail]; [reflexivity|]. cbn [digit_run]. unfold no_digit, decimal_digit in N.
    replace ((0 <=? Z_of_byte y - 48) && (Z_of_byte y - 48 <=? 9)) with false by lia. reflexivity.
  - inversion F as [|? ? Fx F']; subst. cbn [app digit_run fold_left]. cbv zeta. unfold decimal_digit in Fx.
    replace ((0 <=? Z_of_byte x - 48) && (Z_of_byte x - 48 <=? 9)) with true by lia. rewrite IH by assumption.
    replace (acc * 10 + (Z_of_byte x - 48)) with (10 * acc + (Z_of_byte x - 48)) by lia.
    replace (n + 1 + zlen ds) with (n + zlen (x :: ds)) by (unfold zlen; cbn [length]; lia). reflexivity.
Qed.
Lemma digit_split b : exists ds tail, b = ds ++ tail /\ Forall decimal_digit ds /\ no_digit tail.
Proof.
  induction b as [|x b (ds & tail & -> & F & N)].
  - exists [], []. split; [reflexivity|]. split; [constructor|exact I].
  - destruct (Z_le_dec 48 (Z_of_byte x)) as [A|A]; [destruct (Z_le_dec (Z_of_byte x) 57) as [B|B]|].
    + exists (x :: ds), tail. split; [reflexivity|]. split; [constructor; [now split|exact F]|exact N].
    + exists [], (x :: ds ++ tail). split; [reflexivity|]. split; [constructor|]. unfold no_digit, decimal_digit. lia.
    + exists [], (x :: ds ++ tail). split; [reflexivity|]. split; [constructor|]. unfold no_digit, decimal_digit. lia.
Qed.
Lemma rounds_is us num den : 0 < den -> (2 * num + den - 1) / (2 * den) = us <-> rounds us num den.
Proof.
  intros D. unfold rounds. split.
  - intros <-. pose proof (Z.div_mod (2 * num + den - 1) (2 * den) ltac:(lia)). pose proof (Z.mod_pos_bound (2 * num + den - 1) (2 * den) ltac:(lia)). lia.
  - intros R. symmetry. apply (Z.div_unique _ _ _ (2 * num + den - 1 - 2 * den * us)); lia.
Qed.
Definition zone_start (b : bytes) : Prop :=
  match b with [] => True | x :: _ => Z_of_byte x = 90 \/ Z_of_byte x = 43 \/ Z_of_byte x = 45 \/ Z_of_byte x = 10 end.
Lemma zone_start_no_digit b : zone_start b -> no_digit b.
Proof. destruct b as [|x b]; [trivial|]. cbn. unfold decimal_digit. lia. Qed.
Lemma separator x : x = byte_of_Z 46 \/ x = byte_of_Z 44 <-> Z_of_byte x = 46 \/ Z_of_byte x = 44.
Proof.
  split.
  - intros [->| ->]; [left|right]; reflexivity.
  - intros [H|H]; rewrite <- H; [left|right]; symmetry; apply byte_of_Z_of_byte.
Qed.
Lemma fraction_fwd unit fb us tail : fraction unit fb us -> zone_start tail -> time_fraction unit (fb ++ tail) = (us, tail).
Proof.
  intros F Z. destruct F as [|x ds us X N D R].
  - cbn [app]. destruct tail as [|y tail]; [reflexivity|]. cbn [time_fraction]. cbn in Z.
    replace ((Z_of_byte y =? 46) || (Z_of_byte y =? 44)) with false by lia. reflexivity.
  - cbn [app time_fraction]. apply separator in X. replace ((Z_of_byte x =? 46) || (Z_of_byte x =? 44)) with true by lia.
    rewrite digit_run_is by (assumption || now apply zone_start_no_digit). cbv zeta.
    assert (L : 0 < zlen ds) by (destruct ds; [now elim N|]; unfold zlen; cbn [length]; lia).
    replace (0 + zlen ds) with (zlen ds) by lia. replace (zlen ds =? 0) with false by lia.
    f_equal. apply rounds_is; [apply Z.pow_pos_nonneg; lia|exact R].
Qed.
Lemma fraction_inv unit b us tail : time_fraction unit b = (us, tail) -> exists fb, b = fb ++ tail /\ fraction unit fb us.
Proof.
  destruct b as [|x b]; cbn [time_fraction].
  - intros H. injection H as <- <-. exists []. split; [reflexivity|constructor].
  - destruct ((Z_of_byte x =? 46) || (Z_of_byte x =? 44)) eqn:X.
    + destruct (digit_split b) as (ds & rest & -> & F & N). rewrite digit_run_is by assumption. cbv zeta.
      replace (0 + zlen ds) with (zlen ds) by lia. destruct (zlen ds =? 0) eqn:L; intros H; injection H as <- <-.
      * exists []. split; [reflexivity|constructor].
      * exists (x :: ds). split; [reflexivity|]. constructor; [apply separator; lia|intros ->; discriminate L|exact F|].
        apply rounds_is; [apply Z.pow_pos_nonneg; unfold zlen; lia|reflexivity].
    + intros H. injection H as <- <-. exists []. split; [reflexivity|constructor].
Qed.

(** ** Zones *)
Lemma at_end_is b : at_end b = true <-> ending b.
Proof.
  split.
  - destruct b as [|x [|y b]]; cbn [at_end]; intros H; [constructor| |discriminate H].
    replace x with (byte_of_Z 10); [constructor|]. assert (E : Z_of_byte x = 10) by lia. rewrite <- E. apply byte_of_Z_of_byte.
  - intros [|]; reflexivity.
Qed.
Lemma ending_no_digit b : ending b -> no_digit b.
Proof. intros [|]; [exact I|]. unfold no_digit, decimal_digit. assert (E : Z_of_byte (byte_of_Z 10) = 10) by reflexivity. lia. Qed.
Definition minutes_of (off : option Z) : Z := match off with Some o => o | None => 0 end.
Definition allowed (g : bool) (zb : bytes) (off : option Z) : Prop := g = true \/ (off <> None /\ ~ hour_only zb).
Lemma sign_byte x sg : (x = byte_of_Z 43 /\ sg = 1) \/ (x = byte_of_Z 45 /\ sg = -1) <-> (Z_of_byte x = 43 /\ sg = 1) \/ (Z_of_byte x = 45 /\ sg = -1).
Proof.
  split; (intros [[H ->]|[H ->]]; [left|right]; split; [|reflexivity|idtac..]); subst; try reflexivity; rewrite <- H; symmetry; apply byte_of_Z_of_byte.
Qed.
Lemma at_end_long x y b : at_end (x :: y :: b) = false.
Proof. reflexivity. Qed.
Lemma zone_fwd g zb off eb : any_zone zb off -> ending eb -> allowed g zb off ->
  time_zone g (zb ++ eb) = Some (minutes_of off) /\ Z.abs (minutes_of off) < 1440 /\
  at_end (zb ++ eb) = match off with None => true | Some _ => false end /\ zone_start (zb ++ eb).
Proof.
  intros Z E A. assert (Ee := proj2 (at_end_is _) E). destruct Z as [| |x sg h S H|x sg h m S H M L]; cbn [minutes_of].
  - cbn [app]. split; [|split; [lia|split; [exact Ee|]]].
    + unfold time_zone. rewrite Ee. destruct A as [->|[N _]]; [reflexivity|now elim N].
    + destruct E; [exact I|]. cbn. right. right. right. reflexivity.
  - cbn [app]. assert (F : at_end (byte_of_Z 90 :: eb) = false) by (destruct E; reflexivity).
    split; [|split; [lia|split; [exact F|left; reflexivity]]]. unfold time_zone. rewrite F, Ee. reflexivity.
  - apply sign_byte in S. cbn [app]. assert (F : at_end (x :: two h ++ eb) = false) by reflexivity.
    split; [|split; [lia|split; [exact F|cbn; lia]]]. unfold time_zone. rewrite F.
    replace (Z_of_byte x =? 90) with false by lia. replace ((Z_of_byte x =? 43) || (Z_of_byte x =? 45)) with true by lia.
    rewrite number_two by (unfold digits2; lia). rewrite optional_none by now apply ending_no_digit. rewrite Ee.
    destruct A as [->|[_ N]]; [|now elim N]. cbn [orb andb]. f_equal. destruct (Z_of_byte x =? 43) eqn:Q; lia.
  - apply sign_byte in S. cbn [app]. rewrite <- app_assoc. assert (F : at_end (x :: two h ++ two m ++ eb) = false) by reflexivity.
    split; [|split; [lia|split; [exact F|cbn; lia]]]. unfold time_zone. rewrite F.
    replace (Z_of_byte x =? 90) with false by lia. replace ((Z_of_byte x =? 43) || (Z_of_byte x =? 45)) with true by lia.
    rewrite number_two by (unfold digits2; lia). rewrite optional_two by (unfold digits2; lia). rewrite Ee.
    rewrite Bool.orb_true_r. cbn [andb]. f_equal. destruct (Z_of_byte x =? 43) eqn:Q; lia.
Qed.
Lemma zone_inv g b o : time_zone g b = Some o -> Z.abs o < 1440 ->
  exists zb off eb, b = zb ++ eb /\ any_zone zb off /\ ending eb /\ allowed g zb off /\ o = minutes_of off.
Proof.
  unfold time_zone. destruct (at_end b) eqn:Eb.
  - destruct g; [|discriminate]. intros H _. injection H as <-. exists [], None, b. split; [reflexivity|].
    split; [constructor|]. split; [now apply at_end_is|]. split; [now left|reflexivity].
  - destruct b as [|x b]; [discriminate|]. destruct (Z_of_byte x =? 90) eqn:X.
    + destruct (at_end b) eqn:E; [|discriminate]. intros H _. injection H as <-. exists [x], (Some 0), b.
      split; [reflexivity|]. split.
      { replace x with (byte_of_Z 90); [constructor|]. assert (Q : Z_of_byte x = 90) by lia. rewrite <- Q. apply byte_of_Z_of_byte. }
      split; [now apply at_end_is|]. split; [|reflexivity]. right. split; [discriminate|]. unfold hour_only. cbn. discriminate.
    + destruct ((Z_of_byte x =? 43) || (Z_of_byte x =? 45)) eqn:S; [|discriminate].
      destruct (number 2 b) as [[h b2]|] eqn:Nh; [|discriminate]. apply number2_inv in Nh. destruct Nh as [-> Dh].
      destruct (optional_number 2 b2) as [m b3] eqn:Om. unfold optional_number in Om.
      destruct (at_end b3 && _) eqn:C; [|discriminate]. apply Bool.andb_true_iff in C. destruct C as [E C].
      intros H Ho. injection H as <-. unfold digits2 in Dh.
      set (sg := if Z_of_byte x =? 43 then 1 else -1).
      assert (Sg : (x = byte_of_Z 43 /\ sg = 1) \/ (x = byte_of_Z 45 /\ sg = -1)).
      { apply sign_byte. unfold sg. destruct (Z_of_byte x =? 43) eqn:Q; lia. }
      destruct (number 2 b2) as [[m' b4]|] eqn:Nm; injection Om as <- <-.
      * apply number2_inv in Nm. destruct Nm as [-> Dm]. unfold digits2 in Dm.
        exists (x :: two h ++ two m'), (Some (sg * (60 * h + m'))), b4. split; [cbn [app]; now rewrite <- app_assoc|].
        split; [constructor; try assumption; destruct (Z_of_byte x =? 43); lia|]. split; [now apply at_end_is|].
        split; [right; split; [discriminate|]; unfold hour_only; cbn; discriminate|]. cbn [minutes_of]. unfold sg. destruct (Z_of_byte x =? 43); lia.
      * exists (x :: two h), (Some (sg * (60 * h))), b2. split; [reflexivity|].
        split; [constructor; try assumption; destruct (Z_of_byte x =? 43); lia|]. split; [now apply at_end_is|].
        split; [left; destruct g; [reflexivity|discriminate C]|]. cbn [minutes_of]. unfold sg. destruct (Z_of_byte x =? 43); lia.
Qed.

(** ** The whole *)
Lemma last_date : date 9999 12 31.
Proof. unfold date. change (month_length 9999 12) with 31. lia. Qed.
Lemma last_day last : days_after (9999, 12, 31) last <-> (last + 1) * 86400000000 = end_of_time.
Proof.
  unfold end_of_time. change 10000 with (9999 + 1). rewrite civil_year. 
  rewrite (days_civil 9999 12 31 last) by exact last_date. lia.
Qed.
Lemma civil_exact g y b t : 0 <= y < 10000 ->
  civil g y b = Ok t <->
  exists mo d hb h mi s unit fb us zb off eb,
    b = two mo ++ two d ++ hb ++ fb ++ zb ++ eb /\ day_time hb h mi s unit /\ fraction unit fb us /\ any_zone zb off /\ ending eb /\
    (g = true \/ (unit <> 3600 /\ fb = [] /\ off <> None /\ ~ hour_only zb)) /\ instant_of y mo d h mi s us off t.
Proof.
  intros Hy. split.
  - unfold civil. destruct (number 2 b) as [[mo b1]|] eqn:N1; [|discriminate]. apply number2_inv in N1. destruct N1 as [-> D1].
    destruct (number 2 b1) as [[d b2]|] eqn:N2; [|discriminate]. apply number2_inv in N2. destruct N2 as [-> D2].
    destruct (number 2 b2) as [[h b3]|] eqn:N3; [|discriminate]. apply number2_inv in N3. destruct N3 as [-> D3].
    destruct (optional_number 2 b3) as [mi b4] eqn:N4. unfold optional_number in N4.
    destruct (match mi with Some _ => optional_number 2 b4 | None => (None, b4) end) as [s b5] eqn:N5. unfold optional_number in N5.
    destruct (if g then _ else _) as [us b6] eqn:N6.
    destruct (time_zone g b6) as [off|] eqn:N7; [|discriminate]. cbv zeta.
    destruct (_ && _) eqn:C; [|discriminate]. intros H. injection H as <-.
    assert (Ao : Z.abs off < 1440) by lia. destruct (zone_inv g b6 off N7 Ao) as (zb & o & eb & -> & Zz & Ze & Za & ->).
    destruct (zone_fwd g zb o eb Zz Ze Za) as (_ & _ & Eend & _). rewrite Eend.
    assert (Q : exists hb unit fb, b3 = skipn 2 hb ++ fb ++ zb ++ eb /\ hb = two h ++ skipn 2 hb /\
              day_time hb h (match mi with Some v => v | None => 0 end) (match s with Some v => v | None => 0 end) unit /\
              fraction unit fb us /\ (g = true \/ (unit <> 3600 /\ fb = []))).
    { unfold digits2 in D3. destruct (number 2 b3) as [[m' b3']|] eqn:Nm; injection N4 as <- <-.
      - apply number2_inv in Nm. destruct Nm as [-> Dm]. unfold digits2 in Dm.
        destruct (number 2 b3') as [[s' b3'']|] eqn:Ns; injection N5 as <- <-.
        + apply number2_inv in Ns. destruct Ns as [-> Ds]. unfold digits2 in Ds.
          assert (F : exists fb, b3'' = fb ++ zb ++ eb /\ fraction 1 fb us /\ (g = true \/ (1 <> 3600 /\ fb = []))).
          { destruct g; [apply fraction_inv in N6; destruct N6 as (fb & -> & F); exists fb; auto|].
            injection N6 as <- <-. exists []. split; [reflexivity|]. split; [constructor|]. right. split; [lia|reflexivity]. }
          destruct F as (fb & -> & F & G). exists (two h ++ two m' ++ two s'), 1, fb.
          split; [cbn; reflexivity|]. split; [reflexivity|]. split; [constructor; lia|]. now split.
        + assert (F : exists fb, b3' = fb ++ zb ++ eb /\ fraction 60 fb us /\ (g = true \/ (60 <> 3600 /\ fb = []))).
          { destruct g; [apply fraction_inv in N6; destruct N6 as (fb & -> & F); exists fb; auto|].
            injection N6 as <- <-. exists []. split; [reflexivity|]. split; [constructor|]. right. split; [lia|reflexivity]. }
          destruct F as (fb & -> & F & G). exists (two h ++ two m'), 60, fb.
          split; [cbn; reflexivity|]. split; [reflexivity|]. split; [constructor; lia|]. now split.
      - injection N5 as <- <-. destruct g; [|cbn in C; discriminate C].
        apply fraction_inv in N6. destruct N6 as (fb & -> & F). exists (two h), 3600, fb.
        split; [reflexivity|]. split; [reflexivity|]. split; [constructor; lia|]. split; [exact F|now left]. }
    destruct Q as (hb & unit & fb & -> & Ehb & Dt & Fr & G).
    exists mo, d, hb, h, (match mi with Some v => v | None => 0 end), (match s with Some v => v | None => 0 end), unit, fb, us, zb, o, eb.
    split; [rewrite Ehb at 2; now rewrite <- !app_assoc|]. split; [exact Dt|]. split; [exact Fr|]. split; [exact Zz|]. split; [exact Ze|].
    split. { destruct Za as [->|[Za1 Za2]]; [now left|]. destruct G as [->|[G1 G2]]; [now left|]. right. auto. }
    assert (M : 1 <= mo <= 12) by lia. rewrite (month_days_length _ _ M) in C.
    assert (D : date y mo d) by (unfold date; lia).
    split; [lia|]. split; [exact D|]. exists (days_from_civil y mo d), (days_from_civil 9999 12 31).
    split; [now apply days_civil|]. split; [apply days_civil; [exact last_date|reflexivity]|]. cbv zeta.
    rewrite (proj1 (last_day (days_from_civil 9999 12 31))) by (apply days_civil; [exact last_date|reflexivity]).
    assert (Loc : ((days_from_civil y mo d * 24 + h) * 60 + match mi with Some v => v | None => 0 end) * 60000000 +
                  match s with Some v => v | None => 0 end * 1000000 + us =
                  (((days_from_civil y mo d * 24 + h) * 60 + match mi with Some v => v | None => 0 end) * 60 +
                   match s with Some v => v | None => 0 end) * 1000000 + us) by lia.
    rewrite <- Loc. split; [lia|]. destruct o as [o|]; cbn [at_zone minutes_of]; f_equal; lia.
  - intros (mo & d & hb & h & mi & s & unit & fb & us & zb & off & eb & -> & Dt & Fr & Zz & Ze & G & Y & D & n & last & Hn & Hl & Lt & ->).
    apply (days_civil _ _ _ _ D) in Hn. apply last_day in Hl. rewrite Hl in Lt.
    assert (Za : allowed g zb off) by (unfold allowed; tauto).
    destruct (zone_fwd g zb off eb Zz Ze Za) as (Zt & Zo & Zend & Zst).
    assert (Nf : no_digit (fb ++ zb ++ eb)).
    { destruct Fr as [|x ds us X ? ? ?]; [now apply zone_start_no_digit|]. apply separator in X. cbn. unfold decimal_digit. lia. }
    destruct D as [M Dd]. pose proof (month_length_ge y mo M) as ML.
    unfold civil. rewrite number_two by (unfold digits2; lia). rewrite number_two by (unfold digits2; lia).
    assert (T : exists om os tl, hb ++ fb ++ zb ++ eb = two h ++ tl /\
              optional_number 2 tl = (om, snd (optional_number 2 tl)) /\
              match om with Some _ => optional_number 2 (snd (optional_number 2 tl)) | None => (None, snd (optional_number 2 tl)) end = (os, fb ++ zb ++ eb) /\
              match om with Some v => v | None => 0 end = mi /\ match os with Some v => v | None => 0 end = s /\
              match om, os with None, _ => 3600 | _, None => 60 | _, _ => 1 end = unit /\
              0 <= h < 24 /\ 0 <= mi < 60 /\ 0 <= s < 60).
    { destruct Dt as [h Hh|h m Hh Hm|h m s Hh Hm Hs].
      - exists None, None, (fb ++ zb ++ eb). rewrite (optional_none (fb ++ zb ++ eb)) by exact Nf. cbn [snd]. repeat split; lia.
      - exists (Some m), None, (two m ++ fb ++ zb ++ eb). rewrite !(optional_two m) by (unfold digits2; lia). cbn [snd].
        rewrite (optional_none (fb ++ zb ++ eb)) by exact Nf. split; [now rewrite <- app_assoc|]. repeat split; lia.
      - exists (Some m), (Some s), (two m ++ two s ++ fb ++ zb ++ eb). rewrite !(optional_two m) by (unfold digits2; lia). cbn [snd].
        rewrite (optional_two s) by (unfold digits2; lia). split; [now rewrite <- !app_assoc|]. repeat split; lia. }
    destruct T as (om & os & tl & -> & T1 & T2 & T3 & T4 & T5 & Hh & Hm & Hs).
    rewrite number_two by (unfold digits2; lia). rewrite T1. cbv beta iota zeta. rewrite T2. cbv beta iota zeta.
    assert (Sd : (if g then time_fraction (match om, os with None, _ => 3600 | _, None => 60 | _, _ => 1 end) (fb ++ zb ++ eb)
                  else (0, fb ++ zb ++ eb)) = (us, zb ++ eb)).
    { destruct g.
      - rewrite T5. now apply fraction_fwd.
      - destruct G as [G|(_ & -> & _)]; [discriminate G|]. inversion Fr; subst. reflexivity. }
    match goal with |- (let (_, _) := ?X in _) = _ => replace X with (us, zb ++ eb) by (symmetry; exact Sd) end. cbv beta iota zeta. rewrite Zt. cbv beta iota zeta. rewrite T3, T4, Zend.
    assert (Gm : g || match om with Some _ => true | None => false end = true).
    { destruct g; [reflexivity|]. destruct G as [G|(U & _)]; [discriminate G|]. destruct om; [reflexivity|]. now elim U. }
    rewrite Gm, (month_days_length _ _ M), Hn.
    assert (Loc : ((n * 24 + h) * 60 + mi) * 60000000 + s * 1000000 + us = (((n * 24 + h) * 60 + mi) * 60 + s) * 1000000 + us) by lia.
    rewrite <- Loc in *. 
    match goal with |- (if ?c then _ else _) = _ => replace c with true by lia end.
    destruct off as [o|]; cbn [at_zone minutes_of]; [reflexivity|]. do 2 f_equal. lia.
Qed.

Theorem general_exact b t : time_native "general_time" b = Ok t <-> general_text b t.
Proof.
  unfold time_native. change (String.eqb "general_time" "utc_time") with false. cbv iota. split.
  - destruct (number 4 b) as [[y r]|] eqn:N; [|discriminate]. apply number4_inv in N. destruct N as [-> Hy].
    intros H. apply (proj1 (civil_exact true y r t Hy)) in H. destruct H as (mo & d & hb & h & mi & s & unit & fb & us & zb & off & eb & -> & Dt & Fr & Zz & Ze & _ & I).
    exists y, mo, d, hb, h, mi, s, unit, fb, us, zb, off, eb. auto 10.
  - intros (y & mo & d & hb & h & mi & s & unit & fb & us & zb & off & eb & -> & Hy & Dt & Fr & Zz & Ze & I).
    rewrite number_four by exact Hy. apply (proj2 (civil_exact true y _ t Hy)).
    exists mo, d, hb, h, mi, s, unit, fb, us, zb, off, eb. auto 10.
Qed.
Theorem utc_exact b t : time_native "utc_time" b = Ok t <-> utc_text b t.
Proof.
  unfold time_native. change (String.eqb "utc_time" "utc_time") with true. cbv iota.
  assert (U : forall y, digits2 y -> 0 <= utc_year y < 10000) by (intros y; unfold utc_year, digits2; destruct (y <? 50); lia).
  split.
  - destruct (number 2 b) as [[y r]|] eqn:N; [|discriminate]. apply number2_inv in N. destruct N as [-> Hy]. fold (utc_year y).
    intros H. apply (proj1 (civil_exact false (utc_year y) r t (U y Hy))) in H.
    destruct H as (mo & d & hb & h & mi & s & unit & fb & us & zb & off & eb & -> & Dt & Fr & Zz & Ze & G & I).
    destruct G as [G|(G1 & -> & G2 & G3)]; [discriminate G|]. destruct off as [o|]; [|now elim G2]. inversion Fr; subst.
    exists y, mo, d, hb, h, mi, s, unit, zb, o, eb. split; [reflexivity|]. split; [exact Hy|]. auto 10.
  - intros (y & mo & d & hb & h & mi & s & unit & zb & o & eb & -> & Hy & Dt & U1 & Zz & U2 & Ze & I).
    rewrite number_two by exact Hy. fold (utc_year y). apply (proj2 (civil_exact false (utc_year y) _ t (U y Hy))).
    exists mo, d, hb, h, mi, s, unit, [], 0, zb, (Some o), eb. split; [reflexivity|]. split; [exact Dt|]. split; [constructor|].
    split; [exact Zz|]. split; [exact Ze|]. split; [|exact I]. right. split; [exact U1|]. split; [reflexivity|]. split; [discriminate|exact U2].
Qed.
