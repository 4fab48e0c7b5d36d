(** Primitive values: the functions of the decoder are those of SpecPrim.v. *)
From Coq Require Import ZifyBool ZifyNat DecimalString.
From Verif Require Import Base Bytes ModelX509 ModelDer ModelSpc ModelDecode SpecPrim SpecTime ProofsPrim ProofsPrim2 ProofsTime ProofsPrim3.

Lemma signed_fold r : forall b z, b <> [] -> int_native b = z -> fold_left (fun v y => 256 * v + Z_of_byte y) r z = int_native (b ++ r).
Proof.
  induction r as [|y r IH]; intros b z N E; [rewrite app_nil_r; symmetry; exact E|].
  cbn [fold_left]. rewrite (IH (b ++ [y])); [rewrite <- app_assoc; reflexivity|intros Q; destruct b; discriminate Q|].
  rewrite int_snoc by exact N. rewrite E. reflexivity.
Qed.
Lemma integer_is b : signed_integer b = int_native b.
Proof.
  destruct b as [|x r]; [reflexivity|]. unfold signed_integer. rewrite (signed_fold r [x]); [reflexivity|discriminate|].
  pose proof (twos_first x) as T. apply integer_native in T. exact (proj2 T).
Qed.

Lemma land127 z : Z.land z 127 = z mod 128.
Proof. change 127 with (Z.ones 7). rewrite Z.land_ones by lia. reflexivity. Qed.
Lemma septets_snoc b x : septets_value (b ++ [x]) = 128 * septets_value b + Z_of_byte x mod 128.
Proof. unfold septets_value. rewrite fold_left_app. cbn [fold_left]. rewrite land127. reflexivity. Qed.
Lemma parts_groups b : forall started, oid_parts (septets_value started) b = map septets_value (group_octets started b).
Proof.
  induction b as [|x b IH]; intros started; [reflexivity|]. cbn [oid_parts group_octets].
  replace (septets_value started * 128 + Z_of_byte x mod 128) with (septets_value (started ++ [x])) by (rewrite septets_snoc; lia).
  destruct (Z_of_byte x <? 128).
  - cbn [map]. f_equal. exact (IH []).
  - apply IH.
Qed.
Lemma septets_nonneg b : 0 <= septets_value b.
Proof.
  induction b as [|x b IH] using rev_ind; [discriminate|]. rewrite septets_snoc. pose proof (Z.mod_pos_bound (Z_of_byte x) 128). lia.
Qed.
Lemma identifier_is b : oid_text b = dotted b.
Proof.
  unfold oid_text, dotted. change 0 with (septets_value []). rewrite parts_groups.
  destruct (group_octets [] b) as [|g l]; [reflexivity|]. cbn [map]. pose proof (septets_nonneg g) as P. cbv zeta.
  unfold dots. rewrite <- sjoin_concat. set (p := septets_value g) in *.
  destruct (Z.leb_spec 80 p).
  - replace (Z.min 2 (p / 40)) with 2; [reflexivity|]. pose proof (Z.div_le_lower_bound p 40 2). lia.
  - destruct (Z.leb_spec 40 p).
    + replace (Z.min 2 (p / 40)) with 1; [reflexivity|]. pose proof (Z.div_le_lower_bound p 40 1). pose proof (Z.div_lt_upper_bound p 40 2). lia.
    + replace (Z.min 2 (p / 40)) with 0; [rewrite Z.sub_0_r; reflexivity|]. rewrite Z.div_small by lia. reflexivity.
Qed.
Lemma find_get (k : string) (names : dict string) : find (fun p => String.eqb (fst p) k) names = match dict_get k names with Some s => Some (k, s) | None => None end.
Proof.
  induction names as [|[k' s] names IH]; [reflexivity|]. cbn [find fst dict_get]. rewrite String.eqb_sym.
  destruct (String.eqb_spec k k') as [->|N]; [reflexivity|exact IH].
Qed.
Lemma called_is names b : called names b = oid_native names b.
Proof. unfold called, oid_native. rewrite identifier_is, find_get. destruct (dict_get (dotted b) names); reflexivity. Qed.

Lemma time_is n b t : time_native n b = Ok t <-> time_text n b t.
Proof.
  unfold time_text. destruct (String.eqb_spec n "utc_time") as [->|N].
  - rewrite utc_exact. intuition congruence.
  - assert (E : time_native n b = time_native "general_time" b)
      by (unfold time_native; rewrite (proj2 (String.eqb_neq _ _) N); reflexivity).
    rewrite E, general_exact. intuition congruence.
Qed.

Lemma latin1_map b : latin1 b = map code_unit b.
Proof. induction b as [|x b IH]; [reflexivity|]. cbn [latin1 map]. rewrite IH. reflexivity. Qed.
Lemma text_is tag b u : text tag b = Ok u <-> string_text tag b u.
Proof.
  unfold string_text.
  destruct (Z.eqb_spec tag 12) as [->|N1]; [rewrite utf8_text; intuition lia|].
  destruct (Z.eqb_spec tag 22) as [->|N2]; [rewrite ia5_text; unfold code_unit; intuition lia|].
  destruct (Z.eqb_spec tag 28) as [->|N3]; [rewrite universal_text; intuition lia|].
  destruct (Z.eqb_spec tag 30) as [->|N4]; [rewrite bmp_text; intuition lia|].
  unfold text. rewrite (proj2 (Z.eqb_neq _ _) N1), (proj2 (Z.eqb_neq _ _) N2), (proj2 (Z.eqb_neq _ _) N3), (proj2 (Z.eqb_neq _ _) N4).
  destruct ((tag =? 19) || (tag =? 20)) eqn:E.
  - rewrite latin1_map. split; [intros H; injection H as <-; right; left; split; [lia|reflexivity]|].
    intros [H|[H|[H|[H|H]]]]; try lia. destruct H as [_ ->]. reflexivity.
  - split; [discriminate|]. lia.
Qed.

(** In what the specifications say. *)
Ltac native_in H := repeat first [rewrite identifier_is in H | rewrite integer_is in H | rewrite called_is in H].
Ltac native :=
  repeat match goal with
  | |- context [oid_text _] => rewrite identifier_is
  | |- context [signed_integer _] => rewrite integer_is
  | |- context [called _ _] => rewrite called_is
  | H : context [oid_text _] |- _ => rewrite identifier_is in H
  | H : context [signed_integer _] |- _ => rewrite integer_is in H
  | H : context [called _ _] |- _ => rewrite called_is in H
  end.
Lemma map_called names l : map (called names) l = map (oid_native names) l.
Proof. apply map_ext. intro. apply called_is. Qed.
