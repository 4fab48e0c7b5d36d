(** Primitive values: proofs. *)
From Verif Require Import Base Bytes ModelX509 ModelDer ModelSpc ModelDecode SpecPrim.
From Coq Require Import ZifyBool ZifyNat DecimalString DecimalN DecimalFacts.

(** ** INTEGER *)

Lemma be_snoc b x : be_to_Z (b ++ [x]) = be_to_Z b * 256 + Z_of_byte x.
Proof. unfold be_to_Z. rewrite fold_left_app. reflexivity. Qed.
Lemma zlen_snoc {A} (b : list A) x : zlen (b ++ [x]) = zlen b + 1.
Proof. rewrite zlen_app. reflexivity. Qed.

Lemma int_snoc b x : b <> [] -> int_native (b ++ [x]) = 256 * int_native b + Z_of_byte x.
Proof.
  destruct b as [|y b]; [congruence|intros _]. unfold int_native. cbn [app].
  change (y :: b ++ [x]) with ((y :: b) ++ [x]). rewrite be_snoc, zlen_snoc.
  destruct (_ <? _); [lia|].
  replace (8 * (zlen (y :: b) + 1)) with (8 * zlen (y :: b) + 8) by lia.
  rewrite Z.pow_add_r by (pose proof (zlen_nonneg (y :: b)); lia). change (2 ^ 8) with 256. lia.
Qed.
Lemma int_twos b : b <> [] -> twos_complement b (int_native b).
Proof.
  induction b as [|x b IH] using rev_ind; [congruence|intros _]. destruct b as [|y b].
  - cbn [app].
    replace (int_native [x]) with (if Z_of_byte x <? 128 then Z_of_byte x else Z_of_byte x - 256); [constructor|].
    unfold int_native, be_to_Z. cbn [fold_left]. change (8 * zlen [x]) with 8. change (2 ^ 8) with 256.
    destruct (_ <? _); lia.
  - rewrite int_snoc by discriminate. constructor. apply IH. discriminate.
Qed.
Lemma twos_int b z : twos_complement b z -> b <> [] /\ int_native b = z.
Proof.
  intro H. induction H as [x|b z x H [N IH]].
  - split; [discriminate|]. unfold int_native, be_to_Z. cbn [fold_left]. change (8 * zlen [x]) with 8. change (2 ^ 8) with 256.
    destruct (_ <? _); lia.
  - split; [intro E; apply app_eq_nil in E as [_ E]; discriminate E|]. rewrite int_snoc by exact N. lia.
Qed.
Theorem integer_native b z : twos_complement b z <-> b <> [] /\ int_native b = z.
Proof. split; [apply twos_int|]. intros [N <-]. now apply int_twos. Qed.

(** ** OBJECT IDENTIFIER *)

Lemma oid_parts_groups p y : groups p y -> forall b acc,
  oid_parts acc (p ++ b) = oid_parts (acc * 128 ^ zlen p + y) b.
Proof.
  induction 1 as [|p y x G IH Hx]; intros b acc.
  - cbn [app]. f_equal. change (zlen (@nil byte)) with 0. change (128 ^ 0) with 1. lia.
  - rewrite <- app_assoc, IH. cbn [app oid_parts]. rewrite Z_of_byte_of_Z by lia.
    replace (128 + x <? 128) with false by lia.
    replace ((128 + x) mod 128) with x by (rewrite Z.add_comm, <- (Z.mul_1_l 128) at 1; rewrite Z.mod_add, Z.mod_small by lia; reflexivity).
    f_equal. rewrite zlen_snoc, Z.pow_add_r by (try apply zlen_nonneg; lia). change (128 ^ 1) with 128. lia.
Qed.
Lemma oid_parts_sub s z b : subidentifier s z -> oid_parts 0 (s ++ b) = z :: oid_parts 0 b.
Proof.
  intros (p & y & x & G & Hx & -> & ->). rewrite <- app_assoc, (oid_parts_groups _ _ G). cbn [app oid_parts].
  rewrite Z_of_byte_of_Z by lia. replace (x <? 128) with true by lia. rewrite Z.mod_small by lia.
  f_equal. lia.
Qed.
Lemma oid_parts_all bs l : Forall2 subidentifier bs l -> oid_parts 0 (concat bs) = l.
Proof.
  induction 1 as [|s z bs l H F IH]; [reflexivity|]. cbn [concat]. rewrite (oid_parts_sub _ _ _ H). now f_equal.
Qed.
Lemma sjoin_concat l : sjoin l = String.concat "." l.
Proof.
  induction l as [|s l IH]; [reflexivity|]. destruct l as [|t l]; [reflexivity|].
  cbn [sjoin String.concat] in *. rewrite IH. reflexivity.
Qed.
Theorem oid_dotted b arcs : components b arcs -> dotted b = dots arcs.
Proof.
  intros (x & y & rest & b1 & bs & -> & Hx & H1 & Hs & ->). unfold dotted.
  rewrite (oid_parts_sub _ _ _ H1), (oid_parts_all _ _ Hs).
  assert (((if 80 <=? 40 * x + y then (2, 40 * x + y - 80) else if 40 <=? 40 * x + y then (1, 40 * x + y - 40) else (0, 40 * x + y)) = (x, y))) as ->.
  { destruct Hx as [[Hx Hy]|[-> Hy]].
    - assert (x = 0 \/ x = 1) as [->| ->] by lia.
      + replace (80 <=? 40 * 0 + y) with false by lia. replace (40 <=? 40 * 0 + y) with false by lia. f_equal; lia.
      + replace (80 <=? 40 * 1 + y) with false by lia. replace (40 <=? 40 * 1 + y) with true by lia. f_equal; lia.
    - replace (80 <=? 40 * 2 + y) with true by lia. f_equal; lia. }
  rewrite sjoin_concat. reflexivity.
Qed.

(** Reading the digits up to a dot. *)
Fixpoint no_dot (s : string) : Prop := match s with "" => True | String c s' => c <> "."%char /\ no_dot s' end.
Lemma numeral_no_dot u : no_dot (NilEmpty.string_of_uint u).
Proof. induction u; cbn; auto; split; auto; discriminate. Qed.
Lemma dot_split s s' t t' : no_dot s -> no_dot s' -> (s ++ String "." t)%string = (s' ++ String "." t')%string -> s = s' /\ t = t'.
Proof.
  revert s'. induction s as [|c s IH]; intros [|c' s'] N N' E; cbn in E.
  - injection E as <-. auto.
  - injection E as <- _. destruct N' as [N' _]. congruence.
  - injection E as -> _. destruct N as [N _]. congruence.
  - injection E as <- E. destruct N as [_ N], N' as [_ N']. destruct (IH s' N N' E). subst. auto.
Qed.
Lemma dot_none s s' t : no_dot s -> s <> (s' ++ String "." t)%string.
Proof.
  revert s'. induction s as [|c s IH]; intros [|c' s'] N E; cbn in E; try discriminate E; injection E as -> E.
  - destruct N as [N _]. congruence.
  - destruct N as [_ N]. exact (IH s' N E).
Qed.
Lemma numeral_inj z z' : 0 <= z -> 0 <= z' -> numeral z = numeral z' -> z = z'.
Proof.
  unfold numeral. intros Hz Hz' E. apply (f_equal NilEmpty.uint_of_string) in E.
  rewrite !NilEmpty.usu in E. injection E as E. apply (f_equal N.of_uint) in E.
  rewrite !DecimalN.Unsigned.of_to in E. lia.
Qed.
Lemma dots_inj l : forall l', Forall (Z.le 0) l -> Forall (Z.le 0) l' -> l <> [] -> l' <> [] -> dots l = dots l' -> l = l'.
Proof.
  unfold dots. induction l as [|x l IH]; intros l' F F' N N' E; [congruence|]. destruct l' as [|x' l']; [congruence|].
  inversion F as [|? ? Hx Fl]; inversion F' as [|? ? Hx' Fl']; subst.
  destruct l as [|y l], l' as [|y' l']; cbn [map String.concat] in E.
  - now rewrite (numeral_inj x x').
  - exfalso. exact (dot_none _ _ _ (numeral_no_dot _) E).
  - exfalso. symmetry in E. exact (dot_none _ _ _ (numeral_no_dot _) E).
  - apply dot_split in E; try apply numeral_no_dot. destruct E as [E1 E2].
    apply numeral_inj in E1; [|assumption|assumption]. subst x'. f_equal. apply IH; auto; discriminate.
Qed.
Lemma groups_nonneg p y : groups p y -> 0 <= y.
Proof. induction 1; lia. Qed.
Lemma components_nonneg b arcs : components b arcs -> Forall (Z.le 0) arcs /\ arcs <> [].
Proof.
  intros (x & y & rest & b1 & bs & -> & Hx & H1 & Hs & ->). split; [|discriminate].
  constructor; [lia|]. constructor; [lia|]. clear -Hs. induction Hs as [|s z bs l H F IH]; constructor; [|exact IH].
  destruct H as (p & y & x & G & Hx & -> & ->). apply groups_nonneg in G. lia.
Qed.
Theorem oid_dotted_inj b b' arcs arcs' : components b arcs -> components b' arcs' -> dotted b = dotted b' -> arcs = arcs'.
Proof.
  intros H H' E. rewrite (oid_dotted _ _ H), (oid_dotted _ _ H') in E.
  destruct (components_nonneg _ _ H), (components_nonneg _ _ H'). now apply dots_inj.
Qed.
