(** Lemmas about the vocabulary of [Base]. *)
From Verif Require Import Base.
From Coq Require Import ZifyBool ZifyNat.

Lemma zlen_nonneg {A} (l : list A) : 0 <= zlen l.
Proof. unfold zlen; lia. Qed.

Lemma zlen_app {A} (a b : list A) : zlen (a ++ b) = zlen a + zlen b.
Proof. unfold zlen; rewrite app_length; lia. Qed.

Lemma zlen_cons {A} (a : A) (b : list A) : zlen (a :: b) = 1 + zlen b.
Proof. unfold zlen; cbn [length]; lia. Qed.

Lemma zlen_nil {A} : zlen (@nil A) = 0.
Proof. reflexivity. Qed.

Lemma zskip_skipn {A} z (l : list A) : 0 <= z -> zskip z l = skipn (Z.to_nat z) l.
Proof.
  intros Hz; unfold zskip; destruct (zlen l <=? z) eqn:E; [|reflexivity].
  symmetry; apply skipn_all2. unfold zlen in E; lia.
Qed.

Lemma ztake_firstn {A} z (l : list A) : ztake z l = firstn (Z.to_nat z) l.
Proof.
  unfold ztake; destruct (zlen l <=? z) eqn:E; [|reflexivity].
  symmetry; apply firstn_all2. unfold zlen in E; lia.
Qed.

Lemma zlen_zskip {A} z (l : list A) : 0 <= z -> zlen (zskip z l) = Z.max 0 (zlen l - z).
Proof. intros Hz; rewrite zskip_skipn by assumption; unfold zlen; rewrite skipn_length; lia. Qed.

Lemma zlen_ztake {A} z (l : list A) : zlen (ztake z l) = Z.max 0 (Z.min z (zlen l)).
Proof. rewrite ztake_firstn; unfold zlen; rewrite firstn_length; lia. Qed.

Lemma zlen_zslice {A} a b (l : list A) :
  0 <= a -> a <= b -> b <= zlen l -> zlen (zslice a b l) = b - a.
Proof. intros; unfold zslice; rewrite zlen_ztake, zlen_zskip by assumption; lia. Qed.

Lemma zslice_empty {A} a (l : list A) : zslice a a l = [].
Proof.
  unfold zslice. rewrite ztake_firstn. replace (Z.to_nat (a - a)) with 0%nat by lia. reflexivity.
Qed.

Lemma skipn_skipn' {A} x y (l : list A) : skipn x (skipn y l) = skipn (x + y) l.
Proof.
  revert l; induction y as [|y IH]; intros l; [now rewrite Nat.add_0_r|].
  rewrite Nat.add_succ_r. destruct l; [now rewrite !skipn_nil|apply IH].
Qed.

Lemma zslice_app {A} a b c (l : list A) :
  0 <= a -> a <= b -> b <= c -> zslice a b l ++ zslice b c l = zslice a c l.
Proof.
  intros Ha Hab Hbc; unfold zslice; rewrite !ztake_firstn, !zskip_skipn by lia.
  replace (Z.to_nat (c - a)) with (Z.to_nat (b - a) + Z.to_nat (c - b))%nat by lia.
  replace (Z.to_nat b) with (Z.to_nat (b - a) + Z.to_nat a)%nat by lia.
  rewrite <- (skipn_skipn' (Z.to_nat (b - a)) (Z.to_nat a) l).
  generalize (skipn (Z.to_nat a) l) as m; intros m.
  generalize (Z.to_nat (b - a)) as n, (Z.to_nat (c - b)) as k; intros n k.
  revert m; induction n as [|n IH]; intros m; [reflexivity|].
  destruct m as [|x m]; cbn [skipn firstn Nat.add app].
  - now rewrite firstn_nil.
  - f_equal; apply IH.
Qed.

Lemma zslice_all {A} (l : list A) : zslice 0 (zlen l) l = l.
Proof.
  unfold zslice; rewrite ztake_firstn, zskip_skipn by lia. cbn [Z.to_nat skipn].
  apply firstn_all2; unfold zlen; lia.
Qed.


Lemma nth_error_firstn_lt {A} n i (m : list A) :
  (i < n)%nat -> nth_error (firstn n m) i = nth_error m i.
Proof.
  revert i m; induction n as [|n IH]; intros i m Hi; [lia|].
  destruct m as [|x m]; [now destruct i|].
  destruct i as [|i]; cbn; [reflexivity|apply IH; lia].
Qed.

Lemma nth_error_skipn_add {A} n i (m : list A) :
  nth_error (skipn n m) i = nth_error m (n + i).
Proof.
  revert m; induction n as [|n IH]; intros m; [reflexivity|].
  destruct m as [|x m]; cbn; [now destruct i|apply IH].
Qed.

Lemma nth_error_zslice {A} a b (l : list A) i :
  0 <= a -> (Z.of_nat i < b - a) ->
  nth_error (zslice a b l) i = nth_error l (Z.to_nat a + i).
Proof.
  intros Ha Hi; unfold zslice; rewrite ztake_firstn, zskip_skipn by lia.
  rewrite nth_error_firstn_lt by lia. apply nth_error_skipn_add.
Qed.

Lemma list_ext {A} (u v : list A) :
  (forall i, nth_error u i = nth_error v i) -> u = v.
Proof.
  revert v; induction u as [|x u IH]; intros v Hv; destruct v as [|y v].
  - reflexivity.
  - specialize (Hv 0%nat); discriminate.
  - specialize (Hv 0%nat); discriminate.
  - f_equal; [specialize (Hv 0%nat); now injection Hv|].
    apply IH; intros i; exact (Hv (S i)).
Qed.

Lemma zslice_ext {A} a b (l m : list A) :
  0 <= a ->
  (forall i, a <= Z.of_nat i < b -> nth_error l i = nth_error m i) ->
  zslice a b l = zslice a b m.
Proof.
  intros Ha H.
  destruct (Z.leb_spec b a) as [Hba|Hba].
  - unfold zslice; rewrite !ztake_firstn. now replace (Z.to_nat (b - a)) with 0%nat by lia.
  - assert (Hle : forall k : list A, (length (zslice a b k) <= Z.to_nat (b - a))%nat).
    { intros k; unfold zslice; rewrite ztake_firstn, firstn_length; lia. }
    apply list_ext. intros i. destruct (Z.ltb_spec (Z.of_nat i) (b - a)) as [Hi|Hi].
    + rewrite !nth_error_zslice by assumption. apply H; lia.
    + transitivity (@None A); [|symmetry]; apply nth_error_None;
        [specialize (Hle l)|specialize (Hle m)]; lia.
Qed.

Lemma zslice_within_app {A} a b (l m : list A) :
  0 <= a -> b <= zlen l -> zslice a b (l ++ m) = zslice a b l.
Proof.
  intros Ha Hb. apply zslice_ext; [assumption|]. intros i Hi.
  apply nth_error_app1. unfold zlen in Hb; lia.
Qed.

Lemma zslice_app_r {A} a b (l m : list A) :
  zlen l <= a -> zslice a b (l ++ m) = zslice (a - zlen l) (b - zlen l) m.
Proof.
  intros Ha. assert (Hl := zlen_nonneg l). unfold zslice.
  rewrite !ztake_firstn, !zskip_skipn by lia.
  replace (b - zlen l - (a - zlen l)) with (b - a) by lia. f_equal.
  rewrite skipn_app. unfold zlen in *.
  rewrite skipn_all2 by lia. cbn [app]. f_equal; lia.
Qed.

(** ** Bytes and little-endian integers *)

Lemma Z_of_byte_range b : 0 <= Z_of_byte b < 256.
Proof. unfold Z_of_byte; pose proof (Byte.to_N_bounded b); lia. Qed.

Lemma Z_of_byte_of_Z z : 0 <= z < 256 -> Z_of_byte (byte_of_Z z) = z.
Proof.
  intros Hz; unfold Z_of_byte, byte_of_Z.
  rewrite Z.mod_small by assumption.
  destruct (Byte.of_N (Z.to_N z)) as [b|] eqn:E.
  - apply Byte.to_of_N in E. rewrite E. lia.
  - apply Byte.of_N_None_iff in E. lia.
Qed.

Lemma byte_of_Z_of_byte b : byte_of_Z (Z_of_byte b) = b.
Proof.
  unfold byte_of_Z. pose proof (Z_of_byte_range b) as H.
  rewrite Z.mod_small by assumption. unfold Z_of_byte.
  rewrite N2Z.id, Byte.of_to_N. reflexivity.
Qed.

Lemma byte_of_Z_mod z : byte_of_Z (z mod 256) = byte_of_Z z.
Proof. unfold byte_of_Z. now rewrite Z.mod_mod by lia. Qed.

Lemma Z_of_byte_inj a b : Z_of_byte a = Z_of_byte b -> a = b.
Proof. intros H. rewrite <- (byte_of_Z_of_byte a), <- (byte_of_Z_of_byte b). now rewrite H. Qed.

Lemma Z_to_le_length n z : length (Z_to_le n z) = n.
Proof. revert z; induction n as [|n IH]; intros z; cbn; [reflexivity|now rewrite IH]. Qed.

Lemma le_to_Z_nonneg b : 0 <= le_to_Z b.
Proof.
  induction b as [|x b IH]; cbn [le_to_Z]; [lia|].
  pose proof (Z_of_byte_range x); lia.
Qed.

Lemma le_to_Z_bound b : le_to_Z b < 256 ^ zlen b.
Proof.
  induction b as [|x b IH]; [cbn; lia|].
  rewrite zlen_cons, Z.pow_add_r by (pose proof (zlen_nonneg b); lia).
  cbn [le_to_Z]. pose proof (Z_of_byte_range x). change (256 ^ 1) with 256. lia.
Qed.

Lemma le_to_Z_to_le n z : 0 <= z < 256 ^ Z.of_nat n -> le_to_Z (Z_to_le n z) = z.
Proof.
  revert z; induction n as [|n IH]; intros z Hz.
  - cbn in *; lia.
  - cbn [Z_to_le le_to_Z].
    rewrite Nat2Z.inj_succ, Z.pow_succ_r in Hz by lia.
    rewrite IH.
    + rewrite <- byte_of_Z_mod, Z_of_byte_of_Z by (apply Z.mod_pos_bound; lia).
      pose proof (Z.div_mod z 256); lia.
    + split; [apply Z.div_pos; lia|]. apply Z.div_lt_upper_bound; lia.
Qed.

Lemma bytes_eqb_eq a b : bytes_eqb a b = true <-> a = b.
Proof. unfold bytes_eqb; destruct (list_eq_dec byte_eq_dec a b); split; congruence. Qed.

Lemma bytes_eqb_refl a : bytes_eqb a a = true.
Proof. now apply bytes_eqb_eq. Qed.

(** ** Dicts *)

Lemma dict_get_set {V} k k' (v : V) d :
  dict_get k (dict_set k' v d) = if String.eqb k k' then Some v else dict_get k d.
Proof.
  induction d as [|[k1 v1] d IH]; cbn.
  - reflexivity.
  - destruct (String.eqb_spec k' k1) as [->|Hne]; cbn.
    + destruct (String.eqb_spec k k1); reflexivity.
    + rewrite IH. destruct (String.eqb_spec k k1) as [->|]; [|reflexivity].
      destruct (String.eqb_spec k1 k'); congruence.
Qed.

Lemma dict_get_app {V} k (l l' : dict V) :
  dict_get k (l ++ l') =
  match dict_get k l with Some v => Some v | None => dict_get k l' end.
Proof.
  induction l as [|[a b] l IH]; cbn; [reflexivity|].
  destruct (String.eqb k a); [reflexivity|exact IH].
Qed.

Lemma dict_get_update {V} k (d d' : dict V) :
  dict_get k (dict_update d d') =
  match dict_get k (rev d') with Some v => Some v | None => dict_get k d end.
Proof.
  unfold dict_update. revert d; induction d' as [|[k1 v1] d' IH]; intros d; cbn [fold_left rev].
  - reflexivity.
  - rewrite IH, dict_get_app, dict_get_set. cbn [fst snd dict_get].
    destruct (dict_get k (rev d')); [reflexivity|].
    now destruct (String.eqb k k1).
Qed.
