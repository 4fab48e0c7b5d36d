(** The decoder reads exactly what the basic encoding rules allow. *)
From Verif Require Import Base Bytes ModelDer ModelSpc SpecAsn SpecBer ProofsDer ProofsAsn.
From Coq Require Import ZifyBool ZifyNat.

(** ** Tags *)

Lemma x80_octet x : Z_of_byte x = 128 <-> x = x80.
Proof. split; [|intros ->; reflexivity]. intros H. apply Z_of_byte_inj. exact H. Qed.

Lemma zlen_cons' {T} (x : T) l : zlen (x :: l) = zlen l + 1.
Proof. unfold zlen. cbn [length]. lia. Qed.

Lemma long_tag_iff : forall b first acc tag r, 0 <= acc ->
  long_tag first acc b = Ok (tag, r) <->
  exists h x, b = h ++ x :: r /\ Forall more h /\ ~ more x /\ (first = true -> hd x (h ++ [x]) <> x80) /\
    tag = acc * 128 ^ zlen (h ++ [x]) + septets (h ++ [x]) /\ 31 <= tag.
Proof.
  induction b as [|y b IH]; intros first acc tag r Ha; cbn [long_tag].
  { split; [discriminate|]. intros (h & x & E & _). destruct h; discriminate E. }
  destruct (first && (Z_of_byte y =? 128)) eqn:F.
  { apply andb_prop in F. destruct F as [-> F]. apply Z.eqb_eq, x80_octet in F. subst y. split; [discriminate|].
    intros (h & x & E & _ & _ & N & _). destruct h as [|h0 h]; injection E as <- E; exfalso; now apply N. }
  cbv zeta. pose proof (Z_of_byte_range y) as R. pose proof (Z.mod_pos_bound (Z_of_byte y) 128 ltac:(lia)) as M.
  destruct (Z.ltb_spec (Z_of_byte y) 128) as [L|L].
  - split.
    + destruct (Z.ltb_spec (acc * 128 + Z_of_byte y mod 128) 31) as [S|S]; [discriminate|]. intros H. injection H as <- <-.
      exists [], y. cbn [app hd septets]. change (zlen [y]) with 1. change (zlen (@nil byte)) with 0.
      change (128 ^ 1) with 128. change (128 ^ 0) with 1. unfold more.
      split; [reflexivity|]. split; [constructor|]. split; [lia|]. split; [|lia].
      intros ->. cbn in F. intros ->. discriminate F.
    + intros (h & x & E & Hm & Hx & _ & -> & Ht). destruct h as [|h0 h].
      * injection E as <- <-. cbn [app septets] in Ht |- *. change (zlen [y]) with 1 in *. change (zlen (@nil byte)) with 0 in *.
        change (128 ^ 1) with 128 in *. change (128 ^ 0) with 1 in *.
        destruct (Z.ltb_spec (acc * 128 + Z_of_byte y mod 128) 31) as [S|S]; [lia|]. do 2 f_equal. lia.
      * injection E as <- E. inversion Hm as [|? ? A1 A2]; subst. unfold more in A1. lia.
  - rewrite IH by lia. split.
    + intros (h & x & E & Hm & Hx & _ & Et & Ht). exists (y :: h), x. subst b. cbn [app hd septets].
      split; [reflexivity|]. split; [constructor; assumption|]. split; [exact Hx|]. split.
      { intros ->. cbn in F. intros ->. discriminate F. }
      split; [|exact Ht]. rewrite Et, zlen_cons', Z.pow_add_r by (unfold zlen; lia). change (128 ^ 1) with 128. ring.
    + intros (h & x & E & Hm & Hx & N & Et & Ht). destruct h as [|h0 h].
      { injection E as <- <-. exfalso. apply Hx. exact L. }
      injection E as <- ->. inversion Hm as [|? ? A1 A2]; subst. exists h, x. split; [reflexivity|]. split; [exact A2|].
      split; [exact Hx|]. split; [discriminate|]. split; [|exact Ht].
      cbn [app septets]. rewrite zlen_cons', Z.pow_add_r by (unfold zlen; lia). change (128 ^ 1) with 128. ring.
Qed.

Lemma identifier_again x :
  identifier (Z_of_byte x / 64) (Z.odd (Z_of_byte x / 32)) (Z_of_byte x mod 32) = x /\ 0 <= Z_of_byte x / 64 <= 3.
Proof. destruct x; vm_compute; (split; [reflexivity|split; discriminate]). Qed.

Lemma identifier_parts cls con tag : 0 <= cls <= 3 -> 0 <= tag <= 31 ->
  Z_of_byte (identifier cls con tag) / 64 = cls /\ Z.odd (Z_of_byte (identifier cls con tag) / 32) = con /\
  Z_of_byte (identifier cls con tag) mod 32 = tag.
Proof.
  intros Hc Ht. unfold identifier. rewrite Z_of_byte_of_Z by (destruct con; lia).
  set (c := if con then 1 else 0).
  assert (Ec : (if con then 32 else 0) = c * 32) by (unfold c; destruct con; reflexivity). rewrite Ec.
  assert (Hb : 0 <= c <= 1) by (unfold c; destruct con; lia).
  assert (M : (cls * 64 + c * 32 + tag) mod 32 = tag)
    by (symmetry; apply (Zmod_unique _ 32 (cls * 2 + c)); lia).
  assert (D : (cls * 64 + c * 32 + tag) / 64 = cls)
    by (symmetry; apply (Zdiv_unique _ 64 cls (c * 32 + tag)); lia).
  assert (D' : (cls * 64 + c * 32 + tag) / 32 = cls * 2 + c)
    by (symmetry; apply (Zdiv_unique _ 32 (cls * 2 + c) tag); lia).
  rewrite M, D, D'. split; [reflexivity|]. split; [|reflexivity].
  replace (cls * 2 + c) with (c + 2 * cls) by lia. rewrite Z.odd_add_mul_2. unfold c. destruct con; reflexivity.
Qed.

Lemma parse_tag_iff b cls con tag r :
  parse_tag b = Ok (cls, con, tag, r) <-> exists io, b = io ++ r /\ identifier_octets cls con tag io.
Proof.
  split.
  - destruct b as [|x b]; cbn [parse_tag]; [discriminate|]. cbv zeta. intros H.
    destruct (identifier_again x) as [A1 A2]. destruct (Z.eqb_spec (Z_of_byte x mod 32) 31) as [M|M].
    + destruct (long_tag true 0 b) as [[tag' r']|] eqn:L; [|discriminate H]. cbn [rbind] in H. injection H as <- <- <- <-.
      apply long_tag_iff in L; [|lia]. destruct L as (h & y & -> & Hm & Hy & N & -> & Ht).
      rewrite M in A1.
      exists (x :: h ++ [y]). split; [cbn; rewrite <- app_assoc; reflexivity|]. rewrite Z.mul_0_l, Z.add_0_l in *.
      rewrite <- A1 at 3. apply HighTag; try assumption. apply N. reflexivity.
    + injection H as <- <- <- <-. exists [x]. split; [reflexivity|].
      rewrite <- A1 at 4. pose proof (Z.mod_pos_bound (Z_of_byte x) 32 ltac:(lia)). constructor; lia.
  - intros (io & -> & I). destruct I as [tag Hc Ht|h x Hc Hm Hx N Ht].
    + apply parse_tag_identifier; assumption.
    + cbn [app parse_tag]. cbv zeta. destruct (identifier_parts cls con 31 Hc ltac:(lia)) as (E1 & E2 & E3).
      rewrite E1, E2, E3, Z.eqb_refl.
      assert (L : long_tag true 0 ((h ++ [x]) ++ r) = Ok (septets (h ++ [x]), r)).
      { apply long_tag_iff; [lia|]. exists h, x. rewrite <- app_assoc. split; [reflexivity|]. split; [exact Hm|]. split; [exact Hx|].
        split; [intros _; exact N|]. split; [lia|exact Ht]. }
      rewrite L. reflexivity.
Qed.

(** ** Lengths *)

Lemma ztake_zskip {T} n (l : list T) : 0 <= n -> ztake n l ++ zskip n l = l.
Proof. intros H. rewrite ztake_firstn, zskip_skipn by exact H. apply firstn_skipn. Qed.
Lemma zlen_ztake {T} n (l : list T) : 0 <= n <= zlen l -> zlen (ztake n l) = n.
Proof. intros H. rewrite ztake_firstn. unfold zlen in *. rewrite firstn_length. lia. Qed.
Lemma parse_length_iff b n r :
  parse_length b = Ok (n, r) <->
  exists lo, b = lo ++ r /\ match n with Some k => length_octets k lo | None => lo = [x80] end.
Proof.
  split.
  - destruct b as [|x b]; cbn [parse_length]; [discriminate|]. cbv zeta. intros H. pose proof (Z_of_byte_range x) as R.
    destruct (Z.ltb_spec (Z_of_byte x) 128) as [L|L].
    { injection H as <- <-. exists [x]. split; [reflexivity|]. rewrite <- (byte_of_Z_of_byte x) at 2. constructor. lia. }
    destruct (Z.eqb_spec (Z_of_byte x) 128) as [M|M].
    { injection H as <- <-. exists [x]. split; [reflexivity|]. apply x80_octet in M. subst x. reflexivity. }
    destruct (Z.ltb_spec (zlen b) (Z_of_byte x - 128)) as [N|N]; [discriminate H|]. injection H as <- <-.
    exists (x :: ztake (Z_of_byte x - 128) b). split; [cbn; rewrite ztake_zskip by lia; reflexivity|].
    pose proof (zlen_ztake (Z_of_byte x - 128) b ltac:(lia)) as E.
    rewrite be_to_Z_big. replace x with (byte_of_Z (128 + zlen (ztake (Z_of_byte x - 128) b))) at 2
      by (rewrite E; replace (128 + (Z_of_byte x - 128)) with (Z_of_byte x) by lia; apply byte_of_Z_of_byte).
    apply Long. lia.
  - intros (lo & -> & L). destruct n as [k|]; [apply parse_length_octets; exact L|]. subst lo. reflexivity.
Qed.

(** ** Values *)

Lemma ztake_app {T} (x y : list T) : ztake (zlen x) (x ++ y) = x.
Proof. rewrite ztake_firstn. unfold zlen. rewrite Nat2Z.id, firstn_app, Nat.sub_diag, firstn_all. cbn. apply app_nil_r. Qed.
Lemma zskip_app {T} (x y : list T) : zskip (zlen x) (x ++ y) = y.
Proof. rewrite zskip_skipn by (unfold zlen; lia). unfold zlen. rewrite Nat2Z.id, skipn_app, Nat.sub_diag, skipn_all. reflexivity. Qed.
Lemma zlen_app' {T} (x y : list T) : zlen (x ++ y) = zlen x + zlen y.
Proof. unfold zlen. rewrite app_length. lia. Qed.

Lemma end_iff t r : (2 <= length (t_header t))%nat -> (tlv_dump t = end_marker -> False) -> t_trailer t = [] \/ t_trailer t = end_marker ->
  (forall h, t_header t = x00 :: x00 :: h -> tlv_dump t = end_marker) -> end_of_contents (tlv_dump t ++ r) = None.
Proof.
  intros L N _ H. destruct (end_of_contents (tlv_dump t ++ r)) as [rest|] eqn:E; [|reflexivity]. exfalso.
  apply end_of_contents_spec in E. apply N. unfold tlv_dump in E.
  destruct (t_header t) as [|a [|b h]] eqn:Eh; cbn in L; [lia|lia|]. cbn in E. injection E as -> -> _. exact (H h eq_refl).
Qed.

Lemma cons_inv {T} (x y : T) l m : x :: l = y :: m -> x = y /\ l = m.
Proof. intros H. injection H as -> ->. split; reflexivity. Qed.
Lemma identifier_zero cls con : forall tag io, identifier_octets cls con tag io -> forall rest lo, io ++ lo = x00 :: rest ->
  io = [x00] /\ rest = lo.
Proof.
  intros tag io [tag' Hc Ht|h x Hc _ _ _ _] rest lo E; cbn [app] in E; apply cons_inv in E; destruct E as [E1 E2].
  - rewrite E1. split; [reflexivity|symmetry; exact E2].
  - exfalso. apply (f_equal Z_of_byte) in E1. destruct (identifier_parts cls con 31 Hc ltac:(lia)) as (_ & _ & M).
    rewrite E1 in M. discriminate M.
Qed.
Lemma length_zero n lo rest : length_octets n lo -> lo = x00 :: rest -> n = 0 /\ rest = [].
Proof.
  intros [k Hk|l Hl] E; apply cons_inv in E; destruct E as [E1 E2]; apply (f_equal Z_of_byte) in E1.
  - rewrite Z_of_byte_of_Z in E1 by lia. change (Z_of_byte x00) with 0 in E1. split; [exact E1|symmetry; exact E2].
  - rewrite Z_of_byte_of_Z in E1 by lia. change (Z_of_byte x00) with 0 in E1. lia.
Qed.
(** A value that begins like the end marker is it. *)
Lemma ber_marker d t h : ber d t -> t_header t = x00 :: x00 :: h -> tlv_dump t = end_marker.
Proof.
  destruct d as [|d]; [intros []|]. intros [(io & lo & E & I & L & T)|(io & l & E & I & _ & _ & _ & _)] Eh; rewrite Eh in E; symmetry in E.
  - destruct (identifier_zero _ _ _ _ I _ _ E) as [-> <-]. destruct (length_zero _ _ _ L eq_refl) as [Z ->].
    unfold tlv_dump. rewrite Eh, T. destruct (t_contents t) as [|y c]; [reflexivity|]. unfold zlen in Z. cbn in Z. lia.
  - destruct (identifier_zero _ _ _ _ I _ _ E) as [_ H]. discriminate H.
Qed.
Lemma identifier_nonempty cls con tag io : identifier_octets cls con tag io -> (1 <= length io)%nat.
Proof. intros []; cbn; lia. Qed.
Lemma length_nonempty n lo : length_octets n lo -> (1 <= length lo)%nat.
Proof. intros []; cbn; lia. Qed.
Lemma ber_header d t : ber d t -> (2 <= length (t_header t))%nat.
Proof.
  destruct d as [|d]; [intros []|].
  intros [(io & lo & E & I & L & _)|(io & l & E & I & _)]; rewrite E, app_length; apply identifier_nonempty in I.
  - apply length_nonempty in L. lia.
  - cbn. lia.
Qed.

Section Scan.
Context (d : nat) (IH : forall b t r, parse_depth d b = Ok (t, r) <-> ber d t /\ b = tlv_dump t ++ r).

Lemma scan_iff : forall fuel x rest,
  scan (parse_depth d) fuel x = Ok rest <->
  exists l, x = concat (map tlv_dump l) ++ end_marker ++ rest /\ Forall (fun u => ber d u /\ tlv_dump u <> end_marker) l /\
    (length l < fuel)%nat.
Proof.
  induction fuel as [|fuel IHf]; intros x rest; cbn [scan].
  { split; [discriminate|]. intros (l & _ & _ & H). lia. }
  split.
  - destruct (end_of_contents x) as [rest'|] eqn:E.
    + intros H. injection H as ->. apply end_of_contents_spec in E. subst x. exists []. split; [reflexivity|]. split; [constructor|cbn; lia].
    + destruct (parse_depth d x) as [[t x']|] eqn:P; [|discriminate]. cbn [rbind]. intros H. apply IHf in H.
      destruct H as (l & -> & F & Hl). apply IH in P. destruct P as [Bt ->]. exists (t :: l). cbn [map concat length].
      split; [rewrite app_assoc; reflexivity|]. split; [|lia]. constructor; [|exact F]. split; [exact Bt|].
      intros Q. rewrite Q in E. discriminate E.
  - intros (l & -> & F & Hl). destruct l as [|t l].
    + reflexivity.
    + inversion F as [|? ? [Bt Nt] F']; subst. cbn [map concat]. rewrite <- app_assoc.
      rewrite end_iff with (t := t).
      2:{ exact (ber_header d t Bt). } 2:{ exact Nt. }
      2:{ destruct d; [destruct Bt|]. destruct Bt as [(?&?&?&?&?&->)|(?&?&?&?&?&?&?&->)]; auto. }
      2:{ intros h. exact (ber_marker d t h Bt). }
      rewrite (proj2 (IH _ _ _) (conj Bt eq_refl)). cbn [rbind]. apply IHf. exists l. split; [reflexivity|]. split; [exact F'|].
      cbn in Hl. lia.
Qed.
End Scan.

Lemma concat_count d l : Forall (fun u => ber d u /\ tlv_dump u <> end_marker) l -> (length l <= length (concat (map tlv_dump l)))%nat.
Proof.
  induction 1 as [|t l [Bt _] _ IH]; cbn; [lia|]. rewrite app_length, length_dump. apply ber_header in Bt. lia.
Qed.

Theorem parse_depth_iff : forall d b t r, parse_depth d b = Ok (t, r) <-> ber d t /\ b = tlv_dump t ++ r.
Proof.
  induction d as [|d IH]; intros b t r; cbn [parse_depth ber].
  { split; [discriminate|]. intros [[] _]. }
  split.
  - destruct (parse_tag b) as [[[[cls con] tag] r1]|] eqn:T; [|discriminate]. cbn [rbind].
    destruct (parse_length r1) as [[len r2]|] eqn:L; [|discriminate]. cbn [rbind]. cbv zeta.
    apply parse_tag_iff in T. destruct T as (io & -> & I). apply parse_length_iff in L. destruct L as (lo & -> & L).
    rewrite app_assoc. rewrite ztake_prefix.
    destruct len as [n|].
    + destruct (Z.ltb_spec (zlen r2) n) as [S|S]; [discriminate|]. intros H. injection H as <- <-.
      assert (Hn : 0 <= n).
      { destruct L as [k Hk|l Hl]; [lia|]. rewrite <- be_to_Z_big. apply be_to_Z_nonneg. }
      split.
      * left. exists io, lo. cbn. split; [reflexivity|]. split; [exact I|]. split; [|reflexivity].
        rewrite zlen_ztake by lia. exact L.
      * unfold tlv_dump. cbn. rewrite app_nil_r, <- (app_assoc (io ++ lo)), ztake_zskip by exact Hn. reflexivity.
    + subst lo. destruct con; cbn [negb]; [|discriminate].
      destruct (scan (parse_depth d) (S (length r2)) r2) as [rest|] eqn:S; [|discriminate]. cbn [rbind]. intros H. injection H as <- <-.
      apply (scan_iff d IH) in S. destruct S as (l & -> & F & _). unfold end_marker in *.
      replace (ztake _ _) with (concat (map tlv_dump l)).
      2:{ replace (zlen (concat (map tlv_dump l) ++ [x00; x00] ++ rest) - zlen rest - 2) with (zlen (concat (map tlv_dump l)))
            by (rewrite !zlen_app'; change (zlen [x00; x00]) with 2; lia).
          symmetry. apply ztake_app. }
      split.
      * right. exists io, l. cbn. repeat split; assumption.
      * unfold tlv_dump. cbn. rewrite <- !app_assoc. reflexivity.
  - intros [[(io & lo & E & I & L & Et)|(io & l & E & I & Ec & Ek & F & Et)] ->].
    + unfold tlv_dump. rewrite E, Et, app_nil_r. rewrite <- !app_assoc.
      rewrite (proj2 (parse_tag_iff _ _ _ _ _) (ex_intro _ io (conj eq_refl I))). cbn [rbind].
      rewrite (parse_length_octets _ _ _ L). cbn [rbind]. cbv zeta.
      destruct (Z.ltb_spec (zlen (t_contents t ++ r)) (zlen (t_contents t))) as [S|S].
      { rewrite zlen_app' in S. unfold zlen in S. lia. }
      rewrite ztake_app, zskip_app. rewrite app_assoc, ztake_prefix, <- E, <- Et. destruct t. reflexivity.
    + unfold tlv_dump. rewrite E, Et, Ek. rewrite <- !app_assoc.
      rewrite (proj2 (parse_tag_iff _ _ _ _ _) (ex_intro _ io (conj eq_refl I))). cbn [rbind].
      set (z := concat (map tlv_dump l) ++ end_marker ++ r).
      assert (Lz : parse_length ([x80] ++ z) = Ok (None, z)) by reflexivity. rewrite Lz. cbn [rbind negb]. cbv zeta.
      assert (Sc : scan (parse_depth d) (S (length z)) z = Ok r).
      { apply (scan_iff d IH). exists l. split; [reflexivity|]. split; [exact F|]. apply concat_count in F. unfold z. rewrite app_length. lia. }
      rewrite Sc. cbn [rbind]. rewrite app_assoc, ztake_prefix.
      replace (ztake _ z) with (concat (map tlv_dump l)).
      2:{ unfold z. replace (zlen (concat (map tlv_dump l) ++ end_marker ++ r) - zlen r - 2) with (zlen (concat (map tlv_dump l)))
            by (rewrite !zlen_app'; change (zlen end_marker) with 2; lia).
          symmetry. apply ztake_app. }
      rewrite <- E, <- Ek, <- Ec. change [x00; x00] with end_marker. rewrite <- Et. destruct t. reflexivity.
Qed.

Theorem parse_tlv_iff b t r : parse_tlv b = Ok (t, r) <-> value t /\ b = tlv_dump t ++ r.
Proof. apply parse_depth_iff. Qed.

Theorem value_prefix t t' r r' : value t -> value t' -> tlv_dump t ++ r = tlv_dump t' ++ r' -> t = t' /\ r = r'.
Proof.
  intros V V' E. pose proof (proj2 (parse_tlv_iff _ t r) (conj V eq_refl)) as P.
  rewrite (proj2 (parse_tlv_iff _ t' r') (conj V' E)) in P. injection P as <- <-. split; reflexivity.
Qed.

Theorem parse_all_iff b l : parse_all b = Ok l <-> Forall value l /\ b = concat (map tlv_dump l).
Proof.
  split.
  - unfold parse_all. generalize (length b) as n. intros n. revert b l.
    induction n as [|n IH]; intros b l; destruct b as [|x b]; cbn [parse_many]; try discriminate.
    + intros H. injection H as <-. split; [constructor|reflexivity].
    + intros H. injection H as <-. split; [constructor|reflexivity].
    + destruct (parse_tlv (x :: b)) as [[t r]|] eqn:P; [|discriminate]. cbn [rbind].
      destruct (parse_many n r) as [l'|] eqn:Q; [|discriminate]. cbn [rbind]. intros H. injection H as <-.
      apply parse_tlv_iff in P. destruct P as [V E]. apply IH in Q. destruct Q as [F Er]. split; [constructor; assumption|].
      rewrite E, Er. reflexivity.
  - intros [F ->]. induction F as [|t l V F IH]; [reflexivity|]. cbn [map concat]. apply parse_all_cons; [|intros r|exact IH].
    + intros H. apply (f_equal (@length byte)) in H. rewrite length_dump in H. apply ber_header in V. cbn [length] in H. lia.
    + apply parse_tlv_iff. split; [exact V|reflexivity].
Qed.
