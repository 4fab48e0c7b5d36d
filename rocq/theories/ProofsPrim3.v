(** Text. *)
From Verif Require Import Base Bytes ModelX509 ModelDer ModelSpc ModelDecode SpecPrim.
From Coq Require Import ZifyBool ZifyNat.

Ltac byte_value := rewrite ?Z_of_byte_of_Z by lia.
Lemma div_range z k n : 0 < k -> 0 <= z < k * n -> 0 <= z / k < n.
Proof. intros K H. split; [apply Z.div_pos; lia|apply Z.div_lt_upper_bound; lia]. Qed.
Lemma to_byte x : byte_of_Z (Z_of_byte x) = x.
Proof. apply byte_of_Z_of_byte. Qed.

(** ** UTF-8 *)

(** One more octet of a code point. *)
Lemma utf8_more n acc low x b : (128 <=? Z_of_byte x) && (Z_of_byte x <? 192) = true ->
  utf8 (S (S n)) acc low (x :: b) = utf8 (S n) (acc * 64 + (Z_of_byte x - 128)) low b.
Proof. intro H. cbn [utf8]. cbv zeta. rewrite H. reflexivity. Qed.
Lemma utf8_last acc low x b : (128 <=? Z_of_byte x) && (Z_of_byte x <? 192) = true ->
  utf8 1 acc low (x :: b) =
  let c := acc * 64 + (Z_of_byte x - 128) in
  if (c <? low) || ((55296 <=? c) && (c <? 57344)) || (1114111 <? c) then decode_error
  else let? l := utf8 O 0 0 b in Ok (Z.to_N c :: l).
Proof. intro H. cbn [utf8]. cbv zeta. rewrite H. reflexivity. Qed.
Lemma utf8_first x b : utf8 O 0 0 (x :: b) =
  let c := Z_of_byte x in
  if c <? 128 then let? l := utf8 O 0 0 b in Ok (Z.to_N c :: l)
  else if (192 <=? c) && (c <? 224) then utf8 1 (c - 192) 128 b
  else if (224 <=? c) && (c <? 240) then utf8 2 (c - 224) 2048 b
  else if (240 <=? c) && (c <? 248) then utf8 3 (c - 240) 65536 b
  else decode_error.
Proof. reflexivity. Qed.

Lemma utf8_point_read c b : scalar_value c -> utf8 O 0 0 (utf8_point c ++ b) = let? l := utf8 O 0 0 b in Ok (c :: l).
Proof.
  unfold scalar_value. intro S. unfold utf8_point, octet. set (z := Z.of_N c). assert (Hz : 0 <= z < 55296 \/ 57344 <= z < 1114112) by lia.
  assert (Ec : Z.to_N z = c) by (subst z; apply N2Z.id). clearbody z. cbv zeta. subst c. clear S.
  assert (M : 0 <= z mod 64 < 64) by (apply Z.mod_pos_bound; lia).
  pose proof (Z.div_mod z 64 ltac:(lia)) as E1. 
  pose proof (Z.div_mod (z / 64) 64 ltac:(lia)) as E2.
  pose proof (Z.div_mod (z / 64 / 64) 64 ltac:(lia)) as E3.
  assert (M2 : 0 <= z / 64 mod 64 < 64) by (apply Z.mod_pos_bound; lia).
  assert (M3 : 0 <= z / 64 / 64 mod 64 < 64) by (apply Z.mod_pos_bound; lia).
  replace (z / 4096) with (z / 64 / 64) by (rewrite Z.div_div by lia; reflexivity).
  replace (z / 262144) with (z / 64 / 64 / 64) by (rewrite !Z.div_div by lia; reflexivity).
  set (q1 := z / 64) in *. set (r1 := z mod 64) in *. set (q2 := q1 / 64) in *. set (r2 := q1 mod 64) in *.
  set (q3 := q2 / 64) in *. set (r3 := q2 mod 64) in *. clearbody q1 r1 q2 r2 q3 r3.
  destruct (Z.ltb_spec z 128) as [L1|L1]; [|destruct (Z.ltb_spec z 2048) as [L2|L2]; [|destruct (Z.ltb_spec z 65536) as [L3|L3]]]; cbn [app].
  - rewrite utf8_first. cbv zeta. byte_value. replace (z <? 128) with true by lia. reflexivity.
  - rewrite utf8_first. cbv zeta. byte_value. replace (192 + q1 <? 128) with false by lia.
    replace ((192 <=? 192 + q1) && (192 + q1 <? 224)) with true by lia.
    rewrite utf8_last by (byte_value; lia). cbv zeta. byte_value.
    replace ((192 + q1 - 192) * 64 + (128 + r1 - 128)) with z by lia.
    replace ((z <? 128) || ((55296 <=? z) && (z <? 57344)) || (1114111 <? z)) with false by lia. reflexivity.
  - rewrite utf8_first. cbv zeta. byte_value. replace (224 + q2 <? 128) with false by lia.
    replace ((192 <=? 224 + q2) && (224 + q2 <? 224)) with false by lia.
    replace ((224 <=? 224 + q2) && (224 + q2 <? 240)) with true by lia.
    rewrite utf8_more by (byte_value; lia). byte_value.
    rewrite utf8_last by (byte_value; lia). cbv zeta. byte_value.
    replace (((224 + q2 - 224) * 64 + (128 + r2 - 128)) * 64 + (128 + r1 - 128)) with z by lia.
    replace ((z <? 2048) || ((55296 <=? z) && (z <? 57344)) || (1114111 <? z)) with false by lia. reflexivity.
  - rewrite utf8_first. cbv zeta. byte_value. replace (240 + q3 <? 128) with false by lia.
    replace ((192 <=? 240 + q3) && (240 + q3 <? 224)) with false by lia.
    replace ((224 <=? 240 + q3) && (240 + q3 <? 240)) with false by lia.
    replace ((240 <=? 240 + q3) && (240 + q3 <? 248)) with true by lia.
    rewrite utf8_more by (byte_value; lia). byte_value. rewrite utf8_more by (byte_value; lia). byte_value.
    rewrite utf8_last by (byte_value; lia). cbv zeta. byte_value.
    replace ((((240 + q3 - 240) * 64 + (128 + r3 - 128)) * 64 + (128 + r2 - 128)) * 64 + (128 + r1 - 128)) with z by lia.
    replace ((z <? 65536) || ((55296 <=? z) && (z <? 57344)) || (1114111 <? z)) with false by lia. reflexivity.
Qed.

Lemma utf8_cont n acc low b u : utf8 (S n) acc low b = Ok u ->
  exists x b', b = x :: b' /\ 128 <= Z_of_byte x < 192.
Proof.
  destruct b as [|x b]; [discriminate|]. cbn [utf8]. cbv zeta. destruct ((128 <=? Z_of_byte x) && (Z_of_byte x <? 192)) eqn:E; [|discriminate].
  intros _. exists x, b. split; [reflexivity|lia].
Qed.
Lemma utf8_end acc low b u : utf8 1 acc low b = Ok u ->
  exists x b' u', b = x :: b' /\ 128 <= Z_of_byte x < 192 /\
    let c := acc * 64 + (Z_of_byte x - 128) in
    low <= c /\ (c < 55296 \/ 57344 <= c) /\ c <= 1114111 /\ u = Z.to_N c :: u' /\ utf8 O 0 0 b' = Ok u'.
Proof.
  intro H. destruct (utf8_cont _ _ _ _ _ H) as (x & b' & -> & Hx). rewrite utf8_last in H by lia. cbv zeta in *.
  destruct (_ || _) eqn:E in H; [discriminate H|]. destruct (utf8 0 0 0 b') as [u'|] eqn:U; [|discriminate H]. cbn [rbind] in H.
  injection H as <-. exists x, b', u'. repeat split; auto; try lia.
Qed.

Lemma utf8_inv x b u : utf8 O 0 0 (x :: b) = Ok u ->
  exists c b' u', scalar_value c /\ x :: b = utf8_point c ++ b' /\ u = c :: u' /\ utf8 O 0 0 b' = Ok u'.
Proof.
  rewrite utf8_first. cbv zeta. pose proof (Z_of_byte_range x) as Rx.
  destruct (Z.ltb_spec (Z_of_byte x) 128) as [L|L].
  { intro H. destruct (utf8 0 0 0 b) as [u'|] eqn:U; [|discriminate H]. cbn [rbind] in H. injection H as <-.
    exists (Z.to_N (Z_of_byte x)), b, u'. unfold scalar_value. split; [lia|]. split; [|auto].
    unfold utf8_point. cbv zeta. rewrite Z2N.id by lia. replace (Z_of_byte x <? 128) with true by lia.
    unfold octet. rewrite to_byte. reflexivity. }
  destruct ((192 <=? Z_of_byte x) && (Z_of_byte x <? 224)) eqn:C1.
  { intro H. apply utf8_end in H as (y & b' & u' & -> & Hy & Hl & Hs & Hm & -> & U).
    set (c := (Z_of_byte x - 192) * 64 + (Z_of_byte y - 128)) in *.
    exists (Z.to_N c), b', u'. unfold scalar_value. split; [lia|]. split; [|auto].
    unfold utf8_point. cbv zeta. rewrite Z2N.id by lia. replace (c <? 128) with false by lia. replace (c <? 2048) with true by lia.
    unfold octet. cbn [app].
    assert (c / 64 = Z_of_byte x - 192 /\ c mod 64 = Z_of_byte y - 128) as [-> ->].
    { subst c. split; [rewrite Z.div_add_l, Z.div_small by lia; lia|rewrite Z.add_comm, Z.mod_add, Z.mod_small by lia; lia]. }
    replace (192 + (Z_of_byte x - 192)) with (Z_of_byte x) by lia. replace (128 + (Z_of_byte y - 128)) with (Z_of_byte y) by lia.
    rewrite !to_byte. reflexivity. }
  destruct ((224 <=? Z_of_byte x) && (Z_of_byte x <? 240)) eqn:C2.
  { intro H. destruct (utf8_cont _ _ _ _ _ H) as (y & b1 & -> & Hy). rewrite utf8_more in H by lia.
    apply utf8_end in H as (w & b' & u' & -> & Hw & Hl & Hs & Hm & -> & U).
    set (c := ((Z_of_byte x - 224) * 64 + (Z_of_byte y - 128)) * 64 + (Z_of_byte w - 128)) in *.
    exists (Z.to_N c), b', u'. unfold scalar_value. split; [lia|]. split; [|auto].
    unfold utf8_point. cbv zeta. rewrite Z2N.id by lia. replace (c <? 128) with false by lia. replace (c <? 2048) with false by lia.
    replace (c <? 65536) with true by lia.
    unfold octet. cbn [app]. replace (c / 4096) with (c / 64 / 64) by (rewrite Z.div_div by lia; reflexivity).
    assert (c / 64 = (Z_of_byte x - 224) * 64 + (Z_of_byte y - 128) /\ c mod 64 = Z_of_byte w - 128) as [-> ->].
    { subst c. split; [rewrite Z.div_add_l, Z.div_small by lia; lia|rewrite Z.add_comm, Z.mod_add, Z.mod_small by lia; lia]. }
    rewrite Z.div_add_l, Z.div_small by lia.
    replace (((Z_of_byte x - 224) * 64 + (Z_of_byte y - 128)) mod 64) with (Z_of_byte y - 128)
      by (rewrite Z.add_comm, Z.mod_add, Z.mod_small by lia; reflexivity).
    replace (224 + (Z_of_byte x - 224 + 0)) with (Z_of_byte x) by lia. replace (128 + (Z_of_byte y - 128)) with (Z_of_byte y) by lia.
    replace (128 + (Z_of_byte w - 128)) with (Z_of_byte w) by lia.
    rewrite !to_byte. reflexivity. }
  destruct ((240 <=? Z_of_byte x) && (Z_of_byte x <? 248)) eqn:C3; [|discriminate].
  intro H. destruct (utf8_cont _ _ _ _ _ H) as (y & b1 & -> & Hy). rewrite utf8_more in H by lia.
  destruct (utf8_cont _ _ _ _ _ H) as (v & b2 & -> & Hv). rewrite utf8_more in H by lia.
  apply utf8_end in H as (w & b' & u' & -> & Hw & Hl & Hs & Hm & -> & U).
  set (c := (((Z_of_byte x - 240) * 64 + (Z_of_byte y - 128)) * 64 + (Z_of_byte v - 128)) * 64 + (Z_of_byte w - 128)) in *.
  exists (Z.to_N c), b', u'. unfold scalar_value. split; [lia|]. split; [|auto].
  unfold utf8_point. cbv zeta. rewrite Z2N.id by lia. replace (c <? 128) with false by lia. replace (c <? 2048) with false by lia.
  replace (c <? 65536) with false by lia.
  unfold octet. cbn [app]. replace (c / 4096) with (c / 64 / 64) by (rewrite Z.div_div by lia; reflexivity).
  replace (c / 262144) with (c / 64 / 64 / 64) by (rewrite !Z.div_div by lia; reflexivity).
  assert (c / 64 = ((Z_of_byte x - 240) * 64 + (Z_of_byte y - 128)) * 64 + (Z_of_byte v - 128) /\ c mod 64 = Z_of_byte w - 128) as [-> ->].
  { subst c. split; [rewrite Z.div_add_l, Z.div_small by lia; lia|rewrite Z.add_comm, Z.mod_add, Z.mod_small by lia; lia]. }
  clear Hl Hs Hm c.
  set (p := (Z_of_byte x - 240) * 64 + (Z_of_byte y - 128)).
  assert ((p * 64 + (Z_of_byte v - 128)) / 64 = p /\ (p * 64 + (Z_of_byte v - 128)) mod 64 = Z_of_byte v - 128) as [-> ->].
  { split; [rewrite Z.div_add_l, Z.div_small by lia; lia|rewrite Z.add_comm, Z.mod_add, Z.mod_small by lia; lia]. }
  assert (p / 64 = Z_of_byte x - 240 /\ p mod 64 = Z_of_byte y - 128) as [-> ->].
  { subst p. split; [rewrite Z.div_add_l, Z.div_small by lia; lia|rewrite Z.add_comm, Z.mod_add, Z.mod_small by lia; lia]. }
  replace (240 + (Z_of_byte x - 240)) with (Z_of_byte x) by lia. replace (128 + (Z_of_byte y - 128)) with (Z_of_byte y) by lia.
  replace (128 + (Z_of_byte v - 128)) with (Z_of_byte v) by lia. replace (128 + (Z_of_byte w - 128)) with (Z_of_byte w) by lia.
  rewrite !to_byte. reflexivity.
Qed.

Section Coded.
  (** A decoder that reads one code point at a time. *)
  Variable decode : bytes -> res ustr.
  Variable point : N -> bytes.
  Hypothesis decode_nil : decode [] = Ok [].
  Hypothesis decode_point : forall c b, scalar_value c -> decode (point c ++ b) = let? l := decode b in Ok (c :: l).
  Hypothesis decode_inv : forall x b u, decode (x :: b) = Ok u ->
    exists c b' u', scalar_value c /\ x :: b = point c ++ b' /\ u = c :: u' /\ decode b' = Ok u'.

  Lemma coded b u : decode b = Ok u <-> Forall scalar_value u /\ b = flat_map point u.
  Proof.
    split.
    - revert b. induction u as [|c u IH]; intros b H.
      + split; [constructor|]. destruct b as [|x b]; [reflexivity|].
        destruct (decode_inv _ _ _ H) as (? & ? & ? & _ & _ & E & _). discriminate E.
      + destruct b as [|x b]; [rewrite decode_nil in H; discriminate H|].
        destruct (decode_inv _ _ _ H) as (c' & b' & u' & S & E & E' & D). injection E' as <- <-.
        destruct (IH _ D) as [F ->]. rewrite E. split; [now constructor|reflexivity].
    - intros [F ->]. induction F as [|c u S F IH]; [exact decode_nil|]. cbn [flat_map]. rewrite decode_point by exact S.
      rewrite IH. reflexivity.
  Qed.
End Coded.

Theorem utf8_text b u : text 12 b = Ok u <-> Forall scalar_value u /\ b = flat_map utf8_point u.
Proof. change (text 12 b) with (utf8 O 0 0 b). apply coded; [reflexivity|apply utf8_point_read|apply utf8_inv]. Qed.

(** ** UTF-16 *)

Lemma utf16_first x y b : utf16 None (x :: y :: b) =
  let c := Z_of_byte x * 256 + Z_of_byte y in
  if (55296 <=? c) && (c <? 56320) then utf16 (Some c) b
  else if (56320 <=? c) && (c <? 57344) then decode_error
  else let? l := utf16 None b in Ok (Z.to_N c :: l).
Proof. reflexivity. Qed.
Lemma utf16_second h x y b : utf16 (Some h) (x :: y :: b) =
  let c := Z_of_byte x * 256 + Z_of_byte y in
  if (56320 <=? c) && (c <? 57344)
  then let? l := utf16 None b in Ok (Z.to_N (65536 + (h - 55296) * 1024 + (c - 56320)) :: l)
  else decode_error.
Proof. reflexivity. Qed.
Lemma unit_be_value z : 0 <= z < 65536 ->
  Z_of_byte (octet (z / 256)) * 256 + Z_of_byte (octet (z mod 256)) = z.
Proof.
  intro H. unfold octet. assert (0 <= z / 256 < 256) by (apply div_range; lia).
  assert (0 <= z mod 256 < 256) by (apply Z.mod_pos_bound; lia). byte_value.
  pose proof (Z.div_mod z 256 ltac:(lia)). lia.
Qed.
Lemma unit_be_of x y : unit_be (Z_of_byte x * 256 + Z_of_byte y) = [x; y].
Proof.
  unfold unit_be, octet. pose proof (Z_of_byte_range x). pose proof (Z_of_byte_range y).
  rewrite Z.div_add_l, Z.div_small, Z.add_0_r by lia.
  rewrite (Z.add_comm (_ * 256)), Z.mod_add, Z.mod_small by lia. now rewrite !to_byte.
Qed.
Lemma utf16_point_read c b : scalar_value c -> utf16 None (utf16_point c ++ b) = let? l := utf16 None b in Ok (c :: l).
Proof.
  unfold scalar_value. intro S. unfold utf16_point. set (z := Z.of_N c). assert (Hz : 0 <= z < 55296 \/ 57344 <= z < 1114112) by lia.
  assert (Ec : Z.to_N z = c) by (subst z; apply N2Z.id). clearbody z. cbv zeta. subst c. clear S.
  destruct (Z.ltb_spec z 65536) as [L|L].
  - unfold unit_be. cbn [app]. rewrite utf16_first. rewrite unit_be_value by lia. cbv zeta.
    replace ((55296 <=? z) && (z <? 56320)) with false by lia. replace ((56320 <=? z) && (z <? 57344)) with false by lia. reflexivity.
  - assert (Q : 0 <= (z - 65536) / 1024 < 1024) by (apply div_range; lia).
    assert (R : 0 <= (z - 65536) mod 1024 < 1024) by (apply Z.mod_pos_bound; lia).
    pose proof (Z.div_mod (z - 65536) 1024 ltac:(lia)) as E.
    set (q := (z - 65536) / 1024) in *. set (r := (z - 65536) mod 1024) in *. clearbody q r.
    unfold unit_be. cbn [app]. rewrite utf16_first, unit_be_value by lia. cbv zeta.
    replace ((55296 <=? 55296 + q) && (55296 + q <? 56320)) with true by lia.
    rewrite utf16_second, unit_be_value by lia. cbv zeta.
    replace ((56320 <=? 56320 + r) && (56320 + r <? 57344)) with true by lia.
    replace (65536 + (55296 + q - 55296) * 1024 + (56320 + r - 56320)) with z by lia. reflexivity.
Qed.
Lemma utf16_inv x b u : utf16 None (x :: b) = Ok u ->
  exists c b' u', scalar_value c /\ x :: b = utf16_point c ++ b' /\ u = c :: u' /\ utf16 None b' = Ok u'.
Proof.
  destruct b as [|y b]; [discriminate|]. rewrite utf16_first. cbv zeta.
  pose proof (Z_of_byte_range x). pose proof (Z_of_byte_range y). pose proof (unit_be_of x y) as Eu.
  set (c := Z_of_byte x * 256 + Z_of_byte y) in *. assert (Hc : 0 <= c < 65536) by lia. clearbody c.
  destruct ((55296 <=? c) && (c <? 56320)) eqn:C1.
  - destruct b as [|v [|w b]]; [discriminate|discriminate|]. rewrite utf16_second. cbv zeta.
    pose proof (Z_of_byte_range v). pose proof (Z_of_byte_range w). pose proof (unit_be_of v w) as Ew.
    set (d := Z_of_byte v * 256 + Z_of_byte w) in *. clearbody d.
    destruct ((56320 <=? d) && (d <? 57344)) eqn:C2; [|discriminate].
    remember (65536 + (c - 55296) * 1024 + (d - 56320)) as k eqn:Ek.
    destruct (utf16 None b) as [u'|] eqn:U; [|discriminate]. cbn [rbind]. intro E. injection E as <-.
    exists (Z.to_N k), b, u'. unfold scalar_value. split; [lia|]. split; [|auto].
    unfold utf16_point. cbv zeta. rewrite Z2N.id by lia. replace (k <? 65536) with false by lia.
    replace ((k - 65536) / 1024) with (c - 55296).
    2: { rewrite Ek. replace (65536 + (c - 55296) * 1024 + (d - 56320) - 65536) with ((c - 55296) * 1024 + (d - 56320)) by lia.
         rewrite Z.div_add_l, Z.div_small by lia. lia. }
    replace ((k - 65536) mod 1024) with (d - 56320).
    2: { rewrite Ek. replace (65536 + (c - 55296) * 1024 + (d - 56320) - 65536) with (d - 56320 + (c - 55296) * 1024) by lia.
         rewrite Z.mod_add, Z.mod_small by lia. reflexivity. }
    replace (55296 + (c - 55296)) with c by lia. replace (56320 + (d - 56320)) with d by lia. rewrite Eu, Ew. reflexivity.
  - destruct ((56320 <=? c) && (c <? 57344)) eqn:C2; [discriminate|].
    destruct (utf16 None b) as [u'|] eqn:U; [|discriminate]. cbn [rbind]. intro E. injection E as <-.
    exists (Z.to_N c), b, u'. unfold scalar_value. split; [lia|]. split; [|auto].
    unfold utf16_point. cbv zeta. rewrite Z2N.id by lia. replace (c <? 65536) with true by lia. rewrite Eu. reflexivity.
Qed.
Theorem bmp_text b u : text 30 b = Ok u <-> Forall scalar_value u /\ b = flat_map utf16_point u.
Proof. change (text 30 b) with (utf16 None b). apply coded; [reflexivity|apply utf16_point_read|apply utf16_inv]. Qed.

(** ** UTF-32 *)

Lemma utf32_first x y v w b : utf32 (x :: y :: v :: w :: b) =
  let c := (Z_of_byte x * 256 + Z_of_byte y) * 65536 + (Z_of_byte v * 256 + Z_of_byte w) in
  if (1114111 <? c) || ((55296 <=? c) && (c <? 57344)) then decode_error
  else let? l := utf32 b in Ok (Z.to_N c :: l).
Proof.
  cbn [utf32]. replace (be_to_Z [x; y; v; w]) with ((Z_of_byte x * 256 + Z_of_byte y) * 65536 + (Z_of_byte v * 256 + Z_of_byte w)); [reflexivity|].
  unfold be_to_Z. cbn [fold_left]. lia.
Qed.
Lemma utf32_point_read c b : scalar_value c -> utf32 (utf32_point c ++ b) = let? l := utf32 b in Ok (c :: l).
Proof.
  unfold scalar_value. intro S. unfold utf32_point. set (z := Z.of_N c). assert (Hz : 0 <= z < 55296 \/ 57344 <= z < 1114112) by lia.
  assert (Ec : Z.to_N z = c) by (subst z; apply N2Z.id). clearbody z. subst c. clear S.
  assert (Q : 0 <= z / 65536 < 17) by (apply div_range; lia). assert (R : 0 <= z mod 65536 < 65536) by (apply Z.mod_pos_bound; lia).
  pose proof (Z.div_mod z 65536 ltac:(lia)) as E.
  unfold unit_be. cbn [app]. rewrite utf32_first, !unit_be_value by lia. cbv zeta.
  replace (z / 65536 * 65536 + z mod 65536) with z by lia.
  replace ((1114111 <? z) || ((55296 <=? z) && (z <? 57344))) with false by lia. reflexivity.
Qed.
Lemma utf32_inv x b u : utf32 (x :: b) = Ok u ->
  exists c b' u', scalar_value c /\ x :: b = utf32_point c ++ b' /\ u = c :: u' /\ utf32 b' = Ok u'.
Proof.
  destruct b as [|y [|v [|w b]]]; [discriminate..|]. rewrite utf32_first. cbv zeta.
  pose proof (Z_of_byte_range x). pose proof (Z_of_byte_range y). pose proof (unit_be_of x y) as Eu.
  pose proof (Z_of_byte_range v). pose proof (Z_of_byte_range w). pose proof (unit_be_of v w) as Ew.
  set (p := Z_of_byte x * 256 + Z_of_byte y) in *. set (q := Z_of_byte v * 256 + Z_of_byte w) in *.
  assert (0 <= p) by lia. assert (0 <= q < 65536) by lia. clearbody p q.
  destruct (_ || _) eqn:C; [discriminate|].
  destruct (utf32 b) as [u'|] eqn:U; [|discriminate]. cbn [rbind]. intro E. injection E as <-.
  exists (Z.to_N (p * 65536 + q)), b, u'. unfold scalar_value. split; [lia|]. split; [|auto].
  unfold utf32_point. rewrite Z2N.id by lia.
  rewrite Z.div_add_l, Z.div_small, Z.add_0_r by lia. rewrite (Z.add_comm (_ * _)), Z.mod_add, Z.mod_small by lia.
  rewrite Eu, Ew. reflexivity.
Qed.
Theorem universal_text b u : text 28 b = Ok u <-> Forall scalar_value u /\ b = flat_map utf32_point u.
Proof. change (text 28 b) with (utf32 b). apply coded; [reflexivity|apply utf32_point_read|apply utf32_inv]. Qed.

(** ** One octet for a character *)

Lemma latin1_map b : latin1 b = map (fun x => Z.to_N (Z_of_byte x)) b.
Proof. induction b as [|x b IH]; [reflexivity|]. cbn. now rewrite IH. Qed.
Theorem printable_text b : text 19 b = Ok (map (fun x => Z.to_N (Z_of_byte x)) b).
Proof. change (text 19 b) with (Ok (latin1 b)). now rewrite latin1_map. Qed.
Theorem ia5_text b u : text 22 b = Ok u <-> Forall (fun x => Z_of_byte x < 128) b /\ u = map (fun x => Z.to_N (Z_of_byte x)) b.
Proof.
  change (text 22 b) with (ascii_text b). revert u. induction b as [|x b IH]; intro u; cbn [ascii_text map].
  - split; [intro H; injection H as <-; split; [constructor|reflexivity]|intros [_ ->]; reflexivity].
  - destruct (Z.leb_spec 128 (Z_of_byte x)) as [L|L].
    + split; [discriminate|]. intros [F _]. inversion F. lia.
    + destruct (ascii_text b) as [v|e]; cbn [rbind].
      * destruct (proj1 (IH v) eq_refl) as [F Ev]. split.
        -- intro H. injection H as <-. subst v. split; [now constructor|reflexivity].
        -- intros [_ ->]. now rewrite <- Ev.
      * split; [discriminate|]. intros [F ->]. discriminate (proj2 (IH _) (conj (Forall_inv_tail F) eq_refl)).
Qed.
