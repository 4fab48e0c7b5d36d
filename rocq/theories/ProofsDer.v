(** Facts about splitting octets into values (ModelDer.v). *)
From Verif Require Import Base Bytes ModelX509 ModelPkcs7 ModelLazy ModelDer SpecLazy.
From Coq Require Import ZifyBool ZifyNat.

(** ** Only ValueError *)

Definition VE (e : exn) : Prop := e_class e = ValueError.
Definition ve {A} (r : res A) : Prop := reads_any VE r.

Lemma ve_error : forall A (m : string), ve (@value_error A m).
Proof. reflexivity. Qed.
Lemma ve_ok : forall A (a : A), ve (Ok a).
Proof. exact (fun _ _ => I). Qed.
Lemma ve_bind : forall A B (r : res A) (f : A -> res B),
  ve r -> (forall a, r = Ok a -> ve (f a)) -> ve (rbind r f).
Proof. intros A B [a|e] f H1 H2; cbn; [apply H2; reflexivity|exact H1]. Qed.
Lemma ve_err : forall A (r : res A) e, ve r -> r = Err e -> VE e.
Proof. intros A r e H ->. exact H. Qed.

#[export] Hint Resolve ve_error ve_ok : ve.
Ltac ve := intros;
  repeat first
    [ match goal with
      | |- ve (Ok _) => apply ve_ok
      | |- ve (value_error _) => apply ve_error
      | |- ve (rbind _ _) => apply ve_bind; [|intros ? ?]
      end
    | match goal with |- ve (match ?x with _ => _ end) => destruct x eqn:?; cbn beta iota end
    | match goal with |- ve (if ?x then _ else _) => destruct x eqn:?; cbn beta iota end
    | solve [auto with ve] ].

Lemma ve_long_tag : forall b first acc, ve (long_tag first acc b).
Proof. induction b; intros; cbn [long_tag]; unfold insufficient; ve. Qed.
#[export] Hint Resolve ve_long_tag : ve.
Lemma ve_parse_tag : forall b, ve (parse_tag b).
Proof. intros. unfold parse_tag, insufficient. ve. Qed.
Lemma ve_parse_length : forall b, ve (parse_length b).
Proof. intros. unfold parse_length, insufficient. ve. Qed.
#[export] Hint Resolve ve_parse_tag ve_parse_length : ve.

Lemma ve_scan : forall parse, (forall b, ve (parse b)) -> forall fuel x, ve (scan parse fuel x).
Proof. intros parse H. induction fuel; intros x; cbn [scan]; unfold insufficient; ve. Qed.
Lemma ve_parse_depth : forall d b, ve (parse_depth d b).
Proof.
  induction d as [|d IH]; intros b; cbn [parse_depth]; [ve|].
  unfold insufficient. pose proof (ve_scan _ IH). ve.
Qed.
Lemma ve_parse_tlv : forall b, ve (parse_tlv b).
Proof. intro. apply ve_parse_depth. Qed.
#[export] Hint Resolve ve_parse_tlv : ve.
Lemma ve_parse_many : forall fuel b, ve (parse_many fuel b).
Proof. induction fuel; intros [|]; cbn [parse_many]; unfold insufficient; ve. Qed.
Lemma ve_parse_all : forall b, ve (parse_all b).
Proof. intro. apply ve_parse_many. Qed.
#[export] Hint Resolve ve_parse_all : ve.

(** ** The octets of a value *)

Lemma long_tag_suffix : forall b first acc tag r,
  long_tag first acc b = Ok (tag, r) -> exists p, b = p ++ r.
Proof.
  induction b as [|x b IH]; intros first acc tag r H; cbn [long_tag] in H; [discriminate|].
  destruct (first && (Z_of_byte x =? 128)); [discriminate|].
  destruct (Z_of_byte x <? 128).
  - destruct (_ <? 31); [discriminate|]. injection H as _ <-. exists [x]. reflexivity.
  - apply IH in H. destruct H as [p ->]. exists (x :: p). reflexivity.
Qed.
Lemma parse_tag_suffix : forall b cls con tag r,
  parse_tag b = Ok (cls, con, tag, r) -> exists x p, b = (x :: p) ++ r.
Proof.
  intros [|x b] cls con tag r H; cbn [parse_tag] in H; [discriminate|].
  destruct (_ =? 31).
  - destruct (long_tag true 0 b) as [[tag' r']|] eqn:E; [|discriminate].
    cbn in H. injection H as _ _ _ <-. apply long_tag_suffix in E. destruct E as [p ->].
    exists x, p. reflexivity.
  - injection H as _ _ _ <-. exists x, []. reflexivity.
Qed.
Lemma be_to_Z_nonneg : forall b, 0 <= be_to_Z b.
Proof.
  intro b. unfold be_to_Z. generalize (Z.le_refl 0). generalize 0 at 2 4 as a.
  induction b as [|x b IH]; intros a Ha; cbn [fold_left]; [exact Ha|].
  apply IH. pose proof (Z_of_byte_range x). lia.
Qed.
Lemma parse_length_suffix : forall b n r,
  parse_length b = Ok (n, r) -> (exists x p, b = (x :: p) ++ r) /\ match n with Some k => 0 <= k | None => True end.
Proof.
  intros [|x b] n r H; cbn [parse_length] in H; [discriminate|].
  pose proof (Z_of_byte_range x).
  destruct (Z_of_byte x <? 128) eqn:E1; [|destruct (Z_of_byte x =? 128) eqn:E2].
  - injection H as <- <-. split; [exists x, []; reflexivity|lia].
  - injection H as <- <-. split; [exists x, []; reflexivity|exact I].
  - destruct (zlen b <? _) eqn:E3; [discriminate|].
    injection H as <- <-. split; [|apply be_to_Z_nonneg].
    exists x, (ztake (Z_of_byte x - 128) b). rewrite ztake_firstn, zskip_skipn by lia.
    cbn. now rewrite firstn_skipn.
Qed.

(** The header of a value, read from the beginning of the octets. *)
Lemma ztake_prefix : forall (p r : bytes), ztake (zlen (p ++ r) - zlen r) (p ++ r) = p.
Proof.
  intros. rewrite zlen_app, ztake_firstn. replace (Z.to_nat (zlen p + zlen r - zlen r)) with (length p)
    by (unfold zlen; lia).
  rewrite firstn_app, Nat.sub_diag, firstn_all. cbn. apply app_nil_r.
Qed.

Lemma end_of_contents_spec : forall b rest, end_of_contents b = Some rest -> b = x00 :: x00 :: rest.
Proof.
  intros [|x [|y b]] rest H; cbn [end_of_contents] in H; try discriminate.
  destruct (Z_of_byte x =? 0) eqn:E1; [|discriminate]. destruct (Z_of_byte y =? 0) eqn:E2; [|discriminate].
  injection H as <-. f_equal; [|f_equal]; apply Z_of_byte_inj; change (Z_of_byte x00) with 0; lia.
Qed.

Lemma scan_split : forall parse : bytes -> res (tlv * bytes),
  (forall b t r, parse b = Ok (t, r) -> b = tlv_dump t ++ r) ->
  forall fuel x rest, scan parse fuel x = Ok rest -> exists c, x = c ++ [x00; x00] ++ rest.
Proof.
  intros parse Hp. induction fuel as [|fuel IH]; intros x rest H; cbn [scan] in H; [discriminate|].
  destruct (end_of_contents x) as [rest'|] eqn:Ee.
  - injection H as ->. apply end_of_contents_spec in Ee. exists []. exact Ee.
  - destruct (parse x) as [[t x']|] eqn:E; [|discriminate]. cbn [rbind] in H.
    apply IH in H. destruct H as [c ->]. apply Hp in E. subst.
    exists (tlv_dump t ++ c). now rewrite <- app_assoc.
Qed.

Lemma parse_depth_split : forall d b t r,
  parse_depth d b = Ok (t, r) -> b = tlv_dump t ++ r /\ (2 <= length (t_header t))%nat.
Proof.
  induction d as [|d IH]; intros b t r H; cbn [parse_depth] in H; [discriminate|].
  destruct (parse_tag b) as [[[[cls con] tag] r1]|] eqn:E1; [|discriminate]. cbn [rbind] in H.
  destruct (parse_length r1) as [[len r2]|] eqn:E2; [|discriminate]. cbn [rbind] in H.
  apply parse_tag_suffix in E1. destruct E1 as (x & p & E1).
  apply parse_length_suffix in E2. destruct E2 as ((y & q & E2) & Hn).
  assert (E3 : b = ((x :: p) ++ (y :: q)) ++ r2) by (subst; now rewrite <- app_assoc).
  assert (E4 : ztake (zlen b - zlen r2) b = (x :: p) ++ (y :: q)) by (rewrite E3; apply ztake_prefix).
  assert (E5 : (2 <= length ((x :: p) ++ (y :: q)))%nat) by (rewrite app_length; cbn; lia).
  rewrite E4 in H. clear E1 E2 E4. destruct len as [n|].
  - destruct (zlen r2 <? n) eqn:E6; [discriminate|]. injection H as <- <-. unfold tlv_dump. cbn [t_header t_contents t_trailer].
    split; [|exact E5]. rewrite E3, app_nil_r, <- !app_assoc.
    rewrite ztake_firstn, zskip_skipn by lia. rewrite firstn_skipn. cbn [app]. now rewrite <- ?app_assoc, ?firstn_skipn.
  - destruct con; cbn [negb] in H; [|discriminate].
    match type of H with rbind ?s _ = _ => destruct s as [rest|] eqn:E6; [|discriminate] end.
    cbn [rbind] in H. injection H as <- <-.
    assert (G : exists c, r2 = c ++ [x00; x00] ++ rest).
    { apply (scan_split _ (fun x u y E => proj1 (IH x u y E)) _ _ _ E6). }
    destruct G as [c G]. unfold tlv_dump. cbn [t_header t_contents t_trailer]. split; [|exact E5].
    assert (F : ztake (zlen r2 - zlen rest - 2) r2 = c).
    { rewrite G at 2. replace (zlen r2 - zlen rest - 2) with (zlen (c ++ [x00; x00] ++ rest) - zlen ([x00; x00] ++ rest))
        by (rewrite G, !zlen_app; change (zlen [x00; x00]) with 2; lia).
      apply ztake_prefix. }
    rewrite F, E3, G, <- !app_assoc. cbn [app]. now rewrite <- ?app_assoc.
Qed.
Lemma parse_tlv_split : forall b t r,
  parse_tlv b = Ok (t, r) -> b = tlv_dump t ++ r /\ (2 <= length (t_header t))%nat.
Proof. intros b t r. apply parse_depth_split. Qed.

(** The values of a contents are the contents, one after the other. *)
Lemma parse_many_split : forall fuel b l,
  parse_many fuel b = Ok l ->
  b = concat (map tlv_dump l) /\ Forall (fun t => (2 <= length (t_header t))%nat) l.
Proof.
  induction fuel as [|fuel IH]; intros [|x b] l H; cbn [parse_many] in H; try discriminate.
  1, 2: injection H as <-; split; [reflexivity|constructor].
  destruct (parse_tlv (x :: b)) as [[t r]|] eqn:E; [|discriminate]. cbn [rbind] in H.
  destruct (parse_many fuel r) as [l'|] eqn:E'; [|discriminate]. cbn [rbind] in H.
  injection H as <-. apply parse_tlv_split in E. destruct E as [-> E].
  apply IH in E'. destruct E' as [-> E']. split; [reflexivity|constructor; assumption].
Qed.
Lemma parse_all_split : forall b l,
  parse_all b = Ok l ->
  b = concat (map tlv_dump l) /\ Forall (fun t => (2 <= length (t_header t))%nat) l.
Proof. intros b l. apply parse_many_split. Qed.

(** Every one of them is shorter. *)
Lemma length_dump : forall t, length (tlv_dump t) = (length (t_header t) + length (t_contents t) + length (t_trailer t))%nat.
Proof. intro. unfold tlv_dump. rewrite !app_length. lia. Qed.
Lemma parse_all_shorter : forall b l t,
  parse_all b = Ok l -> In t l -> (length (t_contents t) + 2 <= length b)%nat.
Proof.
  intros b l t H Ht. apply parse_all_split in H. destruct H as [-> H].
  rewrite Forall_forall in H. specialize (H t Ht).
  apply in_split in Ht. destruct Ht as (l1 & l2 & ->).
  rewrite map_app, concat_app, app_length. cbn [map concat]. rewrite app_length, length_dump. lia.
Qed.
Lemma parse_tlv_shorter : forall b t r,
  parse_tlv b = Ok (t, r) -> (length (t_contents t) + 2 <= length b)%nat.
Proof.
  intros b t r H. apply parse_tlv_split in H. destruct H as [-> H].
  rewrite app_length, length_dump. lia.
Qed.
