(** Reading PEM. *)
From Verif Require Import Base Bytes ModelX509 ModelContext SpecContext SpecUnread ModelLazy SpecLazy ModelDer ModelDecode ProofsDer ProofsDecode ModelPem SpecPem.
From Coq Require Import ZifyBool ZifyNat.

(** ** Base 64 *)

Definition coded_char (c : byte) : bool := match sextet c with Some _ => true | None => Z_of_byte c =? 61 end.

Lemma letters_all : forallb (fun n => let z := Z.of_nat n in
  match sextet (letter z) with Some v => (v =? z) && negb (Z_of_byte (letter z) =? 61) | None => false end) (seq 0 64) = true.
Proof. vm_compute. reflexivity. Qed.
Lemma letter_value z : 0 <= z < 64 -> sextet (letter z) = Some z /\ (Z_of_byte (letter z) =? 61) = false.
Proof.
  intro H. pose proof letters_all as A. rewrite forallb_forall in A. specialize (A (Z.to_nat z)).
  rewrite in_seq in A. specialize (A ltac:(lia)). cbv beta zeta in A. rewrite Z2Nat.id in A by lia.
  destruct (sextet (letter z)) as [v|]; [|discriminate]. apply andb_true_iff in A. destruct A as [A1 A2].
  apply Z.eqb_eq in A1. subst v. split; [reflexivity|]. now apply negb_true_iff in A2.
Qed.

Lemma step0 v acc pads b : 0 <= v < 64 -> a2b_base64 0 acc pads (letter v :: b) = a2b_base64 1 v 0 b.
Proof. intro H. destruct (letter_value v H) as [S N]. cbn [a2b_base64]. now rewrite N, S. Qed.
Lemma step1 v acc pads b : 0 <= v < 64 -> a2b_base64 1 acc pads (letter v :: b) =
  let? r := a2b_base64 2 (v mod 16) 0 b in Ok (byte_of_Z (acc * 4 + v / 16) :: r).
Proof. intro H. destruct (letter_value v H) as [S N]. cbn [a2b_base64]. now rewrite N, S. Qed.
Lemma step2 v acc pads b : 0 <= v < 64 -> a2b_base64 2 acc pads (letter v :: b) =
  let? r := a2b_base64 3 (v mod 4) 0 b in Ok (byte_of_Z (acc * 16 + v / 4) :: r).
Proof. intro H. destruct (letter_value v H) as [S N]. cbn [a2b_base64]. now rewrite N, S. Qed.
Lemma step3 v acc pads b : 0 <= v < 64 -> a2b_base64 3 acc pads (letter v :: b) =
  let? r := a2b_base64 0 0 0 b in Ok (byte_of_Z (acc * 64 + v) :: r).
Proof. intro H. destruct (letter_value v H) as [S N]. cbn [a2b_base64]. now rewrite N, S. Qed.

Lemma three_ind (P : bytes -> Prop) : P [] -> (forall x, P [x]) -> (forall x y, P [x; y]) ->
  (forall x y z b, P b -> P (x :: y :: z :: b)) -> forall b, P b.
Proof.
  intros H0 H1 H2 H3. fix F 1. intros [|x [|y [|z b]]]; [exact H0|apply H1|apply H2|apply H3, F].
Qed.
Ltac byte_is x := rewrite <- (byte_of_Z_of_byte x); f_equal.
Lemma div_lo a b k : 0 < k -> 0 <= b < k -> (a * k + b) / k = a.
Proof. intros K H. rewrite Z.div_add_l, Z.div_small by lia. lia. Qed.
Lemma mod_lo a b k : 0 < k -> 0 <= b < k -> (a * k + b) mod k = b.
Proof. intros K H. rewrite Z.add_comm, Z.mod_add, Z.mod_small by lia. lia. Qed.

Theorem base64_read b : b64decode (base64 b) = Ok b.
Proof.
  unfold b64decode. induction b as [|x|x y|x y z b IH] using three_ind; cbn [base64]; cbv zeta.
  - reflexivity.
  - pose proof (Z_of_byte_range x) as X. set (n := Z_of_byte x) in *.
    pose proof (Z.div_mod n 4 ltac:(lia)). pose proof (Z.mod_pos_bound n 4 ltac:(lia)).
    assert (0 <= n / 4 < 64) by lia.
    rewrite step0, step1 by lia. cbn [a2b_base64]. change (Z_of_byte x3d =? 61) with true. cbv iota.
    change (2 <=? 2) with true. change (4 <=? 2 + (0 + 1)) with false. change (4 <=? 2 + (0 + 1 + 1)) with true. cbn [rbind].
    do 2 f_equal. byte_is x. replace (n mod 4 * 16 / 16) with (n mod 4) by (rewrite Z.div_mul; lia). fold n. lia.
  - pose proof (Z_of_byte_range x) as X. pose proof (Z_of_byte_range y) as Y. set (p := Z_of_byte x) in *. set (q := Z_of_byte y) in *.
    set (n := p * 256 + q).
    assert (N : 0 <= n < 65536) by lia.
    pose proof (Z.div_mod n 16 ltac:(lia)). pose proof (Z.mod_pos_bound n 16 ltac:(lia)).
    pose proof (Z.div_mod (n / 16) 64 ltac:(lia)). pose proof (Z.mod_pos_bound (n / 16) 64 ltac:(lia)).
    assert (Q : n / 16 / 64 = n / 1024) by (rewrite Z.div_div by lia; reflexivity). rewrite Q in *.
    assert (0 <= n / 1024 < 64) by lia.
    rewrite step0, step1, step2 by lia. cbn [a2b_base64]. change (Z_of_byte x3d =? 61) with true. cbv iota.
    change (2 <=? 3) with true. change (4 <=? 3 + (0 + 1)) with true. cbn [rbind].
    pose proof (Z.div_mod (n / 16 mod 64) 16 ltac:(lia)). pose proof (Z.mod_pos_bound (n / 16 mod 64) 16 ltac:(lia)).
    replace (n mod 16 * 4 / 4) with (n mod 16) by (rewrite Z.div_mul; lia).
    set (u := n / 16 mod 64 / 16) in *. set (s := n / 16 mod 64 mod 16) in *. set (t := n mod 16) in *. set (o := n / 1024) in *.
    clearbody u s t o. subst n.
    do 2 f_equal; [byte_is x; fold p; lia|]. f_equal. byte_is y. fold q. lia.
  - pose proof (Z_of_byte_range x) as X. pose proof (Z_of_byte_range y) as Y. pose proof (Z_of_byte_range z) as Zr.
    set (p := Z_of_byte x) in *. set (q := Z_of_byte y) in *. set (r := Z_of_byte z) in *.
    set (n := (p * 256 + q) * 256 + r).
    assert (N : 0 <= n < 16777216) by lia.
    pose proof (Z.div_mod n 64 ltac:(lia)). pose proof (Z.mod_pos_bound n 64 ltac:(lia)).
    pose proof (Z.div_mod (n / 64) 64 ltac:(lia)). pose proof (Z.mod_pos_bound (n / 64) 64 ltac:(lia)).
    pose proof (Z.div_mod (n / 4096) 64 ltac:(lia)). pose proof (Z.mod_pos_bound (n / 4096) 64 ltac:(lia)).
    assert (Q : n / 64 / 64 = n / 4096) by (rewrite Z.div_div by lia; reflexivity). rewrite Q in *.
    assert (Q' : n / 4096 / 64 = n / 262144) by (rewrite Z.div_div by lia; reflexivity). rewrite Q' in *.
    assert (0 <= n / 262144 < 64) by lia.
    rewrite step0, step1, step2, step3 by lia. rewrite IH. cbn [rbind].
    pose proof (Z.div_mod (n / 4096 mod 64) 16 ltac:(lia)). pose proof (Z.mod_pos_bound (n / 4096 mod 64) 16 ltac:(lia)).
    pose proof (Z.div_mod (n / 64 mod 64) 4 ltac:(lia)). pose proof (Z.mod_pos_bound (n / 64 mod 64) 4 ltac:(lia)).
    set (u := n / 4096 mod 64 / 16) in *. set (s := n / 4096 mod 64 mod 16) in *.
    set (u' := n / 64 mod 64 / 4) in *. set (s' := n / 64 mod 64 mod 4) in *. set (t := n mod 64) in *. set (o := n / 262144) in *.
    clearbody u s u' s' t o. subst n.
    do 2 f_equal; [byte_is x; fold p; lia|]. f_equal; [byte_is y; fold q; lia|]. f_equal. byte_is z. fold r. lia.
Qed.

(** The characters of base 64 are not those that matter to the lines. *)
Lemma letters_plain : forallb (fun n => negb (Z_of_byte (letter (Z.of_nat n)) =? 58) && negb (Z_of_byte (letter (Z.of_nat n)) =? 45)) (seq 0 64) = true.
Proof. vm_compute. reflexivity. Qed.
Definition plain_char (c : byte) : Prop := Z_of_byte c <> 58 /\ Z_of_byte c <> 45.
Lemma letter_plain z : 0 <= z < 64 -> plain_char (letter z).
Proof.
  intro H. pose proof letters_plain as A. rewrite forallb_forall in A. specialize (A (Z.to_nat z)).
  rewrite in_seq in A. specialize (A ltac:(lia)). rewrite Z2Nat.id in A by lia. unfold plain_char. lia.
Qed.
Lemma base64_plain b : Forall plain_char (base64 b).
Proof.
  assert (E : plain_char x3d) by (split; vm_compute; discriminate).
  induction b as [|x|x y|x y z b IH] using three_ind; cbn [base64]; cbv zeta.
  - constructor.
  - pose proof (Z_of_byte_range x). pose proof (Z.mod_pos_bound (Z_of_byte x) 4 ltac:(lia)).
    pose proof (Z.div_mod (Z_of_byte x) 4 ltac:(lia)).
    repeat (constructor; [first [exact E|apply letter_plain; lia]|]). constructor.
  - pose proof (Z_of_byte_range x). pose proof (Z_of_byte_range y). set (n := Z_of_byte x * 256 + Z_of_byte y).
    assert (0 <= n < 65536) by lia. pose proof (Z.div_mod n 1024 ltac:(lia)). pose proof (Z.mod_pos_bound n 1024 ltac:(lia)).
    pose proof (Z.mod_pos_bound (n / 16) 64 ltac:(lia)). pose proof (Z.mod_pos_bound n 16 ltac:(lia)).
    repeat (constructor; [first [exact E|apply letter_plain; lia]|]). constructor.
  - pose proof (Z_of_byte_range x). pose proof (Z_of_byte_range y). pose proof (Z_of_byte_range z).
    set (n := (Z_of_byte x * 256 + Z_of_byte y) * 256 + Z_of_byte z).
    assert (0 <= n < 16777216) by lia. pose proof (Z.div_mod n 262144 ltac:(lia)). pose proof (Z.mod_pos_bound n 262144 ltac:(lia)).
    pose proof (Z.mod_pos_bound (n / 4096) 64 ltac:(lia)). pose proof (Z.mod_pos_bound (n / 64) 64 ltac:(lia)).
    pose proof (Z.mod_pos_bound n 64 ltac:(lia)).
    repeat (constructor; [apply letter_plain; lia|]). exact IH.
Qed.

(** What the octets read are: the bits of the letters. *)
Fixpoint sextets (b : bytes) : list Z :=
  match b with
  | [] => []
  | c :: b' => match sextet c with Some v => v :: sextets b' | None => sextets b' end
  end.

(** ** Lines *)

Definition full (l : bytes) : bool := match l with [] => false | _ => true end.
Lemma newline_false c : c <> x0a -> c <> x0d -> newline c = false.
Proof. destruct c; intros A B; try reflexivity; congruence. Qed.
Lemma lines_line l : one_line l -> forall cur b, lines_from cur (l ++ b) = lines_from (cur ++ l) b.
Proof.
  intros [N R]. induction l as [|c l IH]; intros cur b; cbn [app lines_from].
  - now rewrite app_nil_r.
  - rewrite newline_false; [|intros ->; apply N; now left|intros ->; apply R; now left].
    rewrite IH; [|intro; apply N; now right|intro; apply R; now right]. now rewrite <- app_assoc.
Qed.
Lemma lines_eol e cur b : eol e -> lines_from cur (e ++ b) = (if full cur then [cur] else []) ++ lines_from [] b.
Proof. intros [->|[->| ->]]; cbn [app lines_from]; destruct cur; reflexivity. Qed.
Theorem lines_text ls b : text_of ls b -> lines_of b = filter full ls.
Proof.
  unfold lines_of. induction 1 as [|l L|l e ls b L E T IH].
  - reflexivity.
  - rewrite <- (app_nil_r l) at 1. rewrite lines_line by exact L. cbn [lines_from app filter]. destruct l; reflexivity.
  - rewrite lines_line by exact L. cbn [app]. rewrite lines_eol by exact E. rewrite IH. cbn [filter].
    destruct (full l); reflexivity.
Qed.

(** ** Blocks *)

Lemma starts_spec p b : starts_with p b = true <-> exists rest, b = p ++ rest.
Proof.
  revert b. induction p as [|x p IH]; intros b; cbn [starts_with app].
  - split; [intros _; now exists b|reflexivity].
  - destruct b as [|y b].
    + split; [discriminate|]. intros [r E]. discriminate.
    + rewrite andb_true_iff, IH. split.
      * intros [E [r ->]]. apply Byte.byte_dec_bl in E. subst y. now exists r.
      * intros [r E]. injection E as -> ->. split; [now apply Byte.byte_dec_lb|now exists r].
Qed.
Lemma starts_app p b : starts_with p (p ++ b) = true.
Proof. apply starts_spec. now exists b. Qed.

Lemma remark_trash l : remark l -> begins l = false.
Proof.
  intro R. unfold begins.
  destruct (starts_with (ascii "---- BEGIN ") l) eqn:A.
  { apply starts_spec in A. destruct A as [r ->]. destruct (R r) as [_ N]. now elim N. }
  destruct (starts_with (ascii "-----BEGIN ") l) eqn:B.
  { apply starts_spec in B. destruct B as [r ->]. destruct (R r) as [N _]. now elim N. }
  reflexivity.
Qed.

Lemma label_char_ok c : 65 <= Z_of_byte c <= 90 \/ 48 <= Z_of_byte c <= 57 \/ Z_of_byte c = 32 -> label_char c = true.
Proof. unfold label_char. cbv zeta. lia. Qed.
Lemma label_matches l : Forall (fun c => label_char c = true) l -> forall some, some = true \/ l <> [] ->
  label_match some (l ++ lit "-----") = true.
Proof.
  induction 1 as [|c l C L IH]; intros some H.
  - destruct H as [->|N]; [reflexivity|now elim N].
  - cbn [app label_match]. rewrite C, (IH true) by now left. now rewrite orb_true_r.
Qed.
Lemma label_chars l : label l -> Forall (fun c => label_char c = true) l.
Proof. intros [_ F]. eapply Forall_impl; [|exact F]. intros c H. now apply label_char_ok. Qed.
Lemma pre_begins l : label l -> begins (pre l) = true.
Proof.
  intro L. unfold begins, pre. apply orb_true_iff. right. apply andb_true_iff. split; [apply starts_app|].
  change (skipn 11 (lit "-----BEGIN " ++ l ++ lit "-----")) with (l ++ lit "-----").
  apply label_matches; [now apply label_chars|right; apply L].
Qed.
Lemma existsb_false {X} (f : X -> bool) ls : Forall (fun x => f x = false) ls -> existsb f ls = false.
Proof. induction 1 as [|x ls E _ IH]; [reflexivity|]. cbn [existsb]. now rewrite E, IH. Qed.
Lemma post_line l : label l -> has_colon (post l) = false /\ ends (post l) = true.
Proof.
  intros [_ F]. split; [|reflexivity]. unfold has_colon, post. rewrite !existsb_app.
  change (existsb (fun c => Z_of_byte c =? 58) (lit "-----END ")) with false.
  change (existsb (fun c => Z_of_byte c =? 58) (lit "-----")) with false. rewrite orb_false_r. cbn [orb].
  apply existsb_false. eapply Forall_impl; [|exact F]. cbv beta. intros c H. lia.
Qed.
Lemma plain_line l : Forall plain_char l -> l <> [] -> has_colon l = false /\ ends l = false.
Proof.
  intros F N. split.
  - unfold has_colon. apply existsb_false. eapply Forall_impl; [|exact F]. unfold plain_char. intros c H. lia.
  - destruct l as [|c l]; [now elim N|]. inversion F as [|? ? [_ D] _]; subst. unfold ends.
    destruct (starts_with (ascii "-----") (c :: l)) eqn:A.
    { apply starts_spec in A. destruct A as [r A]. injection A as -> _. elim D. reflexivity. }
    destruct (starts_with (ascii "---- ") (c :: l)) eqn:B; [|reflexivity].
    apply starts_spec in B. destruct B as [r B]. injection B as -> _. elim D. reflexivity.
Qed.
Lemma concat_full ls : concat (filter full ls) = concat ls.
Proof. induction ls as [|[|c l] ls IH]; cbn [filter full concat app]; [reflexivity|exact IH|]. now rewrite IH. Qed.

Lemma trash_remarks notes found ls : Forall remark notes -> unarmor Trash found (notes ++ ls) = unarmor Trash found ls.
Proof.
  induction 1 as [|l notes R _ IH]; [reflexivity|]. cbn [app unarmor]. now rewrite (remark_trash _ R), IH.
Qed.
Definition block_read (d : res bytes) (found : bool) (ls : list bytes) : list bytes * option exn :=
  match d with
  | Ok d => let (ds, e) := unarmor Trash true ls in (d :: ds, e)
  | Err e => ([], Some e)
  end.
Lemma body_run body found l ls : Forall (fun x => Forall plain_char x /\ x <> []) body -> label l ->
  forall data, unarmor (Body data) found (body ++ post l :: ls) = block_read (b64decode (data ++ concat body)) found ls.
Proof.
  intros F L. destruct (post_line l L) as [_ E].
  induction F as [|x body [P N] _ IH]; intro data; cbn [app concat unarmor].
  - rewrite E, app_nil_r. reflexivity.
  - destruct (plain_line x P N) as [_ D]. rewrite D, IH. now rewrite app_assoc.
Qed.
Lemma headers_run body found l ls : Forall (fun x => Forall plain_char x /\ x <> []) body -> label l ->
  unarmor Headers found (body ++ post l :: ls) = block_read (b64decode (concat body)) found ls.
Proof.
  intros F L. destruct (post_line l L) as [C E]. destruct F as [|x body [P N] F].
  - cbn [app concat unarmor]. rewrite C, E. reflexivity.
  - destruct (plain_line x P N) as [C' D]. cbn [app concat unarmor]. rewrite C', D. now rewrite body_run.
Qed.

Lemma lines_plain body b : concat body = b -> Forall plain_char b ->
  Forall (fun x => Forall plain_char x /\ x <> []) (filter full body).
Proof.
  intros <- P. apply Forall_forall. intros x I. apply filter_In in I. destruct I as [I F]. split.
  - rewrite Forall_forall in P. apply Forall_forall. intros c Ic. apply P. apply in_concat. now exists x.
  - intros ->. discriminate.
Qed.
Lemma filter_remarks notes : Forall remark notes -> Forall remark (filter full notes).
Proof. intro F. apply Forall_forall. intros x I. apply filter_In in I. rewrite Forall_forall in F. now apply F. Qed.
Theorem bundle_read ls ders : bundle ls ders -> forall found,
  unarmor Trash found (filter full ls) = (ders, if found then None else match ders with [] => Some no_pem | _ => None end).
Proof.
  induction 1 as [notes R|notes l l' body der ls ders R L L' E B IH]; intro found.
  - rewrite <- (app_nil_r (filter full notes)). rewrite trash_remarks by now apply filter_remarks. destruct found; reflexivity.
  - rewrite filter_app. cbn [filter]. change (full (pre l)) with true. cbv iota.
    rewrite filter_app. cbn [filter]. change (full (post l')) with true. cbv iota.
    rewrite trash_remarks by now apply filter_remarks. cbn [unarmor]. rewrite (pre_begins l L).
    rewrite headers_run; [|eapply lines_plain; [exact E|apply base64_plain]|exact L'].
    rewrite concat_full, E, base64_read. unfold block_read. rewrite IH. destruct found; reflexivity.
Qed.

(** ** Certificates *)

Lemma yield_all ds cs : Forall2 (fun d c => cert_from_der d = Ok c) ds cs -> forall e, yield_certificates ds e = (cs, e).
Proof. induction 1 as [|d c ds cs E _ IH]; intro e; cbn [yield_certificates]; [reflexivity|]. now rewrite E, IH. Qed.
Theorem from_pems_bundle ls t ders cs : bundle ls ders -> text_of ls t -> ders <> [] ->
  Forall2 (fun d c => cert_from_der d = Ok c) ders cs -> from_pems t = (cs, None).
Proof.
  intros B T N F. unfold from_pems. rewrite (lines_text _ _ T), (bundle_read _ _ B).
  destruct ders as [|d ders]; [now elim N|]. now apply yield_all.
Qed.
Theorem from_pems_none ls t : bundle ls [] -> text_of ls t -> from_pems t = ([], Some no_pem).
Proof. intros B T. unfold from_pems. now rewrite (lines_text _ _ T), (bundle_read _ _ B). Qed.

(** The generator raises when there is nothing to yield. *)
Lemma unarmor_some ls : forall st found ds, unarmor st found ls = (ds, None) -> found = true \/ ds <> [].
Proof.
  induction ls as [|line ls IH]; intros st found ds E; cbn [unarmor] in E.
  - destruct found; [now left|discriminate].
  - assert (K : forall data, (if ends line then
          match b64decode data with
          | Ok d => let (ds, e) := unarmor Trash true ls in (d :: ds, e)
          | Err e => ([], Some e)
          end
        else unarmor (Body (data ++ line)) found ls) = (ds, None) -> found = true \/ ds <> []).
    { intros data Q. destruct (ends line); [|now apply IH in Q].
      destruct (b64decode data); [|discriminate]. destruct (unarmor Trash true ls). injection Q as <- _. right. discriminate. }
    destruct st.
    + destruct (begins line); now apply IH in E.
    + destruct (has_colon line); [destruct (is_ascii line); [now apply IH in E|discriminate]|now apply K in E].
    + now apply K in E.
Qed.
Lemma yield_none ds : yield_certificates ds None = ([], None) -> ds = [].
Proof.
  destruct ds as [|d ds]; [reflexivity|]. cbn [yield_certificates]. destruct (cert_from_der d); [|discriminate].
  destruct (yield_certificates ds None). discriminate.
Qed.
Lemma yield_ends ds e cs x : yield_certificates ds e = (cs, x) -> x = None -> e = None.
Proof.
  revert cs x. induction ds as [|d ds IH]; intros cs x E N; cbn [yield_certificates] in E.
  - now injection E as <- <-.
  - destruct (cert_from_der d); [|injection E as <- <-; discriminate].
    destruct (yield_certificates ds e) as [cs' x'] eqn:Q. injection E as <- <-. eapply IH; eauto.
Qed.
Theorem from_pem_some t : from_pem t <> None.
Proof.
  unfold from_pem, from_pems. destruct (unarmor Trash false (lines_of t)) as [ds e] eqn:U.
  destruct (yield_certificates ds e) as [cs x] eqn:Y. destruct cs as [|c cs]; [|discriminate].
  destruct x as [x|]; [discriminate|]. exfalso.
  pose proof (yield_ends _ _ _ _ Y eq_refl) as ->. apply yield_none in Y. subst ds.
  apply unarmor_some in U. destruct U as [U|U]; [discriminate|now apply U].
Qed.

(** ** What is yielded stands in the file *)

Definition framed (ls : list bytes) (d : bytes) : Prop :=
  exists before b headers body e after,
    ls = before ++ b :: headers ++ body ++ e :: after /\
    begins b = true /\ Forall (fun l => has_colon l = true) headers /\ Forall (fun l => ends l = false) body /\
    ends e = true /\ b64decode (concat body) = Ok d.
Lemma framed_more ls ls' d : framed ls d -> framed (ls' ++ ls) d.
Proof.
  intros (x & b & h & body & e & y & -> & R). exists (ls' ++ x), b, h, body, e, y. split; [|exact R].
  now rewrite <- app_assoc.
Qed.
Definition seen (st : pem_state) (done : list bytes) : Prop :=
  match st with
  | Trash => True
  | Headers => exists x b h, done = x ++ b :: h /\ begins b = true /\ Forall (fun l => has_colon l = true) h
  | Body data => exists x b h body, done = x ++ b :: h ++ body /\ begins b = true /\
      Forall (fun l => has_colon l = true) h /\ Forall (fun l => ends l = false) body /\ data = concat body
  end.
Lemma unarmor_framed ls : forall st found done ds e, seen st done -> unarmor st found ls = (ds, e) ->
  Forall (framed (done ++ ls)) ds.
Proof.
  induction ls as [|line ls IH]; intros st found done ds e S E; cbn [unarmor] in E.
  - injection E as <- _. constructor.
  - assert (EQ : done ++ line :: ls = (done ++ [line]) ++ ls) by now rewrite <- app_assoc.
    assert (K : forall data, (exists x b h body, done = x ++ b :: h ++ body /\ begins b = true /\
      Forall (fun l => has_colon l = true) h /\ Forall (fun l => ends l = false) body /\ data = concat body) ->
      (if ends line then
          match b64decode data with
          | Ok d => let (ds, e) := unarmor Trash true ls in (d :: ds, e)
          | Err e => ([], Some e)
          end
        else unarmor (Body (data ++ line)) found ls) = (ds, e) -> Forall (framed (done ++ line :: ls)) ds).
    { intros data (x & b & h & body & -> & Bb & H & Bd & ->) Q. destruct (ends line) eqn:El.
      - destruct (b64decode (concat body)) as [d|] eqn:D; [|injection Q as <- _; constructor].
        destruct (unarmor Trash true ls) as [ds' e'] eqn:U. injection Q as <- <-. constructor.
        + exists x, b, h, body, line, ls. rewrite <- !app_assoc. cbn [app]. rewrite <- !app_assoc. repeat split; assumption.
        + rewrite EQ. eapply IH; [|exact U]. exact I.
      - rewrite EQ. eapply IH; [|exact Q]. exists x, b, h, (body ++ [line]). repeat split.
        + rewrite <- !app_assoc. cbn [app]. now rewrite <- !app_assoc.
        + exact Bb.
        + exact H.
        + apply Forall_app. split; [exact Bd|]. constructor; [exact El|constructor].
        + rewrite concat_app. cbn [concat]. now rewrite app_nil_r. }
    destruct st as [| |data].
    + destruct (begins line) eqn:Bl; rewrite EQ; eapply IH; try exact E; [|exact I].
      exists done, line, []. repeat split; [exact Bl|constructor].
    + destruct S as (x & b & h & -> & Bb & H). destruct (has_colon line) eqn:C.
      * destruct (is_ascii line); [|injection E as <- _; constructor]. rewrite EQ. eapply IH; [|exact E].
        exists x, b, (h ++ [line]). repeat split; [now rewrite <- app_assoc|exact Bb|].
        apply Forall_app. split; [exact H|]. constructor; [exact C|constructor].
      * eapply K; [|exact E]. exists x, b, h, []. rewrite app_nil_r. repeat split; try assumption. constructor.
    + eapply K; [|exact E]. exact S.
Qed.
Lemma yield_from ds e cs x c : yield_certificates ds e = (cs, x) -> In c cs -> exists d, In d ds /\ cert_from_der d = Ok c.
Proof.
  revert cs x. induction ds as [|d ds IH]; intros cs x E I; cbn [yield_certificates] in E.
  - injection E as <- _. destruct I.
  - destruct (cert_from_der d) as [c'|] eqn:D; [|injection E as <- _; destruct I].
    destruct (yield_certificates ds e) as [cs' x'] eqn:Q. injection E as <- <-. destruct I as [->|I].
    + exists d. split; [now left|exact D].
    + destruct (IH _ _ eq_refl I) as (d' & Id & D'). exists d'. split; [now right|exact D'].
Qed.
Theorem from_pems_framed t cs x c : from_pems t = (cs, x) -> In c cs ->
  exists d, framed (lines_of t) d /\ cert_from_der d = Ok c.
Proof.
  unfold from_pems. destruct (unarmor Trash false (lines_of t)) as [ds e] eqn:U. intros Y I.
  destruct (yield_from _ _ _ _ _ Y I) as (d & Id & D). exists d. split; [|exact D].
  pose proof (unarmor_framed _ Trash false [] ds e Logic.I U) as F. rewrite Forall_forall in F. now apply F.
Qed.

(** ** The same with the words of the specification *)

Lemma sextet_some c v : sextet c = Some v -> 0 <= v < 64 /\ c = letter v.
Proof. destruct c; intro E; vm_compute in E; try discriminate; injection E as <-; split; try lia; reflexivity. Qed.
Lemma sextet_none c : sextet c = None -> forall v, 0 <= v < 64 -> c <> letter v.
Proof. intros E v R ->. rewrite (proj1 (letter_value v R)) in E. discriminate. Qed.
Lemma number_from base vs : forall n, fold_left (fun n v => base * n + v) vs n = base ^ zlen vs * n + number base vs.
Proof.
  unfold number, zlen. induction vs as [|v vs IH]; intro n; cbn [fold_left length].
  - change (Z.of_nat 0) with 0. rewrite Z.pow_0_r. lia.
  - rewrite IH, (IH (base * 0 + v)). rewrite Nat2Z.inj_succ, Z.pow_succ_r by lia. ring.
Qed.
Lemma number_cons base v vs : number base (v :: vs) = base ^ zlen vs * v + number base vs.
Proof. unfold number at 1. cbn [fold_left]. rewrite number_from. f_equal. f_equal. lia. Qed.
Lemma number_letters vs : Forall (fun v => 0 <= v < 64) vs -> 0 <= number 64 vs < 64 ^ zlen vs.
Proof.
  induction 1 as [|v vs V _ IH]; [unfold number, zlen; cbn [fold_left length]; change (64 ^ Z.of_nat 0) with 1; lia|].
  rewrite number_cons. replace (zlen (v :: vs)) with (Z.succ (zlen vs)) by (unfold zlen; cbn [length]; lia).
  assert (0 <= zlen vs) by (unfold zlen; lia). rewrite Z.pow_succ_r by assumption. nia.
Qed.
Lemma letters_range b vs : letters b vs -> Forall (fun v => 0 <= v < 64) vs.
Proof. induction 1; [constructor|now constructor|assumption]. Qed.

(** [n] bits with the value [acc] are pending. *)
Definition decoded (n acc : Z) (b r : bytes) : Prop :=
  exists used rest vs k, b = used ++ rest /\ (rest = [] \/ exists u, used = u ++ [x3d]) /\
    letters used vs /\ (k = 0 \/ k = 2 \/ k = 4) /\ n + 6 * zlen vs = 8 * zlen r + k /\
    number 256 (map Z_of_byte r) = (acc * 64 ^ zlen vs + number 64 vs) / 2 ^ k.
Lemma decoded_skip n acc c b r : sextet c = None -> decoded n acc b r -> decoded n acc (c :: b) r.
Proof.
  intros S (used & rest & vs & k & -> & P & L & K & N & V). exists (c :: used), rest, vs, k. split; [reflexivity|].
  split. { destruct P as [P|[u ->]]; [now left|right; now exists (c :: u)]. }
  split; [|auto]. apply letters_skip; [now apply sextet_none|exact L].
Qed.
Lemma equal_sign c : (Z_of_byte c =? 61) = true -> c = x3d.
Proof. destruct c; vm_compute; congruence. Qed.
(** One letter read, after which [n'] bits are pending; [m] octets of 0 or 1 came out. *)
Lemma decoded_none n acc v b r : 0 <= v < 64 -> decoded (n + 6) (acc * 64 + v) b r -> decoded n acc (letter v :: b) r.
Proof.
  intros V (used & rest & vs & k & -> & P & L & K & N & W). exists (letter v :: used), rest, (v :: vs), k. split; [reflexivity|].
  split. { destruct P as [P|[u ->]]; [now left|right; now exists (letter v :: u)]. }
  split; [now apply letters_take|]. split; [exact K|].
  replace (zlen (v :: vs)) with (Z.succ (zlen vs)) by (unfold zlen; cbn [length]; lia).
  split; [lia|]. rewrite W. f_equal. rewrite number_cons. rewrite Z.pow_succ_r by (unfold zlen; lia). ring.
Qed.
Lemma decoded_octet n acc b o r : 0 <= o < 256 -> 0 <= n -> decoded n acc b r -> decoded (n + 8) (o * 2 ^ n + acc) b (byte_of_Z o :: r).
Proof.
  intros O N0 (used & rest & vs & k & E & P & L & K & N & W). exists used, rest, vs, k. split; [exact E|]. split; [exact P|].
  split; [exact L|]. split; [exact K|].
  replace (zlen (byte_of_Z o :: r)) with (Z.succ (zlen r)) by (unfold zlen; cbn [length]; lia). split; [lia|].
  cbn [map]. rewrite number_cons, W. rewrite Z_of_byte_of_Z by exact O.
  replace (zlen (map Z_of_byte r)) with (zlen r) by (unfold zlen; now rewrite map_length).
  assert (R0 : 0 <= zlen r) by (unfold zlen; lia). assert (V0 : 0 <= zlen vs) by (unfold zlen; lia). assert (K0 : 0 <= k) by lia.
  replace ((o * 2 ^ n + acc) * 64 ^ zlen vs + number 64 vs) with
    (256 ^ zlen r * o * 2 ^ k + (acc * 64 ^ zlen vs + number 64 vs)).
  - rewrite Z.div_add_l by (apply Z.pow_nonzero; lia). lia.
  - replace (256 ^ zlen r * o * 2 ^ k) with (o * 2 ^ n * 64 ^ zlen vs); [ring|].
    change 64 with (2 ^ 6). change 256 with (2 ^ 8). rewrite <- !Z.pow_mul_r by lia.
    replace (o * 2 ^ n * 2 ^ (6 * zlen vs)) with (o * (2 ^ n * 2 ^ (6 * zlen vs))) by ring.
    replace (2 ^ (8 * zlen r) * o * 2 ^ k) with (o * (2 ^ (8 * zlen r) * 2 ^ k)) by ring.
    rewrite <- !Z.pow_add_r by lia. now rewrite N.
Qed.
Definition pending (pos : Z) : Z := if pos =? 0 then 0 else if pos =? 1 then 6 else if pos =? 2 then 4 else 2.
Lemma a2b_decoded b : forall pos acc pads r, 0 <= pos <= 3 -> (0 <= acc < 2 ^ pending pos) ->
  a2b_base64 pos acc pads b = Ok r -> decoded (pending pos) acc b r.
Proof.
  induction b as [|c b IH]; intros pos acc pads r Rp Ra E; cbn [a2b_base64] in E.
  - destruct (pos =? 0) eqn:P; [|discriminate]. injection E as <-. apply Z.eqb_eq in P. subst pos.
    change (2 ^ pending 0) with 1 in Ra. exists [], [], [], 0. split; [reflexivity|]. split; [now left|].
    split; [constructor|]. split; [now left|]. split; [reflexivity|]. replace acc with 0 by lia. reflexivity.
  - destruct (Z_of_byte c =? 61) eqn:Q.
    + apply equal_sign in Q. subst c. destruct (2 <=? pos) eqn:P2.
      * destruct (4 <=? pos + (pads + 1)).
        -- injection E as <-. exists [x3d], b, [], (pending pos).
           split; [reflexivity|]. split; [right; now exists []|]. split. { apply letters_skip; [now apply sextet_none|constructor]. }
           assert (pos = 2 \/ pos = 3) as [->| ->] by lia.
           ++ change (pending 2) with 4 in *. split; [tauto|]. split; [reflexivity|].
              change (number 256 (map Z_of_byte [])) with 0. change (zlen (@nil Z)) with 0. change (number 64 []) with 0.
              rewrite Z.div_small; [reflexivity|]. rewrite Z.pow_0_r. lia.
           ++ change (pending 3) with 2 in *. split; [tauto|]. split; [reflexivity|].
              change (number 256 (map Z_of_byte [])) with 0. change (zlen (@nil Z)) with 0. change (number 64 []) with 0.
              rewrite Z.div_small; [reflexivity|]. rewrite Z.pow_0_r. lia.
        -- apply decoded_skip; [reflexivity|]. eapply IH; eassumption.
      * apply decoded_skip; [reflexivity|]. eapply IH; eassumption.
    + destruct (sextet c) as [v|] eqn:S; [|apply decoded_skip; [exact S|eapply IH; eassumption]].
      apply sextet_some in S. destruct S as [V ->].
      assert (pos = 0 \/ pos = 1 \/ pos = 2 \/ pos = 3) as [->|[->|[->| ->]]] by lia;
        [change (0 =? 0) with true in E|change (1 =? 0) with false in E; change (1 =? 1) with true in E
        |change (2 =? 0) with false in E; change (2 =? 1) with false in E; change (2 =? 2) with true in E
        |change (3 =? 0) with false in E; change (3 =? 1) with false in E; change (3 =? 2) with false in E]; cbv iota in E.
      * change (2 ^ pending 0) with 1 in Ra. apply decoded_none; [exact V|]. change (pending 0 + 6) with (pending 1).
        replace (acc * 64 + v) with v by lia. eapply IH; [| |exact E]; [lia|]. exact V.
      * change (2 ^ pending 1) with 64 in Ra.
        pose proof (Z.mod_pos_bound v 16 ltac:(lia)). pose proof (Z.div_mod v 16 ltac:(lia)).
        destruct (a2b_base64 2 (v mod 16) 0 b) as [r'|] eqn:U; [|discriminate]. cbn [rbind] in E. injection E as <-.
        apply decoded_none; [exact V|]. change (pending 1 + 6) with (pending 2 + 8).
        replace (acc * 64 + v) with ((acc * 4 + v / 16) * 2 ^ pending 2 + v mod 16) by (change (2 ^ pending 2) with 16; lia).
        apply decoded_octet; [lia|discriminate|]. eapply IH; [| |exact U]; [lia|]. change (2 ^ pending 2) with 16. lia.
      * change (2 ^ pending 2) with 16 in Ra.
        pose proof (Z.mod_pos_bound v 4 ltac:(lia)). pose proof (Z.div_mod v 4 ltac:(lia)).
        destruct (a2b_base64 3 (v mod 4) 0 b) as [r'|] eqn:U; [|discriminate]. cbn [rbind] in E. injection E as <-.
        apply decoded_none; [exact V|]. change (pending 2 + 6) with (pending 3 + 8).
        replace (acc * 64 + v) with ((acc * 16 + v / 4) * 2 ^ pending 3 + v mod 4) by (change (2 ^ pending 3) with 4; lia).
        apply decoded_octet; [lia|discriminate|]. eapply IH; [| |exact U]; [lia|]. change (2 ^ pending 3) with 4. lia.
      * change (2 ^ pending 3) with 4 in Ra.
        destruct (a2b_base64 0 0 0 b) as [r'|] eqn:U; [|discriminate]. cbn [rbind] in E. injection E as <-.
        apply decoded_none; [exact V|]. change (pending 3 + 6) with (pending 0 + 8).
        pose proof (decoded_octet (pending 0) 0 b (acc * 64 + v) r' ltac:(lia) ltac:(discriminate)) as K.
        replace ((acc * 64 + v) * 2 ^ pending 0 + 0) with (acc * 64 + v) in K by (change (2 ^ pending 0) with 1; lia).
        apply K. eapply IH; [| |exact U]; [lia|]. change (2 ^ pending 0) with 1. lia.
Qed.
Lemma b64_carries b d : b64decode b = Ok d -> carries b d.
Proof.
  intro E. apply a2b_decoded in E; [|lia|change (2 ^ pending 0) with 1; lia].
  destruct E as (used & rest & vs & k & H1 & H2 & H3 & H4 & H5 & H6). exists used, rest, vs, k.
  do 4 (split; [assumption|]). split; [change (pending 0) with 0 in H5; lia|]. now rewrite Z.mul_0_l, Z.add_0_l in H6.
Qed.
Lemma begins_line b : begins b = true -> exists rest, b = lit "-----BEGIN " ++ rest \/ b = lit "---- BEGIN " ++ rest.
Proof.
  unfold begins. intro H. apply orb_true_iff in H. destruct H as [H|H]; apply andb_true_iff in H; destruct H as [H _];
    apply starts_spec in H; destruct H as [r ->]; exists r; [right|left]; reflexivity.
Qed.
Lemma ends_line b : ends b = true <-> dashed b.
Proof.
  unfold ends, dashed. rewrite orb_true_iff, !starts_spec. split.
  - intros [[r ->]|[r ->]]; exists r; [left|right]; reflexivity.
  - intros [r [->| ->]]; [left|right]; exists r; reflexivity.
Qed.
Lemma colon_line b : has_colon b = true -> In x3a b.
Proof.
  unfold has_colon. rewrite existsb_exists. intros (c & I & E). replace x3a with c; [exact I|].
  destruct c; vm_compute in E; try discriminate; reflexivity.
Qed.
Lemma framed_block ls d : framed (filter full ls) d -> block_of ls d.
Proof.
  intros (x & b & h & body & e & y & E & B & H & Bd & D & R). exists x, b, h, body, e, y.
  split; [exact E|]. split; [now apply begins_line|]. split. { eapply Forall_impl; [|exact H]. intros l C. now apply colon_line. }
  split. { eapply Forall_impl; [|exact Bd]. intros l C N. apply ends_line in N. congruence. }
  split; [now apply ends_line|]. now apply b64_carries.
Qed.
Theorem from_pems_blocks ls t cs x c : text_of ls t -> from_pems t = (cs, x) -> In c cs ->
  exists d, block_of ls d /\ cert_from_der d = Ok c.
Proof.
  intros T E I. destruct (from_pems_framed t cs x c E I) as (d & F & D). exists d. split; [|exact D].
  apply framed_block. now rewrite (lines_text _ _ T) in F.
Qed.
(** Every text has lines. *)
Lemma text_exists t : exists ls, text_of ls t.
Proof.
  induction t as [|c t IH]; [exists []; constructor|]. destruct IH as [ls T].
  assert (D : c = x0a \/ c = x0d \/ (c <> x0a /\ c <> x0d)).
  { destruct (Byte.byte_eq_dec c x0a); [tauto|]. destruct (Byte.byte_eq_dec c x0d); tauto. }
  assert (O0 : one_line []) by (split; intros []).
  destruct D as [->|[->|[A B]]].
  - exists ([] :: ls). exact (text_line [] [x0a] ls t O0 (or_introl eq_refl) T).
  - exists ([] :: ls). exact (text_line [] [x0d] ls t O0 (or_intror (or_introl eq_refl)) T).
  - assert (G : forall l, one_line l -> one_line (c :: l)).
    { intros l [N R]. split; intros [->|I]; try congruence; auto. }
    destruct T as [|l L|l e ls b L E T].
    + exists [[c]]. apply text_last. now apply G.
    + exists [c :: l]. apply text_last. now apply G.
    + exists ((c :: l) :: ls). exact (text_line (c :: l) e ls b (G l L) E T).
Qed.

(** ** Stores *)

(** Files that are all bundles are loaded completely. *)
Definition bundle_file (f : res bytes) (cs : list cert) : Prop :=
  exists t ls ders, f = Ok t /\ text_of ls t /\ bundle ls ders /\ ders <> [] /\
    Forall2 (fun d c => cert_from_der d = Ok c) ders cs.
Lemma location_bundles fs css : Forall2 bundle_file fs css -> location_of fs = map (fun cs => (cs, None)) css.
Proof.
  induction 1 as [|f cs fs css (t & ls & ders & -> & T & B & N & F) _ IH]; [reflexivity|].
  cbn [location_of map]. f_equal; [|exact IH]. now apply from_pems_bundle with ls ders.
Qed.

(** ** Only ValueError *)

Lemma ve_a2b b : forall pos acc pads, ve (a2b_base64 pos acc pads b).
Proof.
  induction b as [|c b IH]; intros pos acc pads; cbn [a2b_base64].
  - destruct (pos =? 0); [apply ve_ok|apply ve_error].
  - destruct (Z_of_byte c =? 61).
    + destruct (2 <=? pos); [|apply IH]. destruct (4 <=? pos + (pads + 1)); [apply ve_ok|apply IH].
    + destruct (sextet c); [|apply IH]. destruct (pos =? 0); [apply IH|].
      destruct (pos =? 1); [apply ve_bind; [apply IH|intros; apply ve_ok]|].
      destruct (pos =? 2); apply ve_bind; try apply IH; intros; apply ve_ok.
Qed.
Lemma ve_cert d : ve (cert_from_der d).
Proof.
  unfold cert_from_der. apply ve_bind; [apply ve_parse_tlv|]. intros [t r] _. apply ve_bind; [apply ve_contents_of|]. intros b _.
  pose proof (reads_certificate t) as H. unfold reads_cert in H. unfold lz_certificate. set (c := read_certificate t) in *. clearbody c.
  decompose [and] H. clear H. repeat (apply ve_bind; [assumption|intros ? ?]). apply ve_ok.
Qed.
Definition vo (e : option exn) : Prop := match e with Some e => VE e | None => True end.
Lemma vo_unarmor ls : forall st found, vo (snd (unarmor st found ls)).
Proof.
  induction ls as [|line ls IH]; intros st found; cbn [unarmor].
  - destruct found; [exact I|reflexivity].
  - assert (K : forall data, vo (snd (if ends line then
          match b64decode data with
          | Ok d => let (ds, e) := unarmor Trash true ls in (d :: ds, e)
          | Err e => ([], Some e)
          end
        else unarmor (Body (data ++ line)) found ls))).
    { intro data. destruct (ends line); [|apply IH]. pose proof (ve_a2b data 0 0 0) as V. fold (b64decode data) in V.
      destruct (b64decode data); [|exact V]. specialize (IH Trash true). destruct (unarmor Trash true ls). exact IH. }
    destruct st.
    + destruct (begins line); apply IH.
    + destruct (has_colon line); [|apply K]. destruct (is_ascii line); [apply IH|reflexivity].
    + apply K.
Qed.
Lemma vo_yield ds e : vo e -> vo (snd (yield_certificates ds e)).
Proof.
  intro V. induction ds as [|d ds IH]; cbn [yield_certificates]; [exact V|].
  pose proof (ve_cert d) as W. destruct (cert_from_der d); [|exact W]. destruct (yield_certificates ds e). exact IH.
Qed.
Theorem from_pems_errors t cs e : from_pems t = (cs, Some e) -> e_class e = ValueError.
Proof.
  unfold from_pems. pose proof (vo_unarmor (lines_of t) Trash false) as V. destruct (unarmor Trash false (lines_of t)) as [ds x].
  intro E. pose proof (vo_yield ds x V) as W. rewrite E in W. exact W.
Qed.
Definition no_verification_error (f : res bytes) : Prop :=
  forall e, f = Err e -> issubclass (e_class e) VerificationError = false.
Lemma location_errors fs : Forall no_verification_error fs ->
  forall e, location_error (location_of fs) = Some e -> issubclass (e_class e) VerificationError = false.
Proof.
  induction 1 as [|f fs F _ IH]; intros e E; [discriminate|]. cbn [location_of map location_error] in E.
  destruct f as [t|x].
  - destruct (from_pems t) as [cs o] eqn:P. destruct o as [x|].
    + injection E as <-. now rewrite (from_pems_errors _ _ _ P).
    + now apply IH.
  - injection E as <-. now apply F.
Qed.
Lemma location_plain fs s : Forall no_verification_error fs -> s_location s = Some (location_of fs) -> readable s \/ unreadable s.
Proof.
  intros F L. destruct (s_loaded s) eqn:N; [left; intros l _ Q; congruence|].
  destruct (location_error (location_of fs)) as [e|] eqn:E.
  - right. exists (location_of fs), e. repeat split; try assumption. eapply location_errors; eassumption.
  - left. intros l Q _. congruence.
Qed.
Lemma location_app a b : location_of (a ++ b) = location_of a ++ location_of b.
Proof. apply map_app. Qed.
Lemma location_error_app css l : location_error (map (fun cs => (cs, None)) css ++ l) = location_error l.
Proof. induction css as [|cs css IH]; [reflexivity|exact IH]. Qed.
Lemma location_stray before css t ls after s : Forall2 bundle_file before css -> text_of ls t -> bundle ls [] ->
  s_location s = Some (location_of (before ++ Ok t :: after)) -> s_loaded s = false -> unreadable s.
Proof.
  intros F T B L N. eexists _, no_pem. split; [exact L|]. split; [exact N|]. split; [|reflexivity].
  rewrite location_app, (location_bundles _ _ F), location_error_app. cbn [location_of map].
  now rewrite (from_pems_none _ _ B T).
Qed.
