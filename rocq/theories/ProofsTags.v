(** Proofs about identifier octets; statements in PropertiesTags.v. *)
From Verif Require Import Base ModelDer ModelSpc SpecAsn SpecTags.

(** The octets that a value can begin with; None for any. *)
Fixpoint starts (a : asn) (tg : tagging) : option (list byte) :=
  match tg with
  | Explicit n => Some [identifier 2 true n]
  | Implicit n =>
      match a with
      | APrim _ => Some [identifier 2 false n]
      | ASeq _ | ASeqOf _ | ASetOf _ => Some [identifier 2 true n]
      | AChoice _ => Some []
      | AAny => Some [identifier 2 false n; identifier 2 true n]
      end
  | Untagged =>
      match a with
      | APrim tag => Some [identifier 0 false tag]
      | ASeq _ | ASeqOf _ => Some [identifier 0 true 16]
      | ASetOf _ => Some [identifier 0 true 17]
      | AChoice alts =>
          (fix all (l : list (string * (asn * tagging))) : option (list byte) :=
             match l with
             | [] => Some []
             | (_, (x, y)) :: l' =>
                 match starts x y, all l' with
                 | Some i, Some j => Some (i ++ j)
                 | _, _ => None
                 end
             end) alts
      | AAny => None
      end
  end.

Lemma element_starts cls con tag c b : element cls con tag c b -> exists b', b = identifier cls con tag :: b'.
Proof. intros [lo _ _ _]. eexists. reflexivity. Qed.
Lemma outer_explicit n b b' : outer (Explicit n) b b' -> exists r, b' = identifier 2 true n :: r.
Proof. intros H. inversion H; subst. eapply element_starts; eassumption. Qed.
Lemma tagged_starts con tag c tg b : tagged con tag c tg b ->
  exists b', b = match tg with Untagged => identifier 0 con tag | Implicit n => identifier 2 con n | Explicit n => identifier 2 true n end :: b'.
Proof.
  intros [n b0 H|tg0 b0 b1 H O]; [exact (element_starts _ _ _ _ _ H)|].
  inversion O as [x Q1 Q2|n x y He Q1 Q2]; subst; eapply element_starts; eassumption.
Qed.

Lemma starts_choice alts n x y h : In (n, (x, y)) alts -> can_begin (starts x y) h -> can_begin (starts (AChoice alts) Untagged) h.
Proof.
  intros I H l. cbn [starts]. revert l. induction alts as [|[m [x' y']] alts IH]; intros l Q; [destruct I|].
  destruct (starts x' y') as [i|] eqn:S1; [|discriminate Q].
  match type of Q with match ?z with _ => _ end = _ => destruct z as [j|] eqn:S2; [|discriminate Q] end.
  injection Q as <-. apply in_or_app. destruct I as [E|I].
  - injection E as -> -> ->. left. exact (H _ S1).
  - right. exact (IH I j eq_refl).
Qed.

Lemma encodes_starts a tg v b : encodes a tg v b -> exists h b', b = h :: b' /\ can_begin (starts a tg) h.
Proof.
  intros H. revert a tg v b H.
  apply (encodes_mut (fun a tg _ b => exists h b', b = h :: b' /\ can_begin (starts a tg) h) (fun _ _ _ => True) (fun _ _ _ => True)); auto.
  - intros tag tg c b T. destruct (tagged_starts _ _ _ _ _ T) as (b' & ->). eexists _, b'. split; [reflexivity|].
    intros l Q. destruct tg; injection Q as <-; left; reflexivity.
  - intros fs vs c tg b _ _ T. destruct (tagged_starts _ _ _ _ _ T) as (b' & ->). eexists _, b'. split; [reflexivity|].
    intros l Q. destruct tg; injection Q as <-; left; reflexivity.
  - intros x vs c tg b _ _ T. destruct (tagged_starts _ _ _ _ _ T) as (b' & ->). eexists _, b'. split; [reflexivity|].
    intros l Q. destruct tg; injection Q as <-; left; reflexivity.
  - intros x vs c tg b _ _ T. destruct (tagged_starts _ _ _ _ _ T) as (b' & ->). eexists _, b'. split; [reflexivity|].
    intros l Q. destruct tg; injection Q as <-; left; reflexivity.
  - intros alts n x y v tg b b' I _ (h & r & -> & C) O. destruct tg as [|m|m].
    + inversion O; subst. exists h, r. split; [reflexivity|]. exact (starts_choice _ _ _ _ _ I C).
    + inversion O.
    + destruct (outer_explicit _ _ _ O) as (r' & ->). eexists _, r'. split; [reflexivity|]. intros l Q. injection Q as <-. left. reflexivity.
  - intros t tg b [_ U] O. destruct tg as [|m|m].
    + inversion O; subst. destruct (element_starts _ _ _ _ _ U) as (r & Q). rewrite Q. eexists _, r. split; [reflexivity|]. intros l X. discriminate X.
    + inversion O.
    + destruct (outer_explicit _ _ _ O) as (r' & ->). eexists _, r'. split; [reflexivity|]. intros l Q. injection Q as <-. left. reflexivity.
  - intros t n [_ U] C T. rewrite C, T in U. destruct (element_starts _ _ _ _ _ U) as (r & Q). rewrite Q. eexists _, r. split; [reflexivity|].
    intros l X. injection X as <-. destruct (t_cons t); [right; left|left]; reflexivity.
Qed.

Definition outline_of (fs : list (string * (asn * (tagging * presence)))) : outline :=
  map (fun f => (match snd (snd (snd f)) with Required => false | _ => true end, starts (fst (snd f)) (fst (snd (snd f))))) fs.

Lemma fields_laid fs : forall vs c, encodes_fields fs vs c ->
  laid_out (outline_of fs) vs c /\ exists c', encodes_fields fs (shortest (outline_of fs) vs) c'.
Proof.
  induction fs as [|[n [x [tg p]]] fs IH]; intros vs c H.
  - inversion H; subst. split; [constructor|exists []; constructor].
  - inversion H as [|n' x' tg' p' fs' vs' c0 Np F|n' x' tg' p' fs' v vs' b c0 Ev F]; subst.
    + destruct (IH _ _ F) as [L (c' & S')]. cbn [outline_of map fst snd shortest]. fold (outline_of fs).
      destruct p; [congruence| |]; (split; [constructor; exact L|exists c'; apply FieldsAbsent; [discriminate|exact S']]).
    + destruct (IH _ _ F) as [L (c' & S')]. cbn [outline_of map fst snd shortest]. fold (outline_of fs).
      destruct (encodes_starts _ _ _ _ Ev) as (h & b' & -> & C). split; [apply LaidPresent; [exact C|exact L]|].
      destruct p; [exists ((h :: b') ++ c'); apply FieldsPresent; [exact Ev|exact S']| |];
        (exists c'; apply FieldsAbsent; [discriminate|exact S']).
Qed.

Lemma sequences_outlined : Forall (fun x => exists fs, fst x = ASeq fs /\ snd x = outline_of fs) sequences.
Proof. unfold sequences. repeat (apply Forall_cons; [eexists; split; [reflexivity|vm_compute; reflexivity]|]). apply Forall_nil. Qed.

Lemma sequence_laid a t : In (a, t) sequences ->
  exists fs, a = ASeq fs /\ forall vs c, encodes_fields fs vs c ->
    laid_out t vs c /\ exists c', encodes_fields fs (shortest t vs) c'.
Proof.
  intros I. pose proof (proj1 (Forall_forall _ _) sequences_outlined _ I) as (fs & E1 & E2). cbn [fst snd] in E1, E2. subst.
  exists fs. split; [reflexivity|]. apply fields_laid.
Qed.

Lemma choices_outlined : Forall (fun x => exists alts, fst x = AChoice alts /\ map (fun y => (fst y, Some (snd y))) (snd x) = map (fun y => (fst y, starts (fst (snd y)) (snd (snd y)))) alts) choices.
Proof. unfold choices. repeat (apply Forall_cons; [eexists; split; [reflexivity|vm_compute; reflexivity]|]). apply Forall_nil. Qed.

Lemma choice_laid a alts v b : In (a, alts) choices -> encodes a Untagged v b ->
  exists n w h b' ids, v = VChoice n w /\ b = h :: b' /\ In (n, ids) alts /\ In h ids.
Proof.
  intros I H. pose proof (proj1 (Forall_forall _ _) choices_outlined _ I) as (l & E1 & E2). cbn [fst snd] in E1, E2. subst a.
  inversion H as [| | | |l' n x y w tg b0 b' In' Ev O| |]; subst. inversion O; subst.
  destruct (encodes_starts _ _ _ _ Ev) as (h & r & -> & C).
  assert (J : In (n, starts x y) (map (fun y => (fst y, starts (fst (snd y)) (snd (snd y)))) l)).
  { apply in_map_iff. exists (n, (x, y)). split; [reflexivity|exact In']. }
  rewrite <- E2 in J. apply in_map_iff in J as ([m ids] & Q & J). cbn [fst snd] in Q. injection Q as -> Q.
  exists n, w, h, r, ids. split; [reflexivity|]. split; [reflexivity|]. split; [exact J|]. apply C. symmetry. exact Q.
Qed.

Lemma all_starts x vs c : encodes_all x vs c -> forall ids, starts x Untagged = Some ids ->
  exists parts, c = concat parts /\ length parts = length vs /\ Forall (fun p => exists h p', p = h :: p' /\ In h ids) parts.
Proof.
  intros H ids S. revert c H. induction vs as [|v vs IH]; intros c H; inversion H; subst.
  - exists []. split; [reflexivity|]. split; [reflexivity|constructor].
  - match goal with F : encodes_all _ _ ?d, G : encodes _ _ _ ?e |- _ => destruct (IH _ F) as (ps & -> & L & A); destruct (encodes_starts _ _ _ _ G) as (h & r & -> & C) end.
    exists ((h :: r) :: ps). split; [reflexivity|]. split; [cbn [length]; rewrite L; reflexivity|]. constructor; [|exact A].
    exists h, r. split; [reflexivity|exact (C _ S)].
Qed.
Lemma repetition_laid a o ids v b : In (a, (o, ids)) repetitions -> encodes a Untagged v b ->
  exists vs lo parts, v = VList vs /\ b = o :: lo ++ concat parts /\ length_octets (zlen (concat parts)) lo /\ length parts = length vs /\
    Forall (fun p => exists h p', p = h :: p' /\ In h ids) parts.
Proof.
  intros I H.
  assert (K : exists x, a = ASeqOf x /\ o = x30 /\ starts x Untagged = Some ids).
  { unfold repetitions in I. cbn [In] in I. destruct I as [I|[I|[I|[]]]]; injection I as <- <- <-; eexists; (split; [reflexivity|split; [reflexivity|vm_compute; reflexivity]]). }
  destruct K as (x & -> & -> & S). inversion H as [| |x' vs c tg b0 A T| | | |]; subst.
  destruct (all_starts _ _ _ A _ S) as (parts & -> & L & F).
  inversion T as [|tg b0 b1 El O]; subst. inversion O; subst. destruct El as [lo _ _ Lo].
  exists vs, lo, parts. split; [reflexivity|]. split; [reflexivity|]. auto.
Qed.
Lemma sequence_octets a t v b : In (a, t) sequences -> encodes a Untagged v b ->
  exists vs lo c, v = VSeq vs /\ b = x30 :: lo ++ c /\ length_octets (zlen c) lo /\ laid_out t vs c.
Proof.
  intros I H. destruct (sequence_laid _ _ I) as (fs & -> & K). inversion H as [|fs' vs c tg b0 F T| | | | |]; subst.
  inversion T as [|tg b0 b1 El O]; subst. inversion O; subst. destruct El as [lo _ _ Lo].
  exists vs, lo, c. split; [reflexivity|]. split; [reflexivity|]. split; [exact Lo|exact (proj1 (K _ _ F))].
Qed.

(** ** Explicit and implicit tags *)

Definition mark_of (x : asn) (tg : tagging) : mark :=
  match tg with
  | Untagged => Own
  | Explicit n => Around (identifier 2 true n)
  | Implicit n =>
      match x with
      | APrim _ => Instead (identifier 2 false n)
      | ASeq _ | ASeqOf _ | ASetOf _ => Instead (identifier 2 true n)
      | _ => Undecoded
      end
  end.

Lemma tagged_explicit con tag c n b : tagged con tag c (Explicit n) b ->
  exists lo d, b = identifier 2 true n :: lo ++ d /\ length_octets (zlen d) lo /\ tagged con tag c Untagged d.
Proof.
  intros H. inversion H as [|tg b0 b1 El O]; subst. inversion O as [|m x y Ou]; subst. destruct Ou as [lo _ _ L].
  exists lo, b0. split; [reflexivity|]. split; [exact L|]. eapply TaggedOther; [exact El|constructor].
Qed.
Lemma tagged_implicit con tag c n b : 0 <= tag <= 30 -> tagged con tag c (Implicit n) b ->
  exists u lo d, b = identifier 2 con n :: lo ++ d /\ length_octets (zlen d) lo /\ tagged con tag c Untagged (u :: lo ++ d).
Proof.
  intros T H. inversion H as [m b0 El|tg b0 b1 El O]; subst; [|inversion O]. destruct El as [lo _ _ L].
  exists (identifier 0 con tag), lo, c. split; [reflexivity|]. split; [exact L|]. eapply TaggedOther; [|constructor]. constructor; [lia|exact T|exact L].
Qed.
Lemma outer_around n b b' : outer (Explicit n) b b' -> exists lo, b' = identifier 2 true n :: lo ++ b /\ length_octets (zlen b) lo.
Proof. intros O. inversion O as [|m x y Ou]; subst. destruct Ou as [lo _ _ L]. exists lo. split; [reflexivity|exact L]. Qed.
(** The tag of a primitive type. *)
Definition small (x : asn) : bool := match x with APrim t => (0 <=? t) && (t <=? 30) | _ => true end.

Lemma encodes_marked x tg v b : small x = true -> encodes x tg v b -> marked (mark_of x tg) x v b.
Proof.
  intros Sm H. assert (R16 : 0 <= 16 <= 30) by lia. assert (R17 : 0 <= 17 <= 30) by lia. destruct tg as [|n|n]; [exact H| |].
  - destruct x as [tag|fs|x|x|alts|]; cbn [mark_of marked]; try exact I; inversion H; subst.
    + apply andb_prop in Sm as [S1 S2]. apply Z.leb_le in S1. apply Z.leb_le in S2.
      match goal with T : tagged _ _ _ _ _ |- _ => destruct (tagged_implicit _ _ _ _ _ (conj S1 S2) T) as (u & lo & d & -> & L & T') end.
      exists u, lo, d. split; [reflexivity|]. split; [exact L|]. apply EncPrim. exact T'.
    + match goal with T : tagged _ _ _ _ _ |- _ => destruct (tagged_implicit _ _ _ _ _ R16 T) as (u & lo & d & -> & L & T') end.
      exists u, lo, d. split; [reflexivity|]. split; [exact L|]. eapply EncSeq; eassumption.
    + match goal with T : tagged _ _ _ _ _ |- _ => destruct (tagged_implicit _ _ _ _ _ R16 T) as (u & lo & d & -> & L & T') end.
      exists u, lo, d. split; [reflexivity|]. split; [exact L|]. eapply EncSeqOf; eassumption.
    + match goal with T : tagged _ _ _ _ _ |- _ => destruct (tagged_implicit _ _ _ _ _ R17 T) as (u & lo & d & -> & L & T') end.
      exists u, lo, d. split; [reflexivity|]. split; [exact L|]. eapply EncSetOf; eassumption.
  - destruct x as [tag|fs|x|x|alts|]; cbn [mark_of marked]; inversion H; subst.
    1-4: match goal with T : tagged _ _ _ _ _ |- _ => destruct (tagged_explicit _ _ _ _ _ T) as (lo & d & -> & L & T') end;
      exists lo, d; (split; [reflexivity|]); (split; [exact L|]).
    + apply EncPrim. exact T'.
    + eapply EncSeq; eassumption.
    + eapply EncSeqOf; eassumption.
    + eapply EncSetOf; eassumption.
    + match goal with O : outer _ _ _ |- _ => apply outer_around in O as (lo & -> & L) end. eexists lo, _.
      split; [reflexivity|]. split; [exact L|]. eapply EncChoice; [eassumption|eassumption|constructor].
    + match goal with O : outer _ _ _ |- _ => apply outer_around in O as (lo & -> & L) end. eexists lo, _.
      split; [reflexivity|]. split; [exact L|]. eapply EncAny; [eassumption|constructor].
Qed.

Lemma sequence_marked a ks : In (a, ks) marked_sequences ->
  exists fs, a = ASeq fs /\
    Forall2 (fun k f => forall v b, encodes (fst (snd f)) (fst (snd (snd f))) v b -> marked k (fst (snd f)) v b) ks fs.
Proof.
  assert (F : Forall (fun x => exists fs, fst x = ASeq fs /\ snd x = map (fun f => mark_of (fst (snd f)) (fst (snd (snd f)))) fs /\
      forallb (fun f => small (fst (snd f))) fs = true) marked_sequences).
  { unfold marked_sequences. repeat (apply Forall_cons; [eexists; split; [reflexivity|split; vm_compute; reflexivity]|]). apply Forall_nil. }
  intros I. destruct (proj1 (Forall_forall _ _) F _ I) as (fs & E1 & E2 & E3). cbn [fst snd] in E1, E2. subst. exists fs. split; [reflexivity|].
  clear F I. induction fs as [|f fs IH]; [constructor|]. cbn [forallb] in E3. apply andb_prop in E3 as [S E3]. constructor; [|exact (IH E3)].
  intros v b. apply encodes_marked. exact S.
Qed.
Lemma choice_marked a ks : In (a, ks) marked_choices ->
  exists alts, a = AChoice alts /\
    Forall2 (fun k f => forall v b, encodes (fst (snd f)) (snd (snd f)) v b -> marked k (fst (snd f)) v b) ks alts.
Proof.
  assert (F : Forall (fun x => exists fs, fst x = AChoice fs /\ snd x = map (fun f => mark_of (fst (snd f)) (snd (snd f))) fs /\
      forallb (fun f => small (fst (snd f))) fs = true) marked_choices).
  { unfold marked_choices. repeat (apply Forall_cons; [eexists; split; [reflexivity|split; vm_compute; reflexivity]|]). apply Forall_nil. }
  intros I. destruct (proj1 (Forall_forall _ _) F _ I) as (fs & E1 & E2 & E3). cbn [fst snd] in E1, E2. subst. exists fs. split; [reflexivity|].
  clear F I. induction fs as [|f fs IH]; [constructor|]. cbn [forallb] in E3. apply andb_prop in E3 as [S E3]. constructor; [|exact (IH E3)].
  intros v b. apply encodes_marked. exact S.
Qed.
