(** Property C68: the octets that mark the fields of the declared types, and which of them may be absent. *)
From Verif Require Import Base Bytes ModelDer ModelSpc SpecAsn SpecTags ProofsTags.

(** The octets of a value of a sequence begin with 0x30, and those of each of its fields with one of
    the octets of the table; only the fields that the table lets be absent are absent. *)
Theorem C68_sequences :
  forall a t v b, In (a, t) sequences -> encodes a Untagged v b ->
  exists vs lo c, v = VSeq vs /\ b = x30 :: lo ++ c /\ length_octets (zlen c) lo /\ laid_out t vs c.
Proof. exact sequence_octets. Qed.
Print Assumptions C68_sequences.

(** All of these can be. *)
Theorem C68_absent :
  forall a t, In (a, t) sequences ->
  exists fs, a = ASeq fs /\ forall vs c, encodes_fields fs vs c ->
    laid_out t vs c /\ exists c', encodes_fields fs (shortest t vs) c'.
Proof. exact sequence_laid. Qed.
Print Assumptions C68_absent.

(** The octet that each alternative of a choice begins with. *)
Theorem C68_alternatives :
  forall a alts v b, In (a, alts) choices -> encodes a Untagged v b ->
  exists n w h b' ids, v = VChoice n w /\ b = h :: b' /\ In (n, ids) alts /\ In h ids.
Proof. exact choice_laid. Qed.
Print Assumptions C68_alternatives.

(** And the elements of the types that are lists of others. *)
Theorem C68_elements :
  forall a o ids v b, In (a, (o, ids)) repetitions -> encodes a Untagged v b ->
  exists vs lo parts, v = VList vs /\ b = o :: lo ++ concat parts /\ length_octets (zlen (concat parts)) lo /\
    length parts = length vs /\ Forall (fun p => exists h p', p = h :: p' /\ In h ids) parts.
Proof. exact repetition_laid. Qed.
Print Assumptions C68_elements.

(** Which tags are around the value, and which in the place of its own. *)
Theorem C68_marks :
  forall a ks, In (a, ks) marked_sequences ->
  exists fs, a = ASeq fs /\
    Forall2 (fun k f => forall v b, encodes (fst (snd f)) (fst (snd (snd f))) v b -> marked k (fst (snd f)) v b) ks fs.
Proof. exact sequence_marked. Qed.
Print Assumptions C68_marks.
Theorem C68_choice_marks :
  forall a ks, In (a, ks) marked_choices ->
  exists alts, a = AChoice alts /\
    Forall2 (fun k f => forall v b, encodes (fst (snd f)) (snd (snd f)) v b -> marked k (fst (snd f)) v b) ks alts.
Proof. exact choice_marked. Qed.
Print Assumptions C68_choice_marks.

(** ** Examples *)

Ltac element := match goal with |- element ?c ?k ?t ?x ?b =>
  let lo := eval cbv in (firstn 1 (skipn 1 b)) in
  apply (Element c k t x lo); [vm_compute; intuition discriminate|vm_compute; intuition discriminate|
    apply (Short (zlen x)); vm_compute; intuition discriminate] end.
Example C68_accuracy :
  encodes Accuracy Untagged (VSeq [Some (VPrim [x05]); None; Some (VPrim [x07])]) [x30; x06; x02; x01; x05; x81; x01; x07] /\
  encodes SpcString Untagged (VChoice "ascii" (VPrim [x41])) [x81; x01; x41] /\
  encodes SpcStatementType Untagged (VList [VPrim [x2a]; VPrim [x2b]]) [x30; x06; x06; x01; x2a; x06; x01; x2b].
Proof.
  assert (A : encodes aInteger Untagged (VPrim [x05]) [x02; x01; x05]).
  { apply EncPrim. eapply TaggedOther; [|constructor]. element. }
  assert (B : encodes aInteger (Implicit 1) (VPrim [x07]) [x81; x01; x07]).
  { apply EncPrim. apply TaggedImplicit. element. }
  split; [|split].
  - apply (EncSeq _ _ [x02; x01; x05; x81; x01; x07]).
    + apply (FieldsPresent _ _ _ _ _ _ _ [x02; x01; x05] [x81; x01; x07] A). apply FieldsAbsent; [discriminate|].
      apply (FieldsPresent _ _ _ _ _ _ _ [x81; x01; x07] [] B). constructor.
    + eapply TaggedOther; [|constructor]. element.
  - eapply EncChoice; [right; left; reflexivity| |constructor]. apply EncPrim. apply TaggedImplicit. element.
  - apply (EncSeqOf _ _ [x06; x01; x2a; x06; x01; x2b]).
    + apply (AllCons _ _ _ [x06; x01; x2a] [x06; x01; x2b]).
      * apply EncPrim. eapply TaggedOther; [|constructor]. element.
      * apply (AllCons _ _ _ [x06; x01; x2b] []); [|constructor]. apply EncPrim. eapply TaggedOther; [|constructor]. element.
    + eapply TaggedOther; [|constructor]. element.
Qed.
Example C68_tables : length sequences = 28%nat /\ length choices = 6%nat /\ In TbsCertificate (map fst sequences) /\
  (forall v, ~ encodes Accuracy Untagged v [x30; x03; xa1; x01; x07]).
Proof.
  split; [reflexivity|]. split; [reflexivity|]. split; [unfold sequences; cbn [map fst In]; tauto|].
  intros v H. destruct (C68_sequences Accuracy _ _ _ ltac:(unfold sequences; cbn [In]; do 26 right; left; reflexivity) H) as (vs & lo & c & _ & Q & L & K).
  assert (Q' : c = [xa1; x01; x07]).
  { injection Q as Q. destruct L as [n _|l Hl]; cbn [app] in Q; injection Q as Q1 Q2; [symmetry; exact Q2|exfalso].
    assert (B : Z_of_byte x03 = 128 + zlen l).
    { rewrite Q1. apply Z_of_byte_of_Z. lia. }
    change (Z_of_byte x03) with 3 in B. lia. }
  subst c. clear - K. inversion K as [|? ? ? ? K1|? ? ? ? ? ? ? ? C1 K1]; subst.
  - inversion K1 as [|? ? ? ? K2|? ? ? ? ? ? ? ? C2 K2]; subst.
    + inversion K2 as [|? ? ? ? K3|? ? ? ? ? ? ? ? C3 K3]; subst; [inversion K3|]. destruct (C3 _ eq_refl) as [X|[]]; discriminate X.
    + destruct (C2 _ eq_refl) as [X|[]]; discriminate X.
  - destruct (C1 _ eq_refl) as [X|[]]; discriminate X.
Qed.
(** An implicit and an explicit tag. *)
Example C68_tagged :
  marked (Instead x81) aInteger (VPrim [x07]) [x81; x01; x07] /\ marked (Around xa1) aInteger (VPrim [x07]) [xa1; x03; x02; x01; x07].
Proof.
  assert (A : encodes aInteger Untagged (VPrim [x07]) [x02; x01; x07]).
  { apply EncPrim. eapply TaggedOther; [|constructor]. element. }
  split; [exists x02, [x01], [x07]|exists [x03], [x02; x01; x07]]; (split; [reflexivity|]); (split; [|exact A]).
  - apply (Short 1). lia.
  - apply (Short 3). lia.
Qed.
