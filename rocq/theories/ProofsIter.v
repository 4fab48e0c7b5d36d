(** The generator yields what the exhausted iteration gives, whatever is done to the position of the file. *)
From Coq Require Import ZifyBool ZifyNat.
From Verif Require Import Base Bytes Monad ModelFile ModelFingerprint ModelPE SpecFingerprint SpecPE ProofsPE ProofsPE2 ProofsPE3 ModelX509 ModelContext ModelPkcs7
  ModelAuthenticode SpecSignedPE ModelIter SpecIter.

Section Iter.
  Variable act : nat -> file -> file.
  Hypothesis Hact : forall k f, f_bytes (act k f) = f_bytes f.
  Variable load : loader.
  Variable depth : nat.
  Variables inc ign : bool.
  Variable flen : Z.

  Definition softened (x : option exn) : option exn :=
    match x with Some e => if catches SignedPEParseError e && ign then None else Some e | None => None end.

  Lemma fetch_spec fuel : forall g found f1 f2 f2' l x inner,
    f_bytes f1 = f_bytes f2 -> (fuel <= inner)%nat ->
    iter_loop load depth inc fuel flen g found f2 = Some (f2', (l, x)) ->
    exists f1' r, sd_fetch load depth inc flen inner g found f1 = Some (f1', r) /\ f_bytes f1' = f_bytes f1 /\
    match r with
    | Err e => l = [] /\ x = Some e
    | Ok (s, None) => l = [] /\ x = None
    | Ok (s, Some a) => exists g' p fuel' f2'' f3 l', s = SGNested g' p /\ (fuel' < fuel)%nat /\ f_bytes f2'' = f_bytes f1 /\
        iter_loop load depth inc fuel' flen g' true f2'' = Some (f3, (l', x)) /\ l = a :: p ++ l'
    end.
  Proof.
    induction fuel as [|fuel IH]; intros g found f1 f2 f2' l x inner Hb Hi H; [discriminate|].
    destruct inner as [|inner]; [lia|]. cbn [iter_loop sd_fetch] in *.
    destruct (next_content flen g f2 f1) as [N1 N2]; [congruence|].
    destruct (next_content flen g f1 f1 eq_refl) as [N3 _].
    destruct (cert_table_next flen g f2) as [g2 r2], (cert_table_next flen g f1) as [g1 r1]. cbn [fst snd] in *. subst r1.
    destruct r2 as [[g' [c|]]|e].
    - destruct (negb (ce_revision c =? 0x200)).
      { injection H as <- <- <-. eexists _, _. split; [reflexivity|]. split; [exact N3|]. split; reflexivity. }
      destruct (ce_type c =? 2).
      + destruct (from_envelope load depth true (ce_certificate c)) as [a|e].
        * destruct (iter_loop load depth inc fuel flen g' true g2) as [[f3 [l' x']]|] eqn:L; [|discriminate].
          injection H as <- <- <-. destruct (recursive_nested inc a) as [|b p] eqn:Rn.
          { destruct a; discriminate Rn. }
          eexists _, _. split; [reflexivity|]. split; [exact N3|]. exists g', p, fuel, g2, f3, l'.
          split; [reflexivity|]. split; [lia|]. split; [congruence|]. split; [exact L|reflexivity].
        * injection H as <- <- <-. eexists _, _. split; [reflexivity|]. split; [exact N3|]. split; reflexivity.
      + destruct (IH g' found g1 g2 f2' l x inner ltac:(congruence) ltac:(lia) H) as (f1' & r & A & B & C).
        exists f1', r. split; [exact A|]. split; [congruence|].
        destruct r as [[s [a|]]|e]; try exact C. destruct C as (h & p & fuel' & f2'' & f3 & l' & C1 & C2 & C3 & C4 & C5).
        exists h, p, fuel', f2'', f3, l'. split; [exact C1|]. split; [lia|]. split; [congruence|]. split; assumption.
    - injection H as <- <- <-. eexists _, _. split; [reflexivity|]. split; [exact N3|]. destruct found; split; reflexivity.
    - injection H as <- <- <-. eexists _, _. split; [reflexivity|]. split; [exact N3|]. split; reflexivity.
  Qed.

  Lemma nested_nil inner k steps g f :
    consume act load depth inc ign flen inner k steps (SGNested g []) f
    = consume act load depth inc ign flen inner k steps (SGLoop g true) f.
  Proof. destruct steps; reflexivity. Qed.

  Lemma nested_cons inner g a p l x : forall k f steps,
    (forall k f', f_bytes f' = f_bytes f ->
       consume act load depth inc ign flen inner k steps (SGNested g p) f' = Some (l, x)) ->
    consume act load depth inc ign flen inner k (S steps) (SGNested g (a :: p)) f = Some (a :: l, x).
  Proof. intros k f steps K. cbn [consume sd_next]. rewrite K; [reflexivity|apply Hact]. Qed.

  Lemma consume_nested inner g l x steps0 f0 :
    (forall k f steps, f_bytes f = f_bytes f0 -> (steps0 <= steps)%nat ->
       consume act load depth inc ign flen inner k steps (SGLoop g true) f = Some (l, x)) ->
    forall p k f steps, f_bytes f = f_bytes f0 -> (length p + steps0 <= steps)%nat ->
    consume act load depth inc ign flen inner k steps (SGNested g p) f = Some (p ++ l, x).
  Proof.
    intros K. induction p as [|a p IH]; intros k f steps Hf Hs.
    - rewrite nested_nil. apply K; [exact Hf|cbn in Hs; lia].
    - destruct steps as [|steps]; [cbn in Hs; lia|]. cbn [app]. apply nested_cons. intros k' f' Hf'.
      apply IH; [congruence|cbn in Hs; lia].
  Qed.

  Lemma consume_spec fuel : forall inner, (fuel <= inner)%nat ->
    forall g found f1 f2 f2' l x k steps, f_bytes f1 = f_bytes f2 ->
    iter_loop load depth inc fuel flen g found f2 = Some (f2', (l, x)) -> (length l < steps)%nat ->
    consume act load depth inc ign flen inner k steps (SGLoop g found) f1 = Some (l, softened x).
  Proof.
    induction fuel as [fuel IH] using lt_wf_ind. intros inner Hi g found f1 f2 f2' l x k steps Hb H Hs.
    destruct steps as [|steps]; [lia|]. cbn [consume sd_next].
    destruct (fetch_spec fuel g found (act k f1) f2 f2' l x inner ltac:(rewrite Hact; exact Hb) Hi H)
      as (f1' & r & A & B & C). rewrite A. rewrite Hact in B.
    destruct r as [[s [a|]]|e]; cbn [sd_except].
    - destruct C as (g' & p & fuel' & f2'' & f3 & l' & -> & C2 & C3 & C4 & ->). rewrite Hact in C3.
      rewrite (consume_nested inner g' l' (softened x) (S (length l')) f1').
      + reflexivity.
      + intros k' f steps' Hf Hs'. apply (IH fuel' C2 inner ltac:(lia) g' true f f2'' f3 l' x); [congruence|exact C4|lia].
      + reflexivity.
      + cbn [length] in Hs. rewrite app_length in Hs. lia.
    - destruct C as (-> & ->). reflexivity.
    - destruct C as (-> & ->). cbn [softened]. destruct (catches SignedPEParseError e && ign); reflexivity.
  Qed.

  (** A loop that is left early has seen the beginning of what there is to see. *)
  Lemma take_consume inner : forall n k steps s f l x,
    consume act load depth inc ign flen inner k steps s f = Some (l, x) -> (n <= length l)%nat ->
    take act load depth inc ign flen inner k n s f = Some (firstn n l).
  Proof.
    induction n as [|n IH]; intros k steps s f l x H L; [reflexivity|].
    destruct steps as [|steps]; [discriminate|]. cbn [consume take] in *.
    destruct (sd_next load depth inc ign flen inner s (act k f)) as [[f' [[s' [a|]]|e]]|]; try discriminate;
      try (injection H as <- <-; cbn in L; lia).
    destruct (consume act load depth inc ign flen inner (S k) steps s' f') as [[l' x']|] eqn:C; [|discriminate].
    injection H as <- <-. cbn [length firstn] in *. rewrite (IH _ _ _ _ _ _ C); [reflexivity|lia].
  Qed.
End Iter.

Lemma iterate_consume act load depth inc ign fuel f l x :
  (forall k f, f_bytes (act k f) = f_bytes f) ->
  iterate load depth inc ign fuel f = Some (l, x) ->
  forall inner steps, (fuel <= inner)%nat -> (length l < steps)%nat ->
  consume act load depth inc ign (file_len f) inner 0 steps (SGLoop GStart false) f = Some (l, x).
Proof.
  intros Hact H inner steps Hi Hs. unfold iterate in H. rewrite signed_pe_init_eq in H.
  unfold iter_signed_datas in H.
  destruct (iter_loop load depth inc fuel (zlen (f_bytes f)) GStart false (mkFile (f_bytes f) (zlen (f_bytes f)))) as [[f' [l' x']]|] eqn:L; [|discriminate].
  assert (K: l' = l /\ softened ign x' = x).
  { destruct x' as [e|]; cbn [softened].
    - destruct (catches SignedPEParseError e && ign); injection H as <- <-; auto.
    - injection H as <- <-. auto. }
  destruct K as (-> & <-).
  eapply (consume_spec act Hact load depth inc ign (file_len f) fuel inner Hi); [|exact L|exact Hs]. reflexivity.
Qed.
