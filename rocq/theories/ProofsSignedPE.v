(** The iteration over the signatures of a file. *)
From Verif Require Import Base Bytes Monad ModelFile ModelFingerprint SpecFingerprint ProofsFingerprint ProofsFingerprint2 ProofsFingerprint3
  ModelPE SpecPE ProofsPE ProofsPE2 ProofsPE3 ModelX509 SpecX509 ModelContext SpecContext
  ModelPkcs7 ProofsPkcs7b ModelAuthenticode SpecAuthenticode SpecSignedPE.
From Coq Require Import ZifyBool ZifyNat.

(** ** Paths *)

Lemma earlier_cons i p q : earlier p q -> earlier (i :: p) (i :: q).
Proof.
  intros [p' j q'|p' j k q' r H].
  - apply (earlier_parent (i :: p')).
  - apply (earlier_sibling (i :: p')). assumption.
Qed.

Lemma earlier_first i j p q : (i < j)%nat -> earlier (i :: p) (j :: q).
Proof. apply (earlier_sibling []). Qed.

Definition shift (p : list nat) : list nat := match p with [] => [] | i :: q => S i :: q end.

Lemma earlier_shift i p j q : earlier (i :: p) (j :: q) -> earlier (S i :: p) (S j :: q).
Proof.
  remember (i :: p) as a eqn:Ea. remember (j :: q) as b eqn:Eb. intros H. revert Ea Eb. destruct H as [p' k q'|p' k m q' r H]; intros Ea Eb.
  - subst p'. injection Eb as -> <-. apply (earlier_parent (S j :: p)).
  - destruct p' as [|i' p'].
    + injection Ea as -> ->. injection Eb as -> ->. apply earlier_first. lia.
    + injection Ea as -> <-. injection Eb as -> <-. now apply (earlier_sibling (S j :: p')).
Qed.

Lemma FOP_app {A} (R : A -> A -> Prop) l m :
  ForallOrdPairs R l -> ForallOrdPairs R m -> (forall a b, In a l -> In b m -> R a b) -> ForallOrdPairs R (l ++ m).
Proof.
  intros Hl Hm H. induction Hl as [|a l Ha Hl IH]; cbn [app]; [assumption|]. constructor.
  - apply Forall_app. split; [assumption|]. apply Forall_forall. intros b Hb. apply H; [now left|assumption].
  - apply IH. intros x y Hx Hy. apply H; [now right|assumption].
Qed.

Lemma FOP_map {A B} (R : A -> A -> Prop) (S : B -> B -> Prop) (f : A -> B) l :
  (forall a b, In a l -> In b l -> R a b -> S (f a) (f b)) -> ForallOrdPairs R l -> ForallOrdPairs S (map f l).
Proof.
  intros H Hl. induction Hl as [|a l Ha Hl IH]; cbn [map]; constructor.
  - apply Forall_forall. intros b Hb. apply in_map_iff in Hb as (c & <- & Hc). rewrite Forall_forall in Ha.
    apply H; [now left|now right|auto].
  - apply IH. intros x y Hx Hy. apply H; now right.
Qed.

Lemma enumerates_ext look look' (W W' : list nat -> Prop) l :
  (forall p, W p <-> W' p) -> (forall p, W p -> look p = look' p) -> enumerates look W l -> enumerates look' W' l.
Proof.
  intros Hw Hl (ps & H1 & H2 & H3). exists ps. split; [assumption|]. split.
  - intros p. rewrite H2. apply Hw.
  - assert (G : forall p, In p ps -> look p = look' p) by (intros p Hp; apply Hl, H2, Hp). clear - H3 G.
    induction H3 as [|p a ps l Hp _ IH]; constructor.
    + rewrite <- G by now left. assumption.
    + apply IH. intros q Hq. apply G. now right.
Qed.

(** Indexing a list whose items are enumerated each. *)
Lemma enumerates_list {X} (look : X -> list nat -> option asd) (W : X -> list nat -> Prop) (g : X -> list asd) xs :
  (forall x, In x xs -> enumerates (look x) (W x) (g x)) ->
  enumerates
    (fun p => match p with [] => None | i :: q => match nth_error xs i with Some x => look x q | None => None end end)
    (fun p => exists i q x, p = i :: q /\ nth_error xs i = Some x /\ W x q)
    (flat_map g xs).
Proof.
  induction xs as [|x xs IH]; intros H; cbn [flat_map].
  - exists []. split; [constructor|]. split; [|constructor].
    intros p. split; [intros []|]. intros ([|i] & q & y & _ & Hn & _); discriminate Hn.
  - destruct (H x (or_introl eq_refl)) as (ps & P1 & P2 & P3).
    destruct IH as (qs & Q1 & Q2 & Q3); [intros y Hy; apply H; now right|].
    exists (map (cons 0%nat) ps ++ map shift qs).
    assert (Qne : forall q, In q qs -> exists i r, q = i :: r).
    { intros q Hq. apply Q2 in Hq as (i & r & y & -> & _). eauto. }
    split; [|split].
    + apply FOP_app.
      * eapply FOP_map; [|exact P1]. intros a b _ _. apply earlier_cons.
      * eapply FOP_map; [|exact Q1]. intros a b Ha Hb. destruct (Qne a Ha) as (i & r & ->).
        destruct (Qne b Hb) as (j & s & ->). cbn [shift]. apply earlier_shift.
      * intros a b Ha Hb. apply in_map_iff in Ha as (p & <- & _). apply in_map_iff in Hb as (q & <- & Hq).
        destruct (Qne q Hq) as (j & s & ->). cbn [shift]. apply earlier_first. lia.
    + intros p. rewrite in_app_iff, !in_map_iff. split.
      * intros [(q & <- & Hq)|(q & <- & Hq)].
        -- exists 0%nat, q, x. split; [reflexivity|]. split; [reflexivity|]. now apply P2.
        -- apply Q2 in Hq as (i & r & y & -> & Hn & Hw). exists (S i), r, y. auto.
      * intros ([|i] & q & y & -> & Hn & Hw); cbn [nth_error] in Hn.
        -- injection Hn as <-. left. exists q. split; [reflexivity|]. now apply P2.
        -- right. exists (i :: q). split; [reflexivity|]. apply Q2. eauto 7.
    + apply Forall2_app.
      * clear - P3. induction P3; cbn [map]; constructor; auto.
      * clear - Q3 Qne. induction Q3 as [|q a qs l Hq _ IH]; cbn [map]; constructor.
        -- destruct (Qne q (or_introl eq_refl)) as (i & r & ->). exact Hq.
        -- apply IH. intros p Hp. apply Qne. now right.
Qed.

Definition below (inc : bool) (a : asd) (p : list nat) : Prop := at_path a p <> None /\ (inc = false -> p = []).

Lemma nested_enumerates inc a : enumerates (at_path a) (below inc a) (recursive_nested inc a).
Proof.
  remember (asd_size a) as n eqn:Hn. assert (asd_size a <= n)%nat as Hle by lia. clear Hn.
  revert a Hle. induction n as [|n IH]; intros [d s [i cs nested] pe] Hle; [cbn [asd_size] in Hle; lia|].
  cbn [asd_size] in Hle. cbn [recursive_nested].
  set (a := ASD d s (ASI i cs nested) pe).
  destruct inc.
  - destruct (enumerates_list at_path (below true) (recursive_nested true) nested) as (ps & P1 & P2 & P3).
    { intros b Hb. apply IH. apply asd_size_in in Hb. lia. }
    exists ([] :: ps). split; [|split].
    + constructor; [|assumption]. apply Forall_forall. intros p Hp. apply P2 in Hp as (j & q & x & -> & _).
      apply (earlier_parent []).
    + intros p. cbn [In]. rewrite P2. unfold below. split.
      * intros [<-|(j & q & x & -> & Hx & Hw & _)]; (split; [|discriminate]); [discriminate|].
        cbn [at_path a asd_signer asi_nested]. rewrite Hx. exact Hw.
      * intros [Hp _]. destruct p as [|j q]; [now left|right].
        cbn [at_path a asd_signer asi_nested] in Hp. destruct (nth_error nested j) as [x|] eqn:Ex; [|now elim Hp].
        exists j, q, x. repeat split; auto. discriminate.
    + constructor; [reflexivity|]. clear - P3. induction P3 as [|p b ps l Hp _ IH']; constructor; [|assumption].
      destruct p; [discriminate Hp|exact Hp].
  - exists [[]]. split; [repeat constructor|]. split; [|repeat constructor].
    intros p. cbn [In]. unfold below. split.
    + intros [<-|[]]. split; [discriminate|reflexivity].
    + intros [_ H]. left. symmetry. now apply H.
Qed.

(** ** The loop *)

Section loop.
Context (load : loader) (depth : nat) (inc : bool).

Definition entry_signatures (c : cert_entry) : list asd :=
  if ce_type c =? 2 then
    match from_envelope load depth true (ce_certificate c) with
    | Ok a => recursive_nested inc a
    | Err _ => []
    end
  else [].

Fixpoint pure_iter (tail : option exn) (es : list cert_entry) (found : bool) : list asd * option exn :=
  match es with
  | [] => ([], match tail with Some e => Some e | None => if found then None else Some not_found end)
  | c :: es' =>
      if negb (ce_revision c =? 0x200) then
        ([], Some (mkExn SignedPEParseError "Unknown certificate revision"))
      else if ce_type c =? 2 then
        match from_envelope load depth true (ce_certificate c) with
        | Err e => ([], Some e)
        | Ok a => let (l, x) := pure_iter tail es' true in (recursive_nested inc a ++ l, x)
        end
      else pure_iter tail es' found
  end.

Lemma loop_walk flen fuel : forall g f found f' es tail,
  cert_table_walk fuel flen g f = Some (f', (es, tail)) ->
  exists f'', iter_loop load depth inc fuel flen g found f = Some (f'', pure_iter tail es found).
Proof.
  induction fuel as [|fuel IH]; intros g f found f' es tail; cbn [cert_table_walk iter_loop]; [discriminate|].
  destruct (cert_table_next flen g f) as [f1 [[g' [c|]]|e]].
  - destruct (cert_table_walk fuel flen g' f1) as [[f2 [es' t]]|] eqn:Ew; [|discriminate].
    intros H. injection H as <- <- <-. cbn [pure_iter].
    destruct (negb (ce_revision c =? 0x200)); [eauto|].
    destruct (ce_type c =? 2); [|eapply IH; exact Ew].
    destruct (from_envelope load depth true (ce_certificate c)) as [a|e]; [|eauto].
    destruct (IH g' f1 true _ _ _ Ew) as (f'' & ->). destruct (pure_iter t es' true). eauto.
  - intros H. injection H as <- <- <-. cbn [pure_iter]. eauto.
  - intros H. injection H as <- <- <-. cbn [pure_iter]. eauto.
Qed.

Lemma loop_mono flen i j : (i <= j)%nat -> forall g f found x,
  iter_loop load depth inc i flen g found f = Some x -> iter_loop load depth inc j flen g found f = Some x.
Proof.
  revert j. induction i as [|i IH]; intros j Hj g f found x; cbn [iter_loop]; [discriminate|].
  destruct j as [|j]; [lia|]. cbn [iter_loop].
  destruct (cert_table_next flen g f) as [f1 [[g' [c|]]|e]]; auto.
  destruct (negb (ce_revision c =? 0x200)); auto.
  destruct (ce_type c =? 2); [|apply IH; lia].
  destruct (from_envelope load depth true (ce_certificate c)) as [a|e]; auto.
  destruct (iter_loop load depth inc i flen g' true f1) as [[f2 [l y]]|] eqn:E; [|discriminate].
  intros H. rewrite (IH j ltac:(lia) _ _ _ _ E). exact H.
Qed.

Lemma loop_bytes flen fuel : forall g f found f' r,
  iter_loop load depth inc fuel flen g found f = Some (f', r) -> f_bytes f' = f_bytes f.
Proof.
  induction fuel as [|fuel IH]; intros g f found f' r; cbn [iter_loop]; [discriminate|].
  destruct (next_content flen g f f eq_refl) as [N _].
  destruct (cert_table_next flen g f) as [f1 [[g' [c|]]|e]]; cbn [fst] in N.
  - destruct (negb (ce_revision c =? 0x200)); [intros H; injection H as <- _; exact N|].
    destruct (ce_type c =? 2); [|intros H; rewrite <- N; eapply IH; exact H].
    destruct (from_envelope load depth true (ce_certificate c)) as [a|e]; [|intros H; injection H as <- _; exact N].
    destruct (iter_loop load depth inc fuel flen g' true f1) as [[f2 [l y]]|] eqn:E; [|discriminate].
    intros H. injection H as <- _. rewrite <- N. eapply IH; exact E.
  - intros H; injection H as <- _; exact N.
  - intros H; injection H as <- _; exact N.
Qed.

(** As [ends], when something was found before, or not. *)
Definition ends_after (found : bool) (es : list cert_entry) (tail : option exn) (n : nat) (x : option exn) : Prop :=
  (exists c e, x = Some e /\ nth_error es n = Some c /\
     ((ce_revision c <> 0x200 /\ e_class e = SignedPEParseError) \/
      (ce_revision c = 0x200 /\ ce_type c = 2 /\ from_envelope load depth true (ce_certificate c) = Err e))) \/
  (n = length es /\ tail <> None /\ x = tail) \/
  (n = length es /\ tail = None /\ x = None /\ (found = true \/ exists c, In c es /\ ce_type c = 2)) \/
  (n = length es /\ tail = None /\ found = false /\ (forall c, In c es -> ce_type c <> 2) /\
   exists e, x = Some e /\ e_class e = SignedPEParseError).

Lemma ends_after_ends es tail n x : ends_after false es tail n x -> ends load depth es tail n x.
Proof.
  intros [(c & e & -> & Hc & [[H1 H2]|(H1 & H2 & H3)])|[(-> & Ht & ->)|[(-> & Ht & -> & [H|(c & H1 & H2)])|(-> & Ht & _ & H1 & e & -> & H2)]]].
  - eapply ends_revision; eassumption.
  - eapply ends_parse; eassumption.
  - destruct tail; [now apply ends_table|now elim Ht].
  - discriminate H.
  - eapply ends_found; eassumption.
  - now apply ends_not_found.
Qed.

Lemma ends_after_cons c es tail n x found :
  ends_after (found || (ce_type c =? 2)) es tail n x -> ends_after found (c :: es) tail (S n) x.
Proof.
  intros [(k & e & -> & Hc & H)|[(-> & Ht & ->)|[(-> & Ht & -> & H)|(-> & Ht & Hf & H1 & H2)]]].
  - left. exists k, e. auto.
  - right. left. auto.
  - right. right. left. repeat (split; [reflexivity || assumption|]).
    destruct H as [H|(k & H1 & H2)]; [|right; exists k; split; [now right|assumption]].
    apply orb_prop in H as [H|H]; [now left|]. right. exists c. split; [now left|lia].
  - right. right. right. apply orb_false_elim in Hf as [Hf Hc]. repeat (split; [reflexivity || assumption|]).
    split; [|assumption]. intros k [<-|Hk]; [lia|auto].
Qed.

Lemma pure_iter_spec tail : forall es found l x,
  pure_iter tail es found = (l, x) ->
  exists n, (n <= length es)%nat /\ Forall (readable_entry load depth) (firstn n es) /\
    l = flat_map entry_signatures (firstn n es) /\ ends_after found es tail n x.
Proof.
  induction es as [|c es IH]; intros found l x; cbn [pure_iter].
  - intros H. injection H as <- <-. exists 0%nat. split; [lia|]. split; [constructor|]. split; [reflexivity|].
    destruct tail as [e|].
    + right. left. repeat split; congruence.
    + destruct found.
      * right. right. left. auto.
      * right. right. right. repeat (split; [reflexivity|]). split; [intros ? []|]. exists not_found. auto.
  - destruct (Z.eqb_spec (ce_revision c) 0x200) as [R|R]; cbn [negb].
    2: { intros H. injection H as <- <-. exists 0%nat. split; [cbn; lia|]. split; [constructor|]. split; [reflexivity|].
         left. eexists c, _. split; [reflexivity|]. split; [reflexivity|]. left. split; [assumption|reflexivity]. }
    assert (G : forall l' x', pure_iter tail es (found || (ce_type c =? 2)) = (l', x') ->
      (ce_type c = 2 -> exists a, from_envelope load depth true (ce_certificate c) = Ok a) ->
      exists n, (n <= length (c :: es))%nat /\ Forall (readable_entry load depth) (firstn n (c :: es)) /\
        entry_signatures c ++ l' = flat_map entry_signatures (firstn n (c :: es)) /\ ends_after found (c :: es) tail n x').
    { intros l' x' Ep Ha. destruct (IH _ l' x' Ep) as (n & Hn & F & -> & He). exists (S n). split; [cbn; lia|].
      cbn [firstn flat_map]. split; [constructor; [split; assumption|assumption]|]. split; [reflexivity|].
      now apply ends_after_cons. }
    destruct (Z.eqb_spec (ce_type c) 2) as [T|T].
    + destruct (from_envelope load depth true (ce_certificate c)) as [a|e] eqn:Ea.
      * rewrite orb_true_r in G. destruct (pure_iter tail es true) as [l' x'] eqn:Ep. intros H. injection H as <- <-.
        destruct (G l' x' eq_refl) as (n & N1 & N2 & N3 & N4); [eauto|]. exists n. repeat (split; [assumption|]).
        split; [|assumption]. rewrite <- N3. unfold entry_signatures. now rewrite Ea, (proj2 (Z.eqb_eq _ _) T).
      * intros H. injection H as <- <-. exists 0%nat. split; [cbn; lia|]. split; [constructor|]. split; [reflexivity|].
        left. exists c, e. split; [reflexivity|]. split; [reflexivity|]. right. auto.
    + rewrite orb_false_r in G. intros H. destruct (G l x H) as (n & N1 & N2 & N3 & N4); [contradiction|].
      exists n. repeat (split; [assumption|]). split; [|assumption]. rewrite <- N3. unfold entry_signatures.
      destruct (Z.eqb_spec (ce_type c) 2); [contradiction|reflexivity].
Qed.

Definition entry_look (c : cert_entry) (p : list nat) : option asd :=
  if ce_type c =? 2 then
    match from_envelope load depth true (ce_certificate c) with Ok a => at_path a p | Err _ => None end
  else None.

Lemma entry_enumerates c :
  enumerates (entry_look c) (fun p => entry_look c p <> None /\ (inc = false -> p = [])) (entry_signatures c).
Proof.
  unfold entry_look, entry_signatures.
  assert (Nil : forall W : list nat -> Prop, (forall p, ~ W p) -> enumerates (fun _ => None) W []).
  { intros W H. exists []. split; [constructor|]. split; [|constructor]. intros p. split; [intros []|apply H]. }
  destruct (ce_type c =? 2).
  - destruct (from_envelope load depth true (ce_certificate c)) as [a|e].
    + eapply enumerates_ext; [| |apply (nested_enumerates inc a)]; [reflexivity|reflexivity].
    + apply Nil. intros p [H _]. now elim H.
  - apply Nil. intros p [H _]. now elim H.
Qed.

Lemma nth_firstn {A} (l : list A) n i : nth_error (firstn n l) i = if (i <? n)%nat then nth_error l i else None.
Proof.
  revert l i. induction n as [|n IH]; intros l i.
  - destruct i; reflexivity.
  - destruct l as [|a l]; [destruct i; cbn [firstn nth_error]; [reflexivity|now destruct (S i <? S n)%nat]|].
    destruct i as [|i]; [reflexivity|]. cbn [firstn nth_error]. rewrite IH.
    destruct (Nat.ltb_spec i n), (Nat.ltb_spec (S i) (S n)); reflexivity || lia.
Qed.

Lemma table_enumerates es n :
  enumerates (in_table load depth es) (wanted_paths load depth es n inc) (flat_map entry_signatures (firstn n es)).
Proof.
  eapply enumerates_ext; [| |apply (enumerates_list entry_look
      (fun c p => entry_look c p <> None /\ (inc = false -> p = [])) entry_signatures (firstn n es));
      intros c _; apply entry_enumerates].
  - intros p. unfold wanted_paths. split.
    + intros (i & q & c & -> & Hn & Hw & Hi). rewrite nth_firstn in Hn. destruct (Nat.ltb_spec i n); [|discriminate].
      split; [cbn [in_table]; rewrite Hn; exact Hw|]. split; [eauto|]. intros I. now rewrite (Hi I).
    + intros (Hw & (i & q & -> & Hin) & Hi). cbn [in_table] in Hw.
      destruct (nth_error es i) as [c|] eqn:Ec; [|now elim Hw]. exists i, q, c. split; [reflexivity|].
      split; [rewrite nth_firstn; destruct (Nat.ltb_spec i n); [assumption|lia]|].
      split; [exact Hw|]. intros I. specialize (Hi I). destruct q; [reflexivity|discriminate].
  - intros p (i & q & c & -> & Hn & _). cbn [in_table]. rewrite Hn. rewrite nth_firstn in Hn.
    destruct (Nat.ltb_spec i n); [|discriminate]. now rewrite Hn.
Qed.
End loop.

(** ** C17, C18 *)

Definition silenced (ign : bool) (x : option exn) : option exn :=
  match x with
  | Some e => if issubclass (e_class e) SignedPEParseError && ign then None else Some e
  | None => None
  end.

Lemma iterate_eq load depth inc ign fuel f :
  iterate load depth inc ign fuel f =
  match iter_loop load depth inc fuel (zlen (f_bytes f)) GStart false (mkFile (f_bytes f) (zlen (f_bytes f))) with
  | Some (_, (l, x)) => Some (l, silenced ign x)
  | None => None
  end.
Proof.
  unfold iterate. rewrite signed_pe_init_eq. unfold iter_signed_datas.
  destruct (iter_loop _ _ _ _ _ _ _ _) as [[f' [l [e|]]]|]; [|reflexivity|reflexivity].
  unfold silenced, catches. destruct (_ && ign); reflexivity.
Qed.

Lemma iterate_mono load depth inc ign f i j x : (i <= j)%nat ->
  iterate load depth inc ign i f = Some x -> iterate load depth inc ign j f = Some x.
Proof.
  intros H. rewrite !iterate_eq. destruct (iter_loop _ _ _ i _ _ _ _) as [y|] eqn:E; [|discriminate].
  now rewrite (loop_mono _ _ _ _ _ _ H _ _ _ _ E).
Qed.

Lemma table_terminates f : exists es tail, terminates_with (fun n => cert_table n f) (es, tail).
Proof.
  destruct (snd (omit_sections f)) as [[d|]|e] eqn:Eo.
  - destruct (dict_get "certtable" d) as [s|] eqn:Es.
    + destruct (c14_table f d s Eo Es) as (es & x & ps & last & H & _). eauto.
    + destruct (c14_no_table f) as (e & _ & H); [|eauto]. intros d' s' H. congruence.
  - destruct (c14_no_table f) as (e & _ & H); [|eauto]. intros d' s' H. congruence.
  - destruct (c14_no_table f) as (e' & _ & H); [|eauto]. intros d' s' H. congruence.
Qed.

Lemma iterate_pure load depth inc ign f es tail :
  terminates_with (fun n => cert_table n f) (es, tail) ->
  let p := pure_iter load depth inc tail es false in
  terminates_with (fun n => iterate load depth inc ign n f) (fst p, silenced ign (snd p)).
Proof.
  intros [N H] p. exists N. intros m Hm. specialize (H m Hm). rewrite iterate_eq.
  unfold cert_table in H. rewrite signed_pe_init_eq in H.
  destruct (cert_table_walk m _ GStart _) as [[f' y]|] eqn:Ew; [|discriminate H]. injection H as ->.
  destruct (loop_walk load depth inc _ _ _ _ false _ _ _ Ew) as (f'' & ->). fold p. now destruct p.
Qed.

Theorem c17 load depth inc f :
  exists es tail n l x,
    terminates_with (fun k => cert_table k f) (es, tail) /\
    terminates_with (fun k => iterate load depth inc false k f) (l, x) /\
    (n <= length es)%nat /\ Forall (readable_entry load depth) (firstn n es) /\
    ends load depth es tail n x /\
    enumerates (in_table load depth es) (wanted_paths load depth es n inc) l.
Proof.
  destruct (table_terminates f) as (es & tail & Ht). pose proof (iterate_pure load depth inc false f es tail Ht) as Hi.
  cbv zeta in Hi. destruct (pure_iter load depth inc tail es false) as [l x] eqn:Ep. cbn [fst snd] in Hi.
  destruct (pure_iter_spec _ _ _ _ _ _ _ _ Ep) as (n & N1 & N2 & N3 & N4). exists es, tail, n, l, x.
  split; [assumption|]. split.
  { assert (silenced false x = x) as <-; [|exact Hi]. destruct x; [|reflexivity]. cbn. now rewrite andb_false_r. }
  split; [assumption|]. split; [assumption|]. split; [now apply ends_after_ends in N4|]. subst l. apply table_enumerates.
Qed.

Theorem c18 load depth inc f fuel l x :
  iterate load depth inc true fuel f = Some (l, x) <->
  exists y, iterate load depth inc false fuel f = Some (l, y) /\
    ((y = None /\ x = None) \/
     (exists e, y = Some e /\ issubclass (e_class e) SignedPEParseError = true /\ x = None) \/
     (exists e, y = Some e /\ issubclass (e_class e) SignedPEParseError = false /\ x = Some e)).
Proof.
  rewrite !iterate_eq. destruct (iter_loop _ _ _ _ _ _ _ _) as [[f' [l' y']]|].
  2: { split; [discriminate|]. intros (y & H & _). discriminate H. }
  unfold silenced. split.
  - intros H. injection H as <- <-. eexists. split; [reflexivity|].
    destruct y' as [e|]; [|now left]. rewrite andb_false_r, andb_true_r.
    right. destruct (issubclass (e_class e) SignedPEParseError) eqn:E; [left|right]; eauto.
  - intros (y & H & C). injection H as <- <-. f_equal. f_equal.
    destruct y' as [e|]; [|destruct C as [[_ ->]|[(e & He & _)|(e & He & _)]]; reflexivity || discriminate He].
    rewrite andb_false_r in C. rewrite andb_true_r.
    destruct C as [[H _]|[(e' & H & S & ->)|(e' & H & S & ->)]]; [discriminate H| |]; injection H as <-; now rewrite S.
Qed.

(** ** There is one enumeration only *)

Fixpoint lexb (p q : list nat) : bool :=
  match p, q with
  | [], [] => false
  | [], _ :: _ => true
  | _ :: _, [] => false
  | i :: p', j :: q' => (i <? j)%nat || ((i =? j)%nat && lexb p' q')
  end.

Lemma earlier_lexb p q : earlier p q -> lexb p q = true.
Proof.
  intros [p' i q'|p' i j q' r H]; induction p' as [|k p' IH]; cbn [app lexb].
  - reflexivity.
  - rewrite Nat.eqb_refl, IH. apply orb_true_r.
  - destruct (Nat.ltb_spec i j); [reflexivity|lia].
  - rewrite Nat.eqb_refl, IH. apply orb_true_r.
Qed.

Lemma lexb_asym p : forall q, lexb p q = true -> lexb q p = true -> False.
Proof.
  induction p as [|i p IH]; intros [|j q]; cbn [lexb]; try discriminate.
  destruct (Nat.ltb_spec i j), (Nat.ltb_spec j i); cbn [orb]; [lia|lia|lia|].
  destruct (Nat.eqb_spec i j) as [->|]; [|discriminate]. rewrite Nat.eqb_refl. cbn [andb]. apply IH.
Qed.

Lemma earlier_asym p q : earlier p q -> earlier q p -> False.
Proof. intros H K. apply earlier_lexb in H, K. eapply lexb_asym; eassumption. Qed.

Lemma ordered_unique {A} (R : A -> A -> Prop) (Has : forall a b, R a b -> R b a -> False) l : forall m,
  ForallOrdPairs R l -> ForallOrdPairs R m -> (forall a, In a l <-> In a m) -> l = m.
Proof.
  induction l as [|a l IH]; intros [|b m] Hl Hm H.
  - reflexivity.
  - exfalso. apply (H b). now left.
  - exfalso. apply (H a). now left.
  - inversion Hl as [|? ? Ha Hl']; subst. inversion Hm as [|? ? Hb Hm']; subst. rewrite Forall_forall in Ha, Hb.
    assert (a = b) as <-.
    { destruct (proj1 (H a) (or_introl eq_refl)) as [<-|Ia]; [reflexivity|].
      destruct (proj2 (H b) (or_introl eq_refl)) as [<-|Ib]; [reflexivity|]. elim (Has a b); auto. }
    f_equal. apply IH; [assumption|assumption|]. intros x. split; intros Hx.
    + destruct (proj1 (H x) (or_intror Hx)) as [<-|]; [|assumption]. elim (Has a a); auto.
    + destruct (proj2 (H x) (or_intror Hx)) as [<-|]; [|assumption]. elim (Has a a); auto.
Qed.

Lemma FOP_filter {A} (R : A -> A -> Prop) f l : ForallOrdPairs R l -> ForallOrdPairs R (filter f l).
Proof.
  intros H. induction H as [|a l Ha _ IH]; cbn [filter]; [constructor|]. destruct (f a); [|assumption].
  constructor; [|assumption]. apply Forall_forall. intros b Hb. apply filter_In in Hb as [Hb _].
  rewrite Forall_forall in Ha. auto.
Qed.

Lemma Forall2_look (look : list nat -> option asd) ps l m :
  Forall2 (fun p a => look p = Some a) ps l -> Forall2 (fun p a => look p = Some a) ps m -> l = m.
Proof.
  intros H. revert m. induction H as [|p a ps l Hp _ IH]; intros m K; inversion K; subst; [reflexivity|].
  f_equal; [congruence|auto].
Qed.

Theorem enumerates_unique look W l m : enumerates look W l -> enumerates look W m -> l = m.
Proof.
  intros (ps & P1 & P2 & P3) (qs & Q1 & Q2 & Q3).
  assert (ps = qs) as <-.
  { apply (ordered_unique earlier earlier_asym); [assumption|assumption|]. intros p. rewrite P2, Q2. reflexivity. }
  eapply Forall2_look; eassumption.
Qed.

Lemma Forall2_filter_fst {A B} (R : A -> B -> Prop) (f : A -> bool) ps l :
  Forall2 R ps l -> Forall2 R (filter f ps) (map snd (filter (fun pa => f (fst pa)) (combine ps l))).
Proof.
  intros H. induction H as [|p a ps l Hp _ IH]; cbn [combine filter fst]; [constructor|].
  destruct (f p); cbn [map snd]; [constructor|]; assumption.
Qed.

(** Without the nested ones: the outermost ones, in the same order. *)
Theorem c17_top load depth f fuel l l' x x' :
  iterate load depth true false fuel f = Some (l, x) -> iterate load depth false false fuel f = Some (l', x') ->
  x' = x /\
  exists es tail n ps,
    terminates_with (fun k => cert_table k f) (es, tail) /\
    ForallOrdPairs earlier ps /\ (forall p, In p ps <-> wanted_paths load depth es n true p) /\
    Forall2 (fun p a => in_table load depth es p = Some a) ps l /\
    l' = map snd (filter (fun pa => length (fst pa) =? 1)%nat (combine ps l)).
Proof.
  intros H H'. destruct (table_terminates f) as (es & tail & Ht).
  pose proof (iterate_pure load depth true false f es tail Ht) as Hi.
  pose proof (iterate_pure load depth false false f es tail Ht) as Hi'. cbv zeta in Hi, Hi'.
  eapply terminates_unique in Hi; [|intros i j y; apply iterate_mono|exact H].
  eapply terminates_unique in Hi'; [|intros i j y; apply iterate_mono|exact H'].
  assert (S : forall y, silenced false y = y) by (intros [e|]; [cbn; now rewrite andb_false_r|reflexivity]).
  rewrite S in Hi, Hi'. rewrite <- surjective_pairing in Hi, Hi'.
  assert (G : exists n, l = flat_map (entry_signatures load depth true) (firstn n es) /\
                        l' = flat_map (entry_signatures load depth false) (firstn n es) /\ x' = x).
  { clear - Hi Hi'. revert Hi Hi'. generalize false at 1 3 as found. revert l l'.
    induction es as [|c es IH]; intros l l' found; cbn [pure_iter].
    - intros E E'. injection E as <- <-. injection E' as <- <-. exists 0%nat. auto.
    - destruct (negb (ce_revision c =? 512)).
      { intros E E'. injection E as <- <-. injection E' as <- <-. exists 0%nat. auto. }
      destruct (ce_type c =? 2) eqn:T.
      + destruct (from_envelope load depth true (ce_certificate c)) as [a|e] eqn:Ea.
        * destruct (pure_iter load depth true tail es true) as [m y] eqn:E1.
          destruct (pure_iter load depth false tail es true) as [m' y'] eqn:E2.
          intros E E'. injection E as <- <-. injection E' as <- <-.
          destruct (IH m m' true) as (n & -> & -> & ->); [assumption|assumption|].
          exists (S n). cbn [firstn flat_map]. unfold entry_signatures at 2 5. rewrite T, Ea. auto.
        * intros E E'. injection E as <- <-. injection E' as <- <-. exists 0%nat. auto.
      + intros E E'. destruct (IH l l' found E E') as (n & -> & -> & ->). exists (S n).
        cbn [firstn flat_map]. unfold entry_signatures at 2 5. rewrite T. auto. }
  destruct G as (n & El & El' & ->). split; [reflexivity|].
  destruct (table_enumerates load depth true es n) as (ps & P1 & P2 & P3). rewrite <- El in P3.
  exists es, tail, n, ps. repeat (split; [assumption|]).
  pose proof (table_enumerates load depth false es n) as T'. rewrite <- El' in T'.
  eapply enumerates_unique; [exact T'|].
  exists (filter (fun p => length p =? 1)%nat ps). split; [now apply FOP_filter|]. split.
  - intros p. rewrite filter_In, P2. unfold wanted_paths. rewrite Nat.eqb_eq. split.
    + intros ((A & B & _) & C). auto.
    + intros (A & B & C). split; [split; [assumption|]; split; [assumption|discriminate]|auto].
  - now apply (Forall2_filter_fst _ (fun p => length p =? 1)%nat).
Qed.
