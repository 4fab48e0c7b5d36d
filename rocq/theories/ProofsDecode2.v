(** The nesting bound of the decoder of ModelDecode.v is never reached. *)
From Verif Require Import Base Bytes ModelX509 ModelPkcs7 ModelLazy ModelDer ModelSpc ModelDecode SpecLazy ProofsDer ProofsDecode.
From Coq Require Import ZifyBool ZifyNat.

Notation size t := (length (t_contents t)).

Lemma unwrap_shorter : forall tg t u, unwrap tg t = Ok u -> (size u <= size t)%nat.
Proof.
  intros [|n|n] t u H; cbn [unwrap] in H; try (injection H as ->; lia).
  destruct (negb _); [discriminate|].
  destruct (parse_tlv (t_contents t)) as [[v r]|] eqn:E; [|discriminate]. cbn [rbind] in H. injection H as <-.
  apply parse_tlv_shorter in E. lia.
Qed.
Lemma expect_shorter : forall tg con tag t u, expect tg con tag t = Ok u -> (size u <= size t)%nat.
Proof.
  intros tg con tag t u H. unfold expect in H. destruct (unwrap tg t) as [v|] eqn:E; [|discriminate].
  cbn [rbind] in H. apply unwrap_shorter in E.
  destruct tg; (match type of H with (if ?c then _ else _) = _ => destruct c end; [|discriminate]); injection H as <-; exact E.
Qed.
Lemma contents_of_shorter : forall a tg t b, contents_of a tg t = Ok b -> (length b <= size t)%nat.
Proof.
  intros a tg t b H. unfold contents_of in H.
  destruct a; match type of H with rbind ?x _ = _ => destruct x as [u|] eqn:E end; try discriminate;
    cbn [rbind] in H; injection H as <-; first [apply expect_shorter in E | apply unwrap_shorter in E]; exact E.
Qed.
Lemma items_of_shorter : forall a tg t l u, items_of a tg t = Ok l -> In u l -> (size u + 2 <= size t)%nat.
Proof.
  intros a tg t l u H Hu. unfold items_of in H. destruct (contents_of a tg t) as [b|] eqn:E; [|discriminate].
  cbn [rbind] in H. apply contents_of_shorter in E. pose proof (parse_all_shorter _ _ _ H Hu). lia.
Qed.
Lemma match_fields_in : forall fs l d n t,
  match_fields fs l = Ok d -> dict_get n d = Some (Some t) -> In t l.
Proof.
  induction fs as [|[m [a [tg p]]] fs IH]; intros l d n t H Hd.
  - destruct l; [|discriminate]. injection H as <-. discriminate.
  - assert (K : forall l' (o : option tlv), (forall u, o = Some u -> In u l) -> (forall u, In u l' -> In u l) ->
                (let? d := match_fields fs l' in Ok ((m, o) :: d)) = Ok d -> In t l).
    { intros l' o Ho Hl K. destruct (match_fields fs l') as [d'|] eqn:E; [|discriminate]. cbn [rbind] in K.
      injection K as <-. cbn [dict_get] in Hd. destruct (String.eqb n m).
      - injection Hd as ->. apply Ho. reflexivity.
      - apply Hl. eapply IH; eassumption. }
    destruct l as [|x l].
    + destruct p; cbn [match_fields] in H; [discriminate| |]; (eapply K; [| |exact H]; [discriminate|auto]).
    + assert (Hs : forall u, Some x = Some u -> In u (x :: l)) by (intros u [= ->]; left; reflexivity).
      assert (Hn : forall u, @None tlv = Some u -> In u (x :: l)) by discriminate.
      assert (Ht : forall u, In u l -> In u (x :: l)) by (intros; right; assumption).
      destruct p; cbn [match_fields] in H.
      * eapply K; [exact Hs|exact Ht|exact H].
      * destruct (id_in x (first_ids a tg)); [eapply K; [exact Hs|exact Ht|exact H]|eapply K; [exact Hn| |exact H]; auto].
      * destruct (id_in x (first_ids a tg)); [eapply K; [exact Hs|exact Ht|exact H]|eapply K; [exact Hn| |exact H]; auto].
Qed.
Lemma children_shorter : forall a b d n t,
  children a b = Ok d -> dict_get n d = Some (Some t) -> (size t + 2 <= length b)%nat.
Proof.
  intros a b d n t H Hd. unfold children in H. destruct (parse_all b) as [l|] eqn:E; [|discriminate].
  cbn [rbind] in H. eapply parse_all_shorter; [exact E|]. eapply match_fields_in; eassumption.
Qed.

(** Readers that agree on the values inside give the same. *)
Lemma read_field_ext : forall A a x b n (k k' : asn -> tagging -> tlv -> res A),
  (forall y tg t, (size t + 2 <= length b)%nat -> k y tg t = k' y tg t) ->
  read_field a (children x b) n k = read_field a (children x b) n k'.
Proof.
  intros A a x b n k k' H. unfold read_field. destruct (children x b) as [d|] eqn:E; [|reflexivity].
  cbn [rbind]. destruct (dict_get n d) as [[t|]|] eqn:E'; try reflexivity.
  destruct (dict_get n (seq_fields a)) as [[y [tg p]]|]; [|reflexivity].
  rewrite H; [reflexivity|]. eapply children_shorter; eassumption.
Qed.
Lemma read_ext : forall A a x b n (k k' : asn -> tagging -> tlv -> res A),
  (forall y tg t, (size t + 2 <= length b)%nat -> k y tg t = k' y tg t) ->
  read a (children x b) n k = read a (children x b) n k'.
Proof. intros A a x b n k k' H. unfold read. now rewrite (read_field_ext _ a x b n k k' H). Qed.
Lemma read_field_bound : forall A a x b n (k : asn -> tagging -> tlv -> res A) v,
  read_field a (children x b) n k = Ok (Some v) ->
  exists y tg t, (size t + 2 <= length b)%nat /\ k y tg t = Ok v.
Proof.
  intros A a x b n k v H. unfold read_field in H. destruct (children x b) as [d|] eqn:E; [|discriminate].
  cbn [rbind] in H. destruct (dict_get n d) as [[t|]|] eqn:E'; try discriminate.
  destruct (dict_get n (seq_fields a)) as [[y [tg p]]|]; [|discriminate].
  destruct (k y tg t) as [w|] eqn:E2; [|discriminate]. cbn [rbind] in H. injection H as <-.
  exists y, tg, t. split; [eapply children_shorter; eassumption|exact E2].
Qed.
Lemma read_bound : forall A a x b n (k : asn -> tagging -> tlv -> res A) v,
  read a (children x b) n k = Ok v ->
  exists y tg t, (size t + 2 <= length b)%nat /\ k y tg t = Ok v.
Proof.
  intros A a x b n k v H. unfold read in H.
  destruct (read_field a (children x b) n k) as [[w|]|] eqn:E; try discriminate.
  cbn [rbind] in H. injection H as ->. eapply read_field_bound, E.
Qed.
Lemma map_res_ext : forall A B (f g : A -> res B) l, (forall a, In a l -> f a = g a) -> map_res f l = map_res g l.
Proof.
  intros A B f g l H. induction l as [|a l IH]; [reflexivity|]. cbn [map_res].
  rewrite H by (left; reflexivity). rewrite IH; [reflexivity|]. intros. apply H. right. assumption.
Qed.
Lemma rbind_ext : forall A B (r : res A) (f g : A -> res B), (forall a, r = Ok a -> f a = g a) -> rbind r f = rbind r g.
Proof. intros A B [a|e] f g H; [apply H; reflexivity|reflexivity]. Qed.

Lemma nesting : forall f g,
  (forall t, (size t < f)%nat -> (size t < g)%nat -> read_attr f t = read_attr g t) /\
  (forall b, (length b < f)%nat -> (length b < g)%nat -> read_si f b = read_si g b) /\
  (forall b, (length b < f)%nat -> (length b < g)%nat -> read_ci f b = read_ci g b) /\
  (forall b, (length b < f)%nat -> (length b < g)%nat -> read_sd f b = read_sd g b).
Proof.
  induction f as [|f IH]; intros g; [repeat split; intros; lia|].
  destruct g as [|g]; [repeat split; intros; lia|].
  destruct (IH g) as (IHa & IHs & IHc & IHd). clear IH.
  repeat match goal with |- _ /\ _ => split end.
  - intros t Hf Hg. cbn [read_attr]. apply rbind_ext. intros b Hb. apply contents_of_shorter in Hb.
    apply rbind_ext. intros typ _. f_equal.
    assert (V : forall A (k k' : tlv -> res A), (forall u, (size u + 2 <= length b)%nat -> k u = k' u) ->
              (let? l := read CMSAttribute (children CMSAttribute b) "values" items_of in map_res k l)
              = (let? l := read CMSAttribute (children CMSAttribute b) "values" items_of in map_res k' l)).
    { intros A k k' Hk. apply rbind_ext. intros l Hl. apply read_bound in Hl. destruct Hl as (y & tg & v & Hv & Hl).
      apply map_res_ext. intros u Hu. apply Hk. pose proof (items_of_shorter _ _ _ _ _ Hl Hu). lia. }
    repeat match goal with |- (if ?c then _ else _) = (if ?c then _ else _) => destruct c; [|] end; try reflexivity;
      f_equal; apply V; intros u Hu; apply rbind_ext; intros c Hc; apply contents_of_shorter in Hc; f_equal.
    + apply IHs; lia.
    + apply IHc; lia.
    + apply IHc; lia.
  - intros b Hf Hg. cbn [read_si].
    assert (W : forall n,
       (let? o := read_field SignerInfo (children SignerInfo b) n items_of in
        match o with None => Ok [] | Some l => Ok (map (read_attr f) l) end)
       = (let? o := read_field SignerInfo (children SignerInfo b) n items_of in
        match o with None => Ok [] | Some l => Ok (map (read_attr g) l) end)).
    { intro n. apply rbind_ext. intros [l|] Hl; [|reflexivity].
      apply read_field_bound in Hl. destruct Hl as (y & tg & v & Hv & Hl).
      f_equal. apply map_ext_in. intros u Hu. pose proof (items_of_shorter _ _ _ _ _ Hl Hu). apply IHa; lia. }
    now rewrite !W.
  - intros b Hf Hg. cbn [read_ci]. f_equal. apply rbind_ext. intros name _.
    apply rbind_ext. intros [u|] Hu; [|reflexivity].
    apply read_field_bound in Hu. destruct Hu as (y & tg & v & Hv & Hu). apply unwrap_shorter in Hu.
    destruct (String.eqb name _); [|reflexivity]. apply rbind_ext. intros c Hc. apply contents_of_shorter in Hc.
    do 2 f_equal. apply IHd; lia.
  - intros b Hf Hg. cbn [read_sd]. f_equal. apply rbind_ext. intros l Hl.
    apply read_bound in Hl. destruct Hl as (y & tg & v & Hv & Hl).
    apply map_res_ext. intros u Hu. pose proof (items_of_shorter _ _ _ _ _ Hl Hu).
    apply rbind_ext. intros c Hc. apply contents_of_shorter in Hc. f_equal. apply IHs; lia.
Qed.
