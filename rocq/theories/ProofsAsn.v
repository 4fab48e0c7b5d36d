(** Decoding is the inverse of encoding for declarations that X.680 allows. *)
From Verif Require Import Base Bytes ModelDer ModelSpc ModelDecode SpecAsn ProofsDer.
From Coq Require Import ZifyBool ZifyNat.

(** ** Identifier and length *)

Lemma parse_tag_identifier cls con tag b :
  0 <= cls <= 3 -> 0 <= tag <= 30 -> parse_tag (identifier cls con tag :: b) = Ok (cls, con, tag, b).
Proof.
  intros Hc Ht. unfold parse_tag, identifier.
  rewrite Z_of_byte_of_Z by (destruct con; lia).
  set (c := if con then 1 else 0).
  assert (Ec : (if con then 32 else 0) = c * 32) by (unfold c; destruct con; reflexivity). rewrite Ec.
  assert (Hb : 0 <= c <= 1) by (unfold c; destruct con; lia).
  assert (M : (cls * 64 + c * 32 + tag) mod 32 = tag)
    by (symmetry; apply (Zmod_unique _ 32 (cls * 2 + c)); lia).
  assert (D : (cls * 64 + c * 32 + tag) / 64 = cls)
    by (symmetry; apply (Zdiv_unique _ 64 cls (c * 32 + tag)); lia).
  assert (D' : (cls * 64 + c * 32 + tag) / 32 = cls * 2 + c)
    by (symmetry; apply (Zdiv_unique _ 32 (cls * 2 + c) tag); lia).
  rewrite M, D, D'. destruct (Z.eqb_spec tag 31); [lia|].
  replace (Z.odd (cls * 2 + c)) with con; [reflexivity|].
  replace (cls * 2 + c) with (c + 2 * cls) by lia. rewrite Z.odd_add_mul_2. unfold c. destruct con; reflexivity.
Qed.

Lemma be_big b : forall acc, fold_left (fun a x => a * 256 + Z_of_byte x) b acc = acc * 256 ^ zlen b + big_endian b.
Proof.
  induction b as [|x b IH]; intros acc; cbn [fold_left big_endian].
  - change (zlen (@nil byte)) with 0. change (256 ^ 0) with 1. lia.
  - rewrite IH. unfold zlen. cbn [length]. rewrite Nat2Z.inj_succ, Z.pow_succ_r by lia. ring.
Qed.
Lemma be_to_Z_big b : be_to_Z b = big_endian b.
Proof. unfold be_to_Z. rewrite be_big. lia. Qed.

Lemma parse_length_octets n lo r : length_octets n lo -> parse_length (lo ++ r) = Ok (Some n, r).
Proof.
  intros [k Hk|l Hl]; cbn [app parse_length].
  - rewrite Z_of_byte_of_Z by lia. destruct (Z.ltb_spec k 128); [reflexivity|lia].
  - rewrite Z_of_byte_of_Z by lia.
    destruct (Z.ltb_spec (128 + zlen l) 128); [lia|]. destruct (Z.eqb_spec (128 + zlen l) 128); [lia|].
    replace (128 + zlen l - 128) with (zlen l) by lia.
    destruct (Z.ltb_spec (zlen (l ++ r)) (zlen l)) as [Hs|_].
    { unfold zlen in Hs. rewrite app_length in Hs. lia. }
    replace (ztake (zlen l) (l ++ r)) with l.
    2:{ rewrite ztake_firstn. unfold zlen. rewrite Nat2Z.id, firstn_app, Nat.sub_diag, firstn_all. cbn. rewrite app_nil_r. reflexivity. }
    replace (zskip (zlen l) (l ++ r)) with r.
    2:{ rewrite zskip_skipn by (unfold zlen; lia). unfold zlen. rewrite Nat2Z.id, skipn_app, Nat.sub_diag, skipn_all. reflexivity. }
    rewrite be_to_Z_big. reflexivity.
Qed.

Lemma element_parse cls con tag c b :
  element cls con tag c b ->
  exists h, b = h ++ c /\ h <> [] /\ forall r, parse_tlv (b ++ r) = Ok (mkTlv cls con tag h c [], r).
Proof.
  intros [lo Hc Ht Hl]. exists (identifier cls con tag :: lo). split; [reflexivity|]. split; [discriminate|]. intros r.
  unfold parse_tlv. change 11%nat with (S 10). cbn [parse_depth].
  rewrite <- app_comm_cons, parse_tag_identifier by assumption. cbn [rbind].
  rewrite <- app_assoc. rewrite (parse_length_octets _ _ (c ++ r) Hl). cbn [rbind].
  destruct (Z.ltb_spec (zlen (c ++ r)) (zlen c)) as [H|_].
  { unfold zlen in H. rewrite app_length in H. lia. }
  replace (ztake (zlen c) (c ++ r)) with c.
  2:{ rewrite ztake_firstn. unfold zlen. rewrite Nat2Z.id, firstn_app, Nat.sub_diag, firstn_all. cbn. rewrite app_nil_r. reflexivity. }
  replace (zskip (zlen c) (c ++ r)) with r.
  2:{ rewrite zskip_skipn by (unfold zlen; lia). unfold zlen. rewrite Nat2Z.id, skipn_app, Nat.sub_diag, skipn_all. reflexivity. }
  rewrite app_comm_cons, ztake_prefix. reflexivity.
Qed.

(** ** How values begin *)

Lemma id_eqb_spec a b : id_eqb a b = true <-> a = b.
Proof. destruct a, b. unfold id_eqb. cbn. rewrite Bool.andb_true_iff, !Z.eqb_eq. split; [intros [-> ->]; reflexivity|intros [= -> ->]; auto]. Qed.

Definition alt_ids : list (string * (asn * tagging)) -> option (list (Z * Z)) :=
  fix ids (l : list (string * (asn * tagging))) : option (list (Z * Z)) :=
    match l with
    | [] => Some []
    | (_, (x, y)) :: l' =>
        match first_ids x y, ids l' with
        | Some i, Some j => Some (i ++ j)
        | _, _ => None
        end
    end.

Lemma existsb_one t cls tag : existsb (id_eqb (t_class t, t_tag t)) [(cls, tag)] = true <-> (t_class t, t_tag t) = (cls, tag).
Proof. cbn [existsb]. rewrite Bool.orb_false_r. apply id_eqb_spec. Qed.

Fixpoint id_in_begins (a : asn) : forall tg t, id_in t (first_ids a tg) = true <-> begins a tg (t_class t, t_tag t).
Proof.
  intros tg t.
  destruct tg as [|n|n].
  2:{ replace (first_ids a (Implicit n)) with (Some [(2, n)]) by (destruct a; reflexivity). cbn [id_in]. rewrite existsb_one. split.
      - intros ->. constructor. - intros H. inversion H. reflexivity. }
  2:{ replace (first_ids a (Explicit n)) with (Some [(2, n)]) by (destruct a; reflexivity). cbn [id_in]. rewrite existsb_one. split.
      - intros ->. constructor. - intros H. inversion H. reflexivity. }
  destruct a as [tag|fs|c|c|alts|]; cbn [first_ids].
  - cbn [id_in]. rewrite existsb_one. split; [intros ->; constructor|intros H; inversion H; reflexivity].
  - cbn [id_in]. rewrite existsb_one. split; [intros ->; constructor|intros H; inversion H; reflexivity].
  - cbn [id_in]. rewrite existsb_one. split; [intros ->; constructor|intros H; inversion H; reflexivity].
  - cbn [id_in]. rewrite existsb_one. split; [intros ->; constructor|intros H; inversion H; reflexivity].
  - assert (K : id_in t (alt_ids alts) = true <-> exists n x y, In (n, (x, y)) alts /\ begins x y (t_class t, t_tag t)).
    { induction alts as [|[n [x y]] alts IH]; cbn [alt_ids].
      - cbn. split; [discriminate|]. intros (n & x & y & [] & _).
      - pose proof (id_in_begins x y t) as Hx. fold alt_ids in *. split.
        + intros H. destruct (id_in t (first_ids x y)) eqn:Q.
          * exists n, x, y. split; [left; reflexivity|]. apply Hx. reflexivity.
          * assert (Q' : id_in t (alt_ids alts) = true).
            { destruct (first_ids x y) as [i|]; [|discriminate Q]. destruct (alt_ids alts) as [j|]; [|reflexivity].
              cbn [id_in] in *. rewrite existsb_app, Q in H. exact H. }
            apply IH in Q'. destruct Q' as (n' & x' & y' & I & B). exists n', x', y'. split; [right; exact I|exact B].
        + intros (n' & x' & y' & [I|I] & B).
          * injection I as -> -> ->. apply Hx in B. destruct (first_ids x' y') as [i|]; [|reflexivity].
            destruct (alt_ids alts) as [j|]; [|reflexivity]. cbn [id_in] in *. rewrite existsb_app, B. reflexivity.
          * assert (Q' : id_in t (alt_ids alts) = true) by (apply IH; exists n', x', y'; split; assumption).
            destruct (first_ids x y) as [i|]; [|reflexivity].
            destruct (alt_ids alts) as [j|]; [|reflexivity]. cbn [id_in] in *. rewrite existsb_app, Q'. apply Bool.orb_true_r. }
    change (id_in t (alt_ids alts) = true <-> begins (AChoice alts) Untagged (t_class t, t_tag t)). rewrite K. split.
    + intros (n & x & y & I & B). econstructor; eassumption.
    + intros H. inversion H. subst. eauto.
  - cbn [id_in]. split; [constructor|reflexivity].
Qed.

(** ** Decoding, by parts *)

Definition decode_fields : list (string * (asn * (tagging * presence))) -> list tlv -> res (list (option aval)) :=
  fix go (fs : list (string * (asn * (tagging * presence)))) (l : list tlv) : res (list (option aval)) :=
    match fs with
    | [] => match l with [] => Ok [] | _ => value_error "Extra field encountered in sequence" end
    | (_, (x, (y, p))) :: fs' =>
        match l with
        | [] =>
            match p with
            | Required => value_error "Field is missing from structure"
            | _ => let? vs := go fs' [] in Ok (None :: vs)
            end
        | h :: l' =>
            if (match p with Required => true | _ => id_in h (first_ids x y) end)
            then let? v := decode x y h in let? vs := go fs' l' in Ok (Some v :: vs)
            else let? vs := go fs' l in Ok (None :: vs)
        end
    end.
Definition decode_all (c : asn) : list tlv -> res (list aval) :=
  fix all (l : list tlv) : res (list aval) :=
    match l with
    | [] => Ok []
    | h :: l' => let? v := decode c Untagged h in let? vs := all l' in Ok (v :: vs)
    end.
Definition decode_alts (u : tlv) : list (string * (asn * tagging)) -> res aval :=
  fix find (alts : list (string * (asn * tagging))) : res aval :=
    match alts with
    | [] => value_error "Error parsing choice"
    | (n, (x, y)) :: alts' =>
        if id_in u (first_ids x y) then let? v := decode x y u in Ok (VChoice n v)
        else find alts'
    end.
Lemma decode_seq fs tg t :
  decode (ASeq fs) tg t =
  (let? u := expect tg true 16 t in let? l := parse_all (t_contents u) in let? vs := decode_fields fs l in Ok (VSeq vs)).
Proof. reflexivity. Qed.
Lemma decode_seqof c tg t :
  decode (ASeqOf c) tg t =
  (let? u := expect tg true 16 t in let? l := parse_all (t_contents u) in let? vs := decode_all c l in Ok (VList vs)).
Proof. reflexivity. Qed.
Lemma decode_setof c tg t :
  decode (ASetOf c) tg t =
  (let? u := expect tg true 17 t in let? l := parse_all (t_contents u) in let? vs := decode_all c l in Ok (VList vs)).
Proof. reflexivity. Qed.
Lemma decode_choice alts tg t : decode (AChoice alts) tg t = (let? u := unwrap tg t in decode_alts u alts).
Proof. reflexivity. Qed.

Lemma parse_many_more : forall n b l m, parse_many n b = Ok l -> (n <= m)%nat -> parse_many m b = Ok l.
Proof.
  induction n as [|n IH]; intros b l m H L; destruct b as [|x b].
  - destruct m; exact H.
  - discriminate H.
  - destruct m; exact H.
  - destruct m as [|m]; [lia|]. cbn [parse_many] in *.
    destruct (parse_tlv (x :: b)) as [[t r]|] eqn:Q; cbn [rbind] in *; [|discriminate H].
    destruct (parse_many n r) as [l'|] eqn:Q'; cbn [rbind] in *; [|discriminate H].
    rewrite (IH _ _ m Q') by lia. exact H.
Qed.
Lemma parse_all_cons b c t l :
  b <> [] -> (forall r, parse_tlv (b ++ r) = Ok (t, r)) -> parse_all c = Ok l -> parse_all (b ++ c) = Ok (t :: l).
Proof.
  intros Nb Hb Hc. unfold parse_all in *. rewrite app_length.
  destruct b as [|x b]; [congruence|]. cbn [length Nat.add app parse_many].
  rewrite (app_comm_cons b c x), Hb. cbn [rbind].
  rewrite (parse_many_more _ _ _ (length b + length c) Hc) by lia. reflexivity.
Qed.

(** The tags around and on a value. *)
Lemma tagged_parse con tag c tg b :
  tagged con tag c tg b ->
  b <> [] /\ exists t, (forall r, parse_tlv (b ++ r) = Ok (t, r)) /\
    (exists u, expect tg con tag t = Ok u /\ t_contents u = c) /\
    match tg with Untagged => (t_class t, t_tag t) = (0, tag) | Implicit n | Explicit n => (t_class t, t_tag t) = (2, n) end.
Proof.
  intros [n b' E|tg' b1 b2 E O].
  - destruct (element_parse _ _ _ _ _ E) as (h & Eb & Nh & P).
    split; [rewrite Eb; destruct h; [congruence|discriminate]|]. eexists. split; [exact P|]. split; [|reflexivity].
    eexists. unfold expect. cbn. rewrite Z.eqb_refl, Bool.eqb_reflx. cbn. split; reflexivity.
  - destruct (element_parse _ _ _ _ _ E) as (h & Eb & Nh & P). destruct O as [b0|n b0 b0' O].
    + split; [rewrite Eb; destruct h; [congruence|discriminate]|]. eexists. split; [exact P|]. split; [|reflexivity].
      eexists. unfold expect. cbn. rewrite Z.eqb_refl, Bool.eqb_reflx. cbn. split; reflexivity.
    + destruct (element_parse _ _ _ _ _ O) as (h' & Eb' & Nh' & P').
      split; [rewrite Eb'; destruct h'; [congruence|discriminate]|]. eexists. split; [exact P'|]. split; [|reflexivity].
      specialize (P []). rewrite app_nil_r in P.
      eexists. unfold expect, unwrap. cbn [t_class t_cons t_tag t_contents]. rewrite !Z.eqb_refl. cbn [negb andb]. rewrite P. cbn [rbind].
      cbn -[Z.eqb parse_tlv]. rewrite !Z.eqb_refl, Bool.eqb_reflx. split; reflexivity.
Qed.
Lemma outer_parse tg b b' t :
  outer tg b b' -> b <> [] -> (forall r, parse_tlv (b ++ r) = Ok (t, r)) ->
  b' <> [] /\ exists t', (forall r, parse_tlv (b' ++ r) = Ok (t', r)) /\ unwrap tg t' = Ok t /\
    match tg with Untagged => t' = t | Implicit _ => False | Explicit n => (t_class t', t_tag t') = (2, n) end.
Proof.
  intros [b1|n b1 b2 O] N P.
  - split; [exact N|]. exists t. repeat split. exact P.
  - destruct (element_parse _ _ _ _ _ O) as (h & Eb & Nh & P').
    split; [rewrite Eb; destruct h; [congruence|discriminate]|]. eexists. split; [exact P'|]. split; [|reflexivity].
    unfold unwrap. cbn [t_class t_cons t_tag t_contents]. rewrite !Z.eqb_refl. cbn [negb andb].
    specialize (P []). rewrite app_nil_r in P. rewrite P. reflexivity.
Qed.
Lemma undeclared_parse t : undeclared t -> tlv_dump t <> [] /\ forall r, parse_tlv (tlv_dump t ++ r) = Ok (t, r).
Proof.
  intros [T E]. destruct (element_parse _ _ _ _ _ E) as (h & Eb & Nh & P).
  assert (h = t_header t).
  { unfold tlv_dump in Eb. rewrite T, app_nil_r in Eb. apply app_inv_tail in Eb. symmetry. exact Eb. }
  subst h. split; [rewrite Eb; destruct (t_header t); [congruence|discriminate]|].
  intros r. rewrite P. destruct t. cbn in *. subst. reflexivity.
Qed.

Lemma decode_alts_in n x y v u : forall alts,
  distinct_alts alts -> In (n, (x, y)) alts -> decode x y u = Ok v -> begins x y (t_class u, t_tag u) ->
  decode_alts u alts = Ok (VChoice n v).
Proof.
  induction alts as [|[n' [x' y']] alts IH]; intros D I H B; [destruct I|]. cbn [decode_alts]. inversion D; subst.
  destruct I as [I|I].
  - injection I as -> -> ->. rewrite (proj2 (id_in_begins x y u) B). rewrite H. reflexivity.
  - destruct (id_in u (first_ids x' y')) eqn:Q.
    + exfalso. apply id_in_begins in Q. eapply H6; eassumption.
    + apply IH; assumption.
Qed.

Lemma distinct_fields_inv n x tg p fs : distinct_fields ((n, (x, (tg, p))) :: fs) ->
  distinct x /\ distinct_fields fs /\ (p <> Required -> forall i, begins x tg i -> ~ follows fs i).
Proof. intros H. inversion H. auto. Qed.

Lemma decode_encodes :
  (forall a tg v b, encodes a tg v b -> distinct a ->
     b <> [] /\ exists t, (forall r, parse_tlv (b ++ r) = Ok (t, r)) /\ decode a tg t = Ok v /\ begins a tg (t_class t, t_tag t)) /\
  (forall fs vs c, encodes_fields fs vs c -> distinct_fields fs ->
     exists l, parse_all c = Ok l /\ decode_fields fs l = Ok vs /\
       match l with [] => True | t :: _ => follows fs (t_class t, t_tag t) end) /\
  (forall x vs c, encodes_all x vs c -> distinct x -> exists l, parse_all c = Ok l /\ decode_all x l = Ok vs).
Proof.
  apply encodes_ind3.
  - intros tag tg c b T _. destruct (tagged_parse _ _ _ _ _ T) as (N & t & P & (u & U & C) & I). split; [exact N|].
    exists t. split; [exact P|]. split.
    + cbn [decode]. rewrite U. cbn [rbind]. rewrite C. reflexivity.
    + destruct tg; rewrite I; constructor.
  - intros fs vs c tg b _ IH T D. inversion D; subst. destruct (IH H0) as (l & L & F & _).
    destruct (tagged_parse _ _ _ _ _ T) as (N & t & P & (u & U & C) & I). split; [exact N|].
    exists t. split; [exact P|]. split.
    + rewrite decode_seq, U. cbn [rbind]. rewrite C, L. cbn [rbind]. rewrite F. reflexivity.
    + destruct tg; rewrite I; constructor.
  - intros x vs c tg b _ IH T D. inversion D; subst. destruct (IH H0) as (l & L & F).
    destruct (tagged_parse _ _ _ _ _ T) as (N & t & P & (u & U & C) & I). split; [exact N|].
    exists t. split; [exact P|]. split.
    + rewrite decode_seqof, U. cbn [rbind]. rewrite C, L. cbn [rbind]. rewrite F. reflexivity.
    + destruct tg; rewrite I; constructor.
  - intros x vs c tg b _ IH T D. inversion D; subst. destruct (IH H0) as (l & L & F).
    destruct (tagged_parse _ _ _ _ _ T) as (N & t & P & (u & U & C) & I). split; [exact N|].
    exists t. split; [exact P|]. split.
    + rewrite decode_setof, U. cbn [rbind]. rewrite C, L. cbn [rbind]. rewrite F. reflexivity.
    + destruct tg; rewrite I; constructor.
  - intros alts n x y v tg b b' I _ IH O D. inversion D; subst.
    assert (Dx : distinct x).
    { clear - I H0. induction alts as [|[n' [x' y']] alts IH]; [destruct I|]. inversion H0; subst.
      destruct I as [I|I]; [injection I as -> -> ->; assumption|apply IH; assumption]. }
    destruct (IH Dx) as (N & t & P & Dt & B).
    destruct (outer_parse _ _ _ _ O N P) as (N' & t' & P' & U & J). split; [exact N'|].
    exists t'. split; [exact P'|]. split.
    + rewrite decode_choice, U. cbn [rbind]. eapply decode_alts_in; eassumption.
    + destruct tg; [|destruct J|rewrite J; constructor]. subst t'. econstructor; eassumption.
  - intros t tg b Un O _. destruct (undeclared_parse t Un) as (N & P).
    destruct (outer_parse _ _ _ _ O N P) as (N' & t' & P' & U & J). split; [exact N'|].
    exists t'. split; [exact P'|]. split.
    + cbn [decode]. rewrite U. reflexivity.
    + destruct tg; [constructor|destruct J|rewrite J; constructor].
  - intros t n Un C T _. destruct (undeclared_parse t Un) as (N & P). split; [exact N|].
    exists t. split; [exact P|]. split; [reflexivity|]. rewrite C, T. constructor.
  - intros _. exists []. repeat split.
  - intros n x tg p fs vs c Np _ IH D. destruct (distinct_fields_inv _ _ _ _ _ D) as (D1 & D2 & D3). destruct (IH D2) as (l & L & F & Fo).
    exists l. split; [exact L|]. destruct l as [|h l].
    + split; [|exact I]. cbn [decode_fields]. fold decode_fields. rewrite F. cbn [rbind]. destruct p; [congruence|reflexivity|reflexivity].
    + split; [|apply FollowsLater; assumption]. cbn [decode_fields]. fold decode_fields.
      assert (Q : id_in h (first_ids x tg) = false).
      { destruct (id_in h (first_ids x tg)) eqn:Q; [|reflexivity]. exfalso. apply id_in_begins in Q. exact (D3 Np _ Q Fo). }
      rewrite Q. destruct p; [congruence| |]; rewrite F; reflexivity.
  - intros n x tg p fs v vs b c _ IHx _ IH D. destruct (distinct_fields_inv _ _ _ _ _ D) as (D1 & D2 & D3). destruct (IHx D1) as (N & t & P & Dt & B).
    destruct (IH D2) as (l & L & F & _). exists (t :: l). split; [apply parse_all_cons; assumption|].
    split; [|apply FollowsHere; exact B]. cbn [decode_fields]. fold decode_fields.
    rewrite (proj2 (id_in_begins x tg t) B), Dt. cbn [rbind]. rewrite F. cbn [rbind]. destruct p; reflexivity.
  - intros x _. exists []. split; reflexivity.
  - intros x v vs b c _ IHx _ IH D. destruct (IHx D) as (N & t & P & Dt & _). destruct (IH D) as (l & L & F).
    exists (t :: l). split; [apply parse_all_cons; assumption|]. cbn [decode_all]. fold decode_all. rewrite Dt. cbn [rbind].
    rewrite F. reflexivity.
Qed.

Theorem load_encodes a v b rest : distinct a -> encodes a Untagged v b -> load a (b ++ rest) = Ok v.
Proof.
  intros D H. destruct (proj1 decode_encodes _ _ _ _ H D) as (_ & t & P & Dt & _). unfold load. rewrite P. exact Dt.
Qed.

(** ** Declared structures *)

Ltac told :=
  repeat match goal with
  | H : ?x <> ?x |- _ => exfalso; apply H; reflexivity
  | H : In _ [] |- _ => destruct H
  | H : In (_, (_, _)) (_ :: _) |- _ => destruct H as [H|H]; [injection H as ? ? ?; subst|]
  | H : follows _ _ |- _ => inversion H; clear H; subst
  | H : begins _ _ _ |- _ => inversion H; clear H; subst
  end.
Lemma all_distinct : Forall distinct declarations.
Proof.
  let l := eval cbv in declarations in change (Forall distinct l).
  repeat match goal with
  | |- Forall _ _ => constructor
  | |- distinct _ => constructor
  | |- distinct_fields _ => constructor
  | |- distinct_alts _ => constructor
  end.
  all: intros; intro; told.
Qed.

(** ** Reading fields on demand *)

Inductive aligned : list (string * (asn * (tagging * presence))) -> list (option aval) -> dict (option tlv) -> Prop :=
| AlignedNil : aligned [] [] []
| AlignedAbsent n x tg p fs vs d : aligned fs vs d -> aligned ((n, (x, (tg, p))) :: fs) (None :: vs) ((n, None) :: d)
| AlignedPresent n x tg p fs vs d v t :
    decode x tg t = Ok v -> aligned fs vs d -> aligned ((n, (x, (tg, p))) :: fs) (Some v :: vs) ((n, Some t) :: d).

Lemma fields_aligned : forall fs l vs, decode_fields fs l = Ok vs -> exists d, match_fields fs l = Ok d /\ aligned fs vs d.
Proof.
  induction fs as [|[n [x [tg p]]] fs IH]; intros l vs H; cbn [decode_fields] in H; fold decode_fields in H.
  - destruct l; [|discriminate H]. injection H as <-. exists []. split; [reflexivity|constructor].
  - destruct l as [|t l].
    + destruct p; [discriminate H| |];
        (destruct (decode_fields fs []) as [ws|] eqn:Q; cbn [rbind] in H; [|discriminate H]; injection H as <-;
         destruct (IH _ _ Q) as (d & M & Al); exists ((n, None) :: d); cbn [match_fields]; rewrite M; split; [reflexivity|constructor; exact Al]).
    + destruct (match p with Required => true | _ => id_in t (first_ids x tg) end) eqn:G.
      * destruct (decode x tg t) as [v|] eqn:Dv; cbn [rbind] in H; [|discriminate H].
        destruct (decode_fields fs l) as [ws|] eqn:Q; cbn [rbind] in H; [|discriminate H]. injection H as <-.
        destruct (IH _ _ Q) as (d & M & Al). exists ((n, Some t) :: d). split; [|constructor; assumption].
        cbn [match_fields]. destruct p; [|rewrite G|rewrite G]; rewrite M; reflexivity.
      * destruct (decode_fields fs (t :: l)) as [ws|] eqn:Q; cbn [rbind] in H; [|discriminate H]. injection H as <-.
        destruct (IH _ _ Q) as (d & M & Al). exists ((n, None) :: d). split; [|constructor; assumption].
        cbn [match_fields]. destruct p; [discriminate G|rewrite G|rewrite G]; rewrite M; reflexivity.
Qed.

Lemma decode_children fs tg t v : decode (ASeq fs) tg t = Ok v ->
  exists b vs d, v = VSeq vs /\ contents_of (ASeq fs) tg t = Ok b /\ children (ASeq fs) b = Ok d /\ aligned fs vs d.
Proof.
  rewrite decode_seq. intros H. cbn [contents_of].
  destruct (expect tg true 16 t) as [u|]; cbn [rbind] in *; [|discriminate H].
  destruct (parse_all (t_contents u)) as [l|] eqn:P; cbn [rbind] in *; [|discriminate H].
  destruct (decode_fields fs l) as [vs|] eqn:F; cbn [rbind] in *; [|discriminate H]. injection H as <-.
  destruct (fields_aligned _ _ _ F) as (d & M & Al). exists (t_contents u), vs, d.
  split; [reflexivity|]. split; [reflexivity|]. split; [|exact Al]. unfold children. rewrite P. exact M.
Qed.
Lemma encodes_children fs vs c : distinct_fields fs -> encodes_fields fs vs c ->
  exists d, children (ASeq fs) c = Ok d /\ aligned fs vs d.
Proof.
  intros D H. destruct (proj1 (proj2 decode_encodes) _ _ _ H D) as (l & P & F & _).
  destruct (fields_aligned _ _ _ F) as (d & M & Al). exists d. split; [|exact Al]. unfold children. rewrite P. exact M.
Qed.

Lemma aligned_get i n x tg p o : forall fs vs d,
  aligned fs vs d -> NoDup (map fst fs) -> nth_error fs i = Some (n, (x, (tg, p))) -> nth_error vs i = Some o ->
  dict_get n fs = Some (x, (tg, p)) /\
  match o with
  | None => dict_get n d = Some None
  | Some v => exists t, dict_get n d = Some (Some t) /\ decode x tg t = Ok v
  end.
Proof.
  revert i. intros i fs vs d Al. revert i.
  induction Al as [|n' x' tg' p' fs vs d Al IH|n' x' tg' p' fs vs d v' t' Dt Al IH]; intros i ND Hf Hv.
  - destruct i; discriminate Hf.
  - cbn [map] in ND. inversion ND; subst. destruct i as [|i]; cbn [nth_error] in *.
    + injection Hf as -> -> -> ->. injection Hv as <-. cbn [dict_get]. rewrite String.eqb_refl. split; reflexivity.
    + destruct (IH i H2 Hf Hv) as [G1 G2].
      assert (Ne : String.eqb n n' = false).
      { apply String.eqb_neq. intros ->. apply H1. apply in_map_iff. exists (n', (x, (tg, p))). split; [reflexivity|].
        eapply nth_error_In. exact Hf. }
      cbn [dict_get]. rewrite Ne. split; assumption.
  - cbn [map] in ND. inversion ND; subst. destruct i as [|i]; cbn [nth_error] in *.
    + injection Hf as -> -> -> ->. injection Hv as <-. cbn [dict_get]. rewrite String.eqb_refl. split; [reflexivity|].
      exists t'. split; [reflexivity|exact Dt].
    + destruct (IH i H2 Hf Hv) as [G1 G2].
      assert (Ne : String.eqb n n' = false).
      { apply String.eqb_neq. intros ->. apply H1. apply in_map_iff. exists (n', (x, (tg, p))). split; [reflexivity|].
        eapply nth_error_In. exact Hf. }
      cbn [dict_get]. rewrite Ne. split; assumption.
Qed.

Lemma aligned_read {A} i n x tg p o fs vs d (k : asn -> tagging -> tlv -> res A) :
  aligned fs vs d -> NoDup (map fst fs) -> nth_error fs i = Some (n, (x, (tg, p))) -> nth_error vs i = Some o ->
  match o with
  | None => read_field (ASeq fs) (Ok d) n k = Ok None
  | Some v => exists t, decode x tg t = Ok v /\
                read_field (ASeq fs) (Ok d) n k = (let? y := k x tg t in Ok (Some y)) /\
                read (ASeq fs) (Ok d) n k = k x tg t
  end.
Proof.
  intros Al ND Hf Hv. destruct (aligned_get _ _ _ _ _ _ _ _ _ Al ND Hf Hv) as [G1 G2].
  unfold read, read_field. cbn [rbind seq_fields].
  destruct o as [v|].
  - destruct G2 as (t & G2 & Dt). exists t. split; [exact Dt|]. rewrite G2, G1. split; [reflexivity|].
    destruct (k x tg t); reflexivity.
  - rewrite G2. reflexivity.
Qed.
Theorem field_encodes {A} i n x tg p o fs vs c (k : asn -> tagging -> tlv -> res A) :
  distinct_fields fs -> NoDup (map fst fs) -> encodes_fields fs vs c ->
  nth_error fs i = Some (n, (x, (tg, p))) -> nth_error vs i = Some o ->
  match o with
  | None => read_field (ASeq fs) (children (ASeq fs) c) n k = Ok None
  | Some v => exists t, decode x tg t = Ok v /\
                read_field (ASeq fs) (children (ASeq fs) c) n k = (let? y := k x tg t in Ok (Some y))
  end.
Proof.
  intros D ND H Hf Hv. destruct (encodes_children _ _ _ D H) as (d & C & Al). rewrite C.
  pose proof (aligned_read _ _ _ _ _ _ _ _ _ k Al ND Hf Hv) as R. destruct o; [|exact R].
  destruct R as (t & R1 & R2 & _). exists t. split; assumption.
Qed.
