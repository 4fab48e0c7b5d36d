(** Proofs that certificates are read as they are written; statements in PropertiesRead.v. *)
From Coq Require Import Lia ZifyBool ZifyNat.
From Verif Require Import Base Monad ModelX509 ModelPkcs7 ModelLazy ModelDer ModelSpc ModelDecode SpecAsn ProofsDer ProofsAsn ProofsAsn2.
From Verif Require Import ProofsLazy2 SpecPrim SpecTime ProofsPrim4 SpecBer SpecStl ProofsStl SpecRead ProofsBer2.

(** ** Reading fields of a value that is declared otherwise *)

Section Fields.
  Context {A : Type} (i : nat) (n : string) (x : asn) (tg : tagging) (p : presence) (o : option aval).
  Context (fs fs' : list (string * (asn * (tagging * presence)))) (vs : list (option aval)) (d : dict (option tlv)).
  Context (x' : asn) (tg' : tagging) (p' : presence) (k : asn -> tagging -> tlv -> res A).
  Hypothesis (Al : aligned fs vs d) (ND : NoDup (map fst fs)) (Hf : nth_error fs i = Some (n, (x, (tg, p)))).
  Hypothesis (Hv : nth_error vs i = Some o) (Hf' : dict_get n fs' = Some (x', (tg', p'))).

  Lemma field_at :
    match o with
    | None => read_field (ASeq fs') (Ok d) n k = Ok None
    | Some v => exists t, decode x tg t = Ok v /\
                  read_field (ASeq fs') (Ok d) n k = (let? y := k x' tg' t in Ok (Some y)) /\
                  read (ASeq fs') (Ok d) n k = k x' tg' t
    end.
  Proof using Al ND Hf Hv Hf'.
    destruct (aligned_get _ _ _ _ _ _ _ _ _ Al ND Hf Hv) as [_ G2]. destruct o as [v|].
    - destruct G2 as (t & G2 & Dt). exists t. split; [exact Dt|]. exact (read_at (ASeq fs') _ _ _ _ _ _ k G2 Hf').
    - exact (read_absent (ASeq fs') _ _ k G2).
  Qed.

  Lemma read_iff (P : aval -> A -> Prop) :
    (forall t v, decode x tg t = Ok v -> forall y, k x' tg' t = Ok y <-> P v y) ->
    forall y, read (ASeq fs') (Ok d) n k = Ok y <-> exists v, o = Some v /\ P v y.
  Proof using Al ND Hf Hv Hf'.
    intros H y. pose proof field_at as F. destruct o as [v|].
    - destruct F as (t & Dt & _ & R). rewrite R, (H _ _ Dt). split; [intros Q; exists v; split; [reflexivity|exact Q]|].
      intros (w & E & Q). injection E as <-. exact Q.
    - unfold read. rewrite F. cbn [rbind]. split; [intros Q; discriminate Q|]. intros (w & E & _). discriminate E.
  Qed.

  Lemma field_iff (P : aval -> A -> Prop) :
    (forall t v, decode x tg t = Ok v -> forall y, k x' tg' t = Ok y <-> P v y) ->
    forall y, read_field (ASeq fs') (Ok d) n k = Ok y <-> maybe P o y.
  Proof using Al ND Hf Hv Hf'.
    intros H y. pose proof field_at as F. destruct o as [v|].
    - destruct F as (t & Dt & R & _). rewrite R. cbn [maybe]. destruct y as [y|].
      + rewrite <- (H _ _ Dt). destruct (k x' tg' t) as [z|e]; cbn [rbind]; split; intros Q; try discriminate Q; injection Q as <-; reflexivity.
      + destruct (k x' tg' t) as [z|e]; cbn [rbind]; split; intros Q; [discriminate Q|contradiction Q|discriminate Q|contradiction Q].
    - rewrite F. cbn [maybe]. destruct y; split; intros Q; [discriminate Q|contradiction Q|exact I|reflexivity].
  Qed.
End Fields.

(** Which value belongs to which field depends on the names and on what the optional ones begin with. *)
Fixpoint alike (fs fs' : list (string * (asn * (tagging * presence)))) : Prop :=
  match fs, fs' with
  | [], [] => True
  | (n, (x, (tg, p))) :: fs, (n', (x', (tg', p'))) :: fs' =>
      n = n' /\ p = p' /\ match p with Required => True | _ => first_ids x tg = first_ids x' tg' end /\ alike fs fs'
  | _, _ => False
  end.
Lemma match_fields_alike : forall fs fs', alike fs fs' -> forall l, match_fields fs l = match_fields fs' l.
Proof.
  induction fs as [|[n [x [tg p]]] fs IH]; intros [|[n' [x' [tg' p']]] fs'] H l; try contradiction H; [reflexivity|].
  destruct H as (<- & <- & E & F). specialize (IH _ F). destruct p, l as [|t l]; cbn [match_fields]; rewrite ?IH, ?E; reflexivity.
Qed.
Lemma children_alike fs fs' b : alike fs fs' -> children (ASeq fs) b = children (ASeq fs') b.
Proof. intros F. unfold children. destruct (parse_all b) as [l|]; cbn [rbind]; [|reflexivity]. exact (match_fields_alike _ _ F l). Qed.

Lemma read_missing {A} a kids n (k : asn -> tagging -> tlv -> res A) : read_field a kids n k = Ok None ->
  read a kids n k = value_error "Field is missing from structure".
Proof. unfold read. intros ->. reflexivity. Qed.

Lemma aligned_length fs vs d : aligned fs vs d -> length vs = length fs.
Proof. intros H. induction H; cbn [length]; congruence. Qed.

Lemma map_res_iff {A B C} (f : A -> res B) (D : A -> C -> Prop) (P : C -> B -> Prop) :
  (forall x v, D x v -> forall y, f x = Ok y <-> P v y) ->
  forall l vs, Forall2 D l vs -> forall ys, map_res f l = Ok ys <-> Forall2 P vs ys.
Proof.
  intros H l vs F. induction F as [|x v l vs Dx F IH]; intros ys; cbn [map_res].
  - split; intros Q; [injection Q as <-; constructor|inversion Q; reflexivity].
  - split.
    + intros Q. destruct (f x) as [y|] eqn:E; cbn [rbind] in Q; [|discriminate Q].
      destruct (map_res f l) as [zs|] eqn:M; cbn [rbind] in Q; [|discriminate Q]. injection Q as <-.
      constructor; [apply (H _ _ Dx); exact E|apply IH; reflexivity].
    + intros Q. inversion Q as [|v' y vs' zs Py Pz E1 E2]; subst. rewrite (proj2 (H _ _ Dx _) Py). cbn [rbind].
      rewrite (proj2 (IH _) Pz). reflexivity.
Qed.

(** ** Names *)

Lemma prim_iff tag tg t v : decode (APrim tag) tg t = Ok v -> exists b, v = VPrim b /\ contents_of (APrim tag) tg t = Ok b.
Proof.
  cbn [decode contents_of]. destruct (expect tg false tag t) as [u|]; cbn [rbind]; [|intros H; discriminate H].
  intros H. injection H as <-. exists (t_contents u). split; reflexivity.
Qed.
Lemma any_iff tg t v : decode AAny tg t = Ok v -> exists u, v = VAny u /\ unwrap tg t = Ok u.
Proof.
  cbn [decode]. destruct (unwrap tg t) as [u|]; cbn [rbind]; [|intros H; discriminate H].
  intros H. injection H as <-. exists u. split; reflexivity.
Qed.

Lemma value_iff oid t v : read_value oid t = Ok v <-> value_means oid t v.
Proof.
  unfold read_value, value_means. destruct (String.eqb oid "2.5.4.45") eqn:E.
  - apply String.eqb_eq in E. unfold expect. cbn [unwrap rbind].
    destruct (t_class t =? 0) eqn:E1, (Bool.eqb (t_cons t) false) eqn:E2, (t_tag t =? 3) eqn:E3; cbn [andb rbind].
    all: rewrite ?Z.eqb_eq, ?Z.eqb_neq in *; rewrite ?Bool.eqb_true_iff, ?Bool.eqb_false_iff in *.
    all: try (split; [intros Q; discriminate Q|intros (Q1 & Q2 & [(_ & Q3 & _)|(Q3 & _)]); congruence]).
    split; [intros Q; injection Q as <-; split; [exact E1|]; split; [exact E2|]; left; split; [exact E|]; split; [exact E3|reflexivity]|].
    intros (_ & _ & [(_ & _ & ->)|(Q & _)]); [reflexivity|contradiction].
  - apply String.eqb_neq in E. destruct (t_class t =? 0) eqn:E1; cbn [andb negb].
    + apply Z.eqb_eq in E1. destruct (t_cons t) eqn:E2; cbn [negb].
      * split; [intros Q; discriminate Q|intros (_ & Q & _); discriminate Q].
      * destruct (text (t_tag t) (t_contents t)) as [s|e] eqn:Qt; cbn [rbind]; split.
        -- intros Q. injection Q as <-. split; [exact E1|]. split; [reflexivity|]. right. split; [exact E|]. exists s. split; [apply text_is; exact Qt|reflexivity].
        -- intros (_ & _ & [(Q & _)|(_ & s' & Q & ->)]); [contradiction|]. apply text_is in Q. rewrite Qt in Q. injection Q as <-. reflexivity.
        -- intros Q. discriminate Q.
        -- intros (_ & _ & [(Q & _)|(_ & s' & Q & _)]); [contradiction|apply text_is in Q; rewrite Qt in Q; discriminate Q].
    + apply Z.eqb_neq in E1. split; [intros Q; discriminate Q|intros (Q & _); contradiction].
Qed.

Lemma ava_iff t v : decode X509Attribute Untagged t = Ok v -> forall x, read_ava t = Ok x <-> ava_means v x.
Proof.
  intros H x. unfold X509Attribute in H. destruct (decode_children _ _ _ _ H) as (b & vs & d & -> & C & K & Al).
  pose proof (aligned_length _ _ _ Al) as L. destruct vs as [|o1 [|o2 [|o3 vs]]]; try discriminate L. clear L.
  unfold read_ava. change (contents_of NameTypeAndValue Untagged t) with (contents_of X509Attribute Untagged t).
  unfold X509Attribute. rewrite C. cbn [rbind]. change (children NameTypeAndValue b) with (children X509Attribute b).
  unfold X509Attribute. rewrite K. unfold NameTypeAndValue.
  pose proof (field_at 0 _ _ _ _ _ _ (seq_fields NameTypeAndValue) _ _ _ _ _
    (fun a tg t => let? b := contents_of a tg t in Ok (dotted b)) Al ltac:(names) eq_refl eq_refl eq_refl) as F1.
  cbn [seq_fields NameTypeAndValue] in F1. unfold ava_means.
  destruct o1 as [v1|].
  - destruct F1 as (t1 & D1 & _ & R1). rewrite R1. destruct (prim_iff _ _ _ _ D1) as (oid & -> & C1).
    unfold aObjectIdentifier. rewrite C1. cbn [rbind].
    pose proof (read_iff 1 _ _ _ _ _ _ (seq_fields NameTypeAndValue) _ _ _ _ _
      (fun _ _ t => read_value (dotted oid) t) Al ltac:(names) eq_refl eq_refl eq_refl
      (fun v y => exists t, v = VAny t /\ value_means (dotted oid) t y)) as F2.
    cbn [seq_fields NameTypeAndValue] in F2. unfold aObjectIdentifier in F2.
    assert (F3 : forall y, read (ASeq [field "type" (APrim 6); field "value" AAny]) (Ok d) "value"
                             (fun _ _ t => read_value (dotted oid) t) = Ok y <->
                           exists v, o2 = Some v /\ exists t, v = VAny t /\ value_means (dotted oid) t y).
    { apply F2. intros t2 v2 D2 y. destruct (any_iff _ _ _ D2) as (u & -> & U). injection U as <-.
      rewrite value_iff. split; [intros Q; exists t2; split; [reflexivity|exact Q]|]. intros (w & E & Q). injection E as <-. exact Q. }
    clear F2. destruct (read _ (Ok d) "value" _) as [y|e]; cbn [rbind].
    + destruct (proj1 (F3 y) eq_refl) as (v2 & -> & t2 & -> & V). split.
      * intros Q. injection Q as <-. exists oid, t2. split; [reflexivity|]. rewrite identifier_is. split; [reflexivity|exact V].
      * intros (oid' & t' & E & Q1 & Q2). injection E as <- <-. rewrite identifier_is in Q1, Q2. destruct x as [xo xv]. cbn [a_oid a_val] in *. subst xo.
        assert (Ok y = Ok xv) as Q by (apply F3; exists (VAny t2); split; [reflexivity|]; exists t2; split; [reflexivity|exact Q2]).
        injection Q as ->. reflexivity.
    + split; [intros Q; discriminate Q|]. intros (oid' & t' & E & Q1 & Q2). injection E as <- ->. rewrite identifier_is in Q2. exfalso.
      assert (Err e = Ok (a_val x)) as Q by (apply F3; exists (VAny t'); split; [reflexivity|]; exists t'; split; [reflexivity|exact Q2]).
      discriminate Q.
  - rewrite (read_missing _ _ _ _ F1). cbn [rbind]. split; [intros Q; discriminate Q|]. intros (oid & t' & E & _). discriminate E.
Qed.

Lemma rdn_iff t v : decode (ASetOf X509Attribute) Untagged t = Ok v -> forall x, read_rdn t = Ok x <-> rdn_means v x.
Proof.
  intros H x. destruct (setof_items _ _ _ _ H) as (ts & vs & -> & I & F). unfold read_rdn.
  change (items_of (ASetOf NameTypeAndValue) Untagged t) with (items_of (ASetOf X509Attribute) Untagged t). rewrite I. cbn [rbind].
  pose proof (map_res_iff read_ava _ ava_means ava_iff _ _ F) as M. unfold rdn_means.
  destruct (map_res read_ava ts) as [ys|e]; cbn [rbind].
  - pose proof (proj1 (M ys) eq_refl) as G. split.
    + intros Q. destruct ys as [|y ys]; [discriminate Q|]. injection Q as <-. exists vs. split; [reflexivity|exact G].
    + intros (l & E & Q). injection E as <-. apply M in Q. injection Q as ->. destruct x. reflexivity.
  - split; [intros Q; discriminate Q|]. intros (l & E & Q). injection E as <-. apply M in Q. discriminate Q.
Qed.
Lemma name_iff tg t v : decode X509Name tg t = Ok v -> forall x, read_name Name tg t = Ok x <-> name_means v x.
Proof.
  intros H x. unfold X509Name in H. destruct (seqof_items _ _ _ _ H) as (ts & vs & -> & I & F). unfold read_name.
  change (items_of Name tg t) with (items_of (ASeqOf (ASetOf X509Attribute)) tg t). rewrite I. cbn [rbind].
  rewrite (map_res_iff read_rdn _ rdn_means rdn_iff _ _ F). unfold name_means. split; [intros Q; exists vs; split; [reflexivity|exact Q]|].
  intros (l & E & Q). injection E as <-. exact Q.
Qed.

Lemma time_iff tg t v : decode X509Time tg t = Ok v -> forall z, read_time Time tg t = Ok z <-> time_means v z.
Proof.
  intros H z. split; [|exact (time_decode tg t v z H)]. intros R. unfold time_means.
  change X509Time with Time in H. unfold Time in *. rewrite decode_choice in H. unfold read_time, choice_of in R.
  destruct (unwrap tg t) as [u|]; cbn [rbind] in *; [|discriminate H].
  cbn [decode_alts find_alt] in *.
  destruct (id_in u (first_ids (APrim 23) Untagged)).
  - destruct (decode (APrim 23) Untagged u) as [w|] eqn:D; cbn [rbind] in H; [|discriminate H]. injection H as <-.
    destruct (prim_iff _ _ _ _ D) as (b & -> & C). rewrite C in R. exists "utc_time", b. split; [reflexivity|apply time_is; exact R].
  - destruct (id_in u (first_ids (APrim 24) Untagged)); [|discriminate H].
    destruct (decode (APrim 24) Untagged u) as [w|] eqn:D; cbn [rbind] in H; [|discriminate H]. injection H as <-.
    destruct (prim_iff _ _ _ _ D) as (b & -> & C). rewrite C in R. exists "general_time", b. split; [reflexivity|apply time_is; exact R].
Qed.

Lemma validity_iff tg t v : decode X509Validity tg t = Ok v ->
  exists b d, contents_of Validity tg t = Ok b /\ children Validity b = Ok d /\
    forall x y, read Validity (Ok d) "not_before" read_time = Ok x /\ read Validity (Ok d) "not_after" read_time = Ok y <->
                validity_means v x y.
Proof.
  intros H. unfold X509Validity in H. destruct (decode_children _ _ _ _ H) as (b & vs & d & -> & C & K & Al).
  pose proof (aligned_length _ _ _ Al) as L. destruct vs as [|o1 [|o2 [|o3 vs]]]; try discriminate L. clear L.
  exists b, d. split; [exact C|]. split; [exact K|]. intros x y. unfold Validity.
  rewrite (read_iff 0 _ _ _ _ _ _ (seq_fields Validity) _ _ _ _ _ read_time Al ltac:(names) eq_refl eq_refl eq_refl time_means (time_iff _)).
  rewrite (read_iff 1 _ _ _ _ _ _ (seq_fields Validity) _ _ _ _ _ read_time Al ltac:(names) eq_refl eq_refl eq_refl time_means (time_iff _)).
  unfold validity_means. split.
  - intros ((v1 & -> & Q1) & (v2 & -> & Q2)). exists v1, v2. split; [reflexivity|]. split; assumption.
  - intros (v1 & v2 & E & Q1 & Q2). injection E as -> ->. split; [exists v1|exists v2]; split; auto.
Qed.

(** ** Keys *)

Lemma parameters_iff t p : read_parameters t = Ok p <->
  (universal t 5 /\ p = PNone \/ universal t 6 /\ p = PStr (oid_text (t_contents t)) \/
   ~ universal t 5 /\ ~ universal t 6 /\ p = PDict (as_string (latin1 (tlv_dump t)))).
Proof.
  rewrite identifier_is. unfold read_parameters, universal. destruct (t_class t =? 0) eqn:E1; cbn [andb].
  - apply Z.eqb_eq in E1. destruct (t_tag t =? 5) eqn:E2; [|destruct (t_tag t =? 6) eqn:E3].
    + apply Z.eqb_eq in E2. split; [intros Q; injection Q as <-; auto|]. intros [(_ & ->)|[((_ & Q) & _)|(Q & _)]]; [reflexivity| |exfalso; auto]. rewrite Q in E2. discriminate E2.
    + apply Z.eqb_eq in E3. apply Z.eqb_neq in E2. split; [intros Q; injection Q as <-; auto|]. intros [((_ & Q) & _)|[(_ & ->)|(_ & Q & _)]]; [contradiction|reflexivity|exfalso; auto].
    + apply Z.eqb_neq in E2, E3. split.
      * intros Q. injection Q as <-. right. right. split; [intros [_ Q]; contradiction|]. split; [intros [_ Q]; contradiction|reflexivity].
      * intros [((_ & Q) & _)|[((_ & Q) & _)|(_ & _ & ->)]]; [contradiction|contradiction|reflexivity].
  - apply Z.eqb_neq in E1. split.
    + intros Q. injection Q as <-. right. right. split; [intros [Q _]; contradiction|]. split; [intros [Q _]; contradiction|reflexivity].
    + intros [((Q & _) & _)|[((Q & _) & _)|(_ & _ & ->)]]; [contradiction|contradiction|reflexivity].
Qed.

Lemma bits_iff t y : (let? _ := contents_of (APrim 3) Untagged t in Ok (tlv_dump t)) = Ok y <->
  universal t 3 /\ t_cons t = false /\ y = tlv_dump t.
Proof.
  cbn [contents_of]. unfold expect, universal. cbn [unwrap rbind].
  destruct (t_class t =? 0) eqn:E1, (Bool.eqb (t_cons t) false) eqn:E2, (t_tag t =? 3) eqn:E3; cbn [andb rbind].
  all: rewrite ?Z.eqb_eq, ?Z.eqb_neq in *; rewrite ?Bool.eqb_true_iff, ?Bool.eqb_false_iff in *.
  all: try (split; [intros Q; discriminate Q|intros ((Q1 & Q2) & Q3 & _); congruence]).
  split; [intros Q; injection Q as <-; auto|]. intros (_ & _ & ->). reflexivity.
Qed.

Lemma key_iff tg t v : decode X509Key tg t = Ok v ->
  exists b d, contents_of PublicKeyInfo tg t = Ok b /\ children PublicKeyInfo b = Ok d /\
    let key_alg := (let? b := read PublicKeyInfo (Ok d) "algorithm" contents_of in children AlgorithmIdentifier b) in
    forall k,
    (read AlgorithmIdentifier key_alg "algorithm" (read_oid key_algorithms) = Ok (k_alg k) /\
     (let? p := read_field AlgorithmIdentifier key_alg "parameters" (fun _ _ t => read_parameters t) in
      Ok (match p with Some v => v | None => PNone end)) = Ok (k_params k) /\
     read PublicKeyInfo (Ok d) "public_key" (fun a tg t => let? _ := contents_of a tg t in Ok (tlv_dump t)) = Ok (k_bits k)) <->
    key_means v k.
Proof.
  intros H. unfold X509Key in H. destruct (decode_children _ _ _ _ H) as (b & vs & d & -> & C & K & Al).
  pose proof (aligned_length _ _ _ Al) as L. destruct vs as [|o1 [|o2 [|o3 vs]]]; try discriminate L. clear L.
  exists b, d. split; [exact C|]. split; [exact K|]. intros key_alg k. unfold key_means.
  rewrite (read_iff 1 _ _ _ _ _ _ (seq_fields PublicKeyInfo) _ _ _ _ _ (fun a tg t => let? _ := contents_of a tg t in Ok (tlv_dump t))
             Al ltac:(names) eq_refl eq_refl eq_refl
             (fun v y => exists t, v = VAny t /\ universal t 3 /\ t_cons t = false /\ y = tlv_dump t)).
  2: { intros t2 v2 D2 y. destruct (any_iff _ _ _ D2) as (u & -> & U). injection U as <-. rewrite bits_iff.
       split; [intros Q; exists t2; split; [reflexivity|exact Q]|]. intros (w & E & Q). injection E as <-. exact Q. }
  pose proof (field_at 0 _ _ _ _ _ _ (seq_fields PublicKeyInfo) _ _ _ _ _ contents_of Al ltac:(names) eq_refl eq_refl eq_refl) as F1.
  destruct o1 as [v1|].
  - destruct F1 as (t1 & D1 & _ & R1). unfold X509Algorithm in D1. destruct (decode_children _ _ _ _ D1) as (b1 & vs1 & d1 & -> & C1 & K1 & Al1).
    pose proof (aligned_length _ _ _ Al1) as L. destruct vs1 as [|p1 [|p2 [|p3 vs1]]]; try discriminate L. clear L.
    assert (Q : key_alg = Ok d1).
    { unfold key_alg, PublicKeyInfo. change (ASeq _) with (ASeq (seq_fields PublicKeyInfo)). rewrite R1.
      change (contents_of AlgorithmIdentifier Untagged t1) with (contents_of X509Algorithm Untagged t1). unfold X509Algorithm.
      rewrite C1. cbn [rbind]. exact K1. }
    rewrite Q. clear key_alg Q R1. unfold AlgorithmIdentifier.
    rewrite (read_iff 0 _ _ _ _ _ _ (seq_fields AlgorithmIdentifier) _ _ _ _ _ (read_oid key_algorithms) Al1 ltac:(names) eq_refl eq_refl eq_refl
               (fun v y => exists b, v = VPrim b /\ y = oid_native key_algorithms b)).
    2: { intros t2 v2 D2 y. destruct (prim_iff _ _ _ _ D2) as (u & -> & U). unfold read_oid, aObjectIdentifier. rewrite U. cbn [rbind].
         split; [intros Q; injection Q as <-; exists u; split; reflexivity|]. intros (w & E & ->). injection E as <-. reflexivity. }
    pose proof (field_iff 1 _ _ _ _ _ _ (seq_fields AlgorithmIdentifier) _ _ _ _ _ (fun _ _ t => read_parameters t) Al1 ltac:(names) eq_refl eq_refl eq_refl
               (fun v y => exists t, v = VAny t /\ read_parameters t = Ok y)) as F2.
    assert (F3 : (let? p := read_field (ASeq (seq_fields AlgorithmIdentifier)) (Ok d1) "parameters" (fun _ _ t => read_parameters t) in
      Ok (match p with Some v => v | None => PNone end)) = Ok (k_params k) <-> parameters_mean p2 (k_params k)).
    { assert (F4 := F2). clear F2. lapply F4; clear F4.
      2: { intros t2 v2 D2 y. destruct (any_iff _ _ _ D2) as (u & -> & U). injection U as <-.
           split; [intros Q; exists t2; split; [reflexivity|exact Q]|]. intros (w & E & Q). injection E as <-. exact Q. }
      intros F2. unfold parameters_mean. destruct (read_field _ _ _ _) as [p|e]; cbn [rbind].
      - pose proof (proj1 (F2 p) eq_refl) as M. destruct p2 as [v2|], p as [p|]; try contradiction M.
        + destruct M as (t2 & -> & M). split.
          * intros Q. injection Q as ->. exists t2. split; [reflexivity|]. apply parameters_iff. exact M.
          * intros (t' & E & Q). injection E as <-. apply parameters_iff in Q. rewrite M in Q. exact Q.
        + split; [intros Q; injection Q as <-; reflexivity|intros ->; reflexivity].
      - split; [intros Q; discriminate Q|]. destruct p2 as [v2|].
        + intros (t' & -> & Q). apply parameters_iff in Q. exfalso.
          assert (Err e = Ok (Some (k_params k))) as X by (apply F2; exists t'; split; [reflexivity|exact Q]). discriminate X.
        + intros _. assert (Err e = Ok (@None pkparams)) as X by (apply F2; exact I). discriminate X. }
    change (ASeq (seq_fields AlgorithmIdentifier)) with AlgorithmIdentifier in F3. unfold AlgorithmIdentifier in F3. rewrite F3. clear F2 F3.
    split.
    + intros ((w1 & -> & alg & -> & Q1) & Q2 & w3 & -> & t3 & -> & Q3 & Q4 & Q5). exists alg, p2, t3. split; [reflexivity|]. rewrite called_is. auto.
    + intros (alg & params & t3 & E & Q1 & Q2 & Q3 & Q4 & Q5). injection E as -> -> ->. rewrite called_is in Q1.
      split; [exists (VPrim alg); split; [reflexivity|exists alg; split; [reflexivity|exact Q1]]|]. split; [exact Q2|].
      exists (VAny t3). split; [reflexivity|]. exists t3. auto.
  - assert (Q : exists e, key_alg = Err e).
    { unfold key_alg, read. unfold PublicKeyInfo. change (ASeq _) with (ASeq (seq_fields PublicKeyInfo)). rewrite F1. cbn [rbind]. eexists. reflexivity. }
    destruct Q as (e & ->). split; [intros (Q & _); discriminate Q|]. intros (alg & params & t3 & E & _). discriminate E.
Qed.

(** ** Extensions *)

Lemma names_iff names s d oid : plain s = false -> dict_get d names = Some s -> (forall d', In (d', s) names -> d' = d) ->
  oid_native names oid = s <-> dotted oid = d.
Proof.
  intros P G U. split.
  - intros E. destruct (string_dec (dotted oid) d) as [Q|N]; [exact Q|]. exfalso.
    apply (native_other names oid s P); [|exact E]. intros d' I. rewrite (U d' I). exact N.
  - intros <-. apply native_known. exact G.
Qed.
Ltac one_name := intros d' I; cbn [In] in I; repeat (destruct I as [I|I]; [try discriminate I; injection I as <-; reflexivity|]); destruct I.
Lemma eku_name oid : oid_native extension_types oid = "extended_key_usage" <-> dotted oid = "2.5.29.37".
Proof. apply names_iff; [reflexivity|reflexivity|one_name]. Qed.

Lemma agency_name oid : oid_native extension_types oid = "microsoft_spc_sp_agency_info" <-> dotted oid = "1.3.6.1.4.1.311.2.1.10".
Proof. apply names_iff; [reflexivity|reflexivity|one_name]. Qed.
Lemma financial_name oid : oid_native extension_types oid = "microsoft_spc_financial_criteria" <-> dotted oid = "1.3.6.1.4.1.311.2.1.27".
Proof. apply names_iff; [reflexivity|reflexivity|one_name]. Qed.

Lemma oid_items ts : forall us, map_res (read_oid key_purposes aObjectIdentifier Untagged) ts = Ok us ->
  exists l, decode_all (APrim 6) ts = Ok (map VPrim l) /\ us = map (oid_native key_purposes) l.
Proof.
  induction ts as [|t ts IH]; intros us H; cbn [map_res] in H.
  - injection H as <-. exists []. split; reflexivity.
  - unfold read_oid at 1 in H. unfold aObjectIdentifier at 1 in H.
    destruct (contents_of (APrim 6) Untagged t) as [b|] eqn:C; cbn [rbind] in H; [|discriminate H].
    destruct (map_res _ ts) as [ys|] eqn:M; cbn [rbind] in H; [|discriminate H]. injection H as <-.
    destruct (IH _ eq_refl) as (l & D & ->). exists (b :: l). split; [|reflexivity]. cbn [decode_all]. fold decode_all.
    cbn [contents_of] in C. cbn [decode]. destruct (expect Untagged false 6 t) as [u|]; cbn [rbind] in *; [|discriminate C].
    injection C as <-. rewrite D. reflexivity.
Qed.
Lemma purposes_iff b us :
  (let? (u, _) := parse_tlv b in
   let? l := items_of ExtKeyUsageSyntax Untagged u in
   map_res (read_oid key_purposes aObjectIdentifier Untagged) l) = Ok us <-> purposes_in b us.
Proof.
  split.
  - intros H. destruct (parse_tlv b) as [[u r]|] eqn:P; cbn [rbind] in H; [|discriminate H].
    destruct (items_of ExtKeyUsageSyntax Untagged u) as [ts|] eqn:I; cbn [rbind] in H; [|discriminate H].
    destruct (oid_items _ _ H) as (l & D & ->). exists l. split; [|symmetry; apply map_called]. apply load_written; [reflexivity|]. unfold load. rewrite P. cbn [rbind].
    unfold ExtKeyUsageSyntax, aObjectIdentifier in *. rewrite decode_seqof. unfold items_of in I. cbn [contents_of] in I.
    destruct (expect Untagged true 16 u) as [w|]; cbn [rbind] in *; [|discriminate I]. rewrite I. cbn [rbind]. rewrite D. reflexivity.
  - intros H. apply usages_in_means in H. exact H.
Qed.

(** ** Extensions of Microsoft *)

Lemma text_legible v : (exists u, text_native v = Ok u) <-> legible_text v.
Proof.
  unfold legible_text. split.
  - intros (u & H). destruct v as [b| | |n x|]; try discriminate H. destruct x as [b| | | |]; try discriminate H. cbn [text_native] in H.
    exists b, u. destruct (String.eqb_spec n "unicode") as [->|_]; [left|destruct (String.eqb_spec n "ascii") as [->|_]; [right|discriminate H]];
      (split; [reflexivity|]); apply text_is; exact H.
  - intros (b & u & [[-> H]|[-> H]]); exists u; apply text_is in H; exact H.
Qed.
Lemma link_legible v : link_native v = Ok tt <-> legible_link v.
Proof.
  unfold legible_link. split.
  - intros H. destruct v as [b| | |n x|]; try discriminate H. cbn [link_native] in H.
    destruct (String.eqb_spec n "url") as [->|_].
    { left. destruct x as [b| | | |]; try discriminate H. destruct (ascii_text b) as [u|] eqn:E; [|discriminate H].
      exists b, u. split; [reflexivity|]. apply text_is. exact E. }
    right. destruct (String.eqb_spec n "moniker") as [->|_].
    { left. destruct x as [|[|[[c| | | |]|] [|[[d| | | |]|] [|? ?]]]| | |]; try discriminate H. exists c, d. reflexivity. }
    right. destruct (String.eqb_spec n "file") as [->|_]; [|discriminate H]. exists x. split; [reflexivity|].
    apply text_legible. destruct (text_native x) as [u|]; [|discriminate H]. exists u. reflexivity.
  - intros [(b & u & -> & H)|[(c & d & ->)|(x & -> & H)]].
    + apply text_is in H. change (ascii_text b = Ok u) in H. cbn [link_native String.eqb Ascii.eqb Bool.eqb]. rewrite H. reflexivity.
    + reflexivity.
    + apply text_legible in H as (u & H). cbn [link_native String.eqb Ascii.eqb Bool.eqb]. rewrite H. reflexivity.
Qed.
Lemma picture_legible v : image_native v = Ok tt <-> legible_picture v.
Proof.
  unfold legible_picture. split.
  - intros H. destruct v as [|[|[x|] l]| | |]; try discriminate H; eexists _, l; (split; [reflexivity|]); cbn [if_given]; [|exact I].
    apply link_legible. exact H.
  - intros ([x|] & l & -> & H); [|reflexivity]. apply link_legible in H. exact H.
Qed.
Lemma maybe_legible {A} (f : aval -> res A) (P : aval -> Prop) (K : forall v, (exists u, f v = Ok u) <-> P v) o :
  maybe_native f o = Ok tt <-> if_given P o.
Proof.
  destruct o as [v|]; cbn [maybe_native if_given]; [|split; intros; reflexivity || exact I]. rewrite <- K.
  destruct (f v) as [u|e]; cbn [rbind]; [split; [intros _; exists u; reflexivity|reflexivity]|].
  split; [discriminate|]. intros (u & E). discriminate E.
Qed.
Lemma unit_legible (f : aval -> res unit) (P : aval -> Prop) : (forall v, f v = Ok tt <-> P v) -> forall v, (exists u, f v = Ok u) <-> P v.
Proof. intros H v. rewrite <- H. split; [intros ([] & E); exact E|intros E; exists tt; exact E]. Qed.
Lemma agency_iff b : agency_native b = Ok tt <-> agency_in b.
Proof.
  unfold agency_in, agency_native.
  assert (W : forall v, load SpcSpAgencyInformation b = Ok v <-> written true MsAgency v b).
  { intros v. change MsAgency with SpcSpAgencyInformation. apply load_declared. cbn. tauto. }
  split.
  - intros H. destruct (load SpcSpAgencyInformation b) as [v|]; [|discriminate H]. cbn [rbind] in H.
    destruct v as [|[|[info|] [|text [|image [|link [|? ?]]]]]| | |]; try discriminate H.
    exists info, text, image, link. split; [apply W; reflexivity|].
    destruct (link_native info) as [[]|] eqn:E1; [|discriminate H]. cbn [rbind] in H.
    destruct (maybe_native text_native text) as [[]|] eqn:E2; [|discriminate H]. cbn [rbind] in H.
    destruct (maybe_native image_native image) as [[]|] eqn:E3; [|discriminate H]. cbn [rbind] in H.
    split; [apply link_legible; exact E1|]. split; [exact (proj1 (maybe_legible _ _ text_legible _) E2)|].
    split; [exact (proj1 (maybe_legible _ _ (unit_legible _ _ picture_legible) _) E3)|].
    exact (proj1 (maybe_legible _ _ (unit_legible _ _ link_legible) _) H).
  - intros (info & text & image & link & V & H1 & H2 & H3 & H4). apply W in V. rewrite V. cbn [rbind].
    apply link_legible in H1. rewrite H1. cbn [rbind].
    rewrite (proj2 (maybe_legible _ _ text_legible _) H2). cbn [rbind].
    rewrite (proj2 (maybe_legible _ _ (unit_legible _ _ picture_legible) _) H3). cbn [rbind].
    exact (proj2 (maybe_legible _ _ (unit_legible _ _ link_legible) _) H4).
Qed.

Lemma boolean_first t v : decode (APrim 1) Untagged t = Ok v -> id_in t (first_ids aBoolean Untagged) = true.
Proof.
  cbn [decode]. unfold expect. cbn [unwrap rbind]. destruct ((t_class t =? 0) && _ && _) eqn:E; [|discriminate].
  intros _. apply Bool.andb_true_iff in E as [E T]. apply Bool.andb_true_iff in E as [C _].
  unfold aBoolean. cbn [first_ids id_in existsb]. unfold id_eqb. cbn [fst snd]. rewrite C, T. reflexivity.
Qed.
Lemma two_booleans l : (exists vs, decode_fields (seq_fields SpcFinancialCriteria) l = Ok vs) <->
  exists vs, decode_all (APrim 1) l = Ok vs /\ (length vs <= 2)%nat.
Proof.
  change (seq_fields SpcFinancialCriteria) with
    [("financial_info_available", (aBoolean, (Untagged, Default))); ("meets_criteria", (aBoolean, (Untagged, Default)))].
  destruct l as [|x l].
  { split; [intros _; exists []; split; [reflexivity|cbn; lia]|intros _; eexists; reflexivity]. }
  cbn [decode_fields decode_all]. fold decode_fields. fold (decode_all (APrim 1)). change aBoolean with (APrim 1).
  pose proof (boolean_first x) as Bx. change aBoolean with (APrim 1) in Bx.
  destruct (decode (APrim 1) Untagged x) as [v|e].
  - rewrite (Bx _ eq_refl). clear Bx. cbn [rbind]. destruct l as [|y l].
    { split; [intros _; exists [v]; split; [reflexivity|cbn; lia]|intros _; eexists; reflexivity]. }
    cbn [decode_all]. fold (decode_all (APrim 1)).
    pose proof (boolean_first y) as By. change aBoolean with (APrim 1) in By.
    destruct (decode (APrim 1) Untagged y) as [w|e].
    + rewrite (By _ eq_refl). clear By. cbn [rbind]. destruct l as [|z l].
      { split; [intros _; exists [v; w]; split; [reflexivity|cbn; lia]|intros _; eexists; reflexivity]. }
      split.
      * intros (vs & H). discriminate H.
      * intros (vs & H & L). exfalso. cbn [decode_all] in H. fold (decode_all (APrim 1)) in H.
        destruct (decode (APrim 1) Untagged z); [|discriminate H]. cbn [rbind] in H.
        destruct (decode_all (APrim 1) l); [|discriminate H]. cbn [rbind] in H. injection H as <-. cbn [length] in L. lia.
    + cbn [rbind]. split; [|intros (vs & H & _); discriminate H]. intros (vs & H). exfalso.
      destruct (id_in y _); [discriminate H|]. discriminate H.
  - cbn [rbind]. split; [|intros (vs & H & _); discriminate H]. intros (vs & H). exfalso.
    destruct (id_in x _); [discriminate H|]. discriminate H.
Qed.
Lemma financial_iff b : financial_native b = Ok tt <-> financial_in b.
Proof.
  unfold financial_in, financial_native.
  assert (W : forall v, load (ASeqOf (APrim 1)) b = Ok v <-> written true (ASeqOf (APrim 1)) v b).
  { intros v. apply load_iff; [apart|reflexivity]. }
  transitivity (exists l, (length l <= 2)%nat /\ load (ASeqOf (APrim 1)) b = Ok (VList l)).
  2: { split; intros (l & L & H); exists l; (split; [exact L|]); apply W; exact H. }
  unfold load. destruct (parse_tlv b) as [[t r]|]; cbn [rbind].
  2: { split; [discriminate|]. intros (l & _ & H). discriminate H. }
  rewrite decode_seqof. change SpcFinancialCriteria with (ASeq (seq_fields SpcFinancialCriteria)). rewrite decode_seq.
  destruct (expect Untagged true 16 t) as [u|]; cbn [rbind].
  2: { split; [discriminate|]. intros (l & _ & H). discriminate H. }
  destruct (parse_all (t_contents u)) as [ts|]; cbn [rbind].
  2: { split; [discriminate|]. intros (l & _ & H). discriminate H. }
  pose proof (two_booleans ts) as T. split.
  - intros H. destruct (decode_fields _ ts) as [vs|] eqn:D; [|discriminate H]. destruct (proj1 T (ex_intro _ _ eq_refl)) as (l & A & L).
    exists l. split; [exact L|]. rewrite A. reflexivity.
  - intros (l & L & H). destruct (decode_all (APrim 1) ts) as [vs|] eqn:D; [|discriminate H]. cbn [rbind] in H. injection H as ->.
    destruct (proj2 T (ex_intro _ _ (conj eq_refl L))) as (vs & A). rewrite A. reflexivity.
Qed.

Definition usage_of (p : string * lz_extension) : option (list string) :=
  match snd p with XUsages u => Some u | XOther => None end.
Definition proper (p : string * lz_extension) : Prop := fst p = "extended_key_usage" <-> usage_of p <> None.

Lemma extension_proper t p : read_extension t = Ok p -> proper p.
Proof.
  unfold read_extension. intros H.
  destruct (contents_of Extension Untagged t) as [b|]; cbn [rbind] in H; [|discriminate H].
  destruct (read Extension (children Extension b) "extn_id" _) as [id|]; cbn [rbind] in H; [|discriminate H].
  destruct (read_field Extension (children Extension b) "critical" _) as [c|]; cbn [rbind] in H; [|discriminate H].
  destruct (read Extension (children Extension b) "extn_value" _) as [v|]; cbn [rbind] in H; [|discriminate H].
  destruct (String.eqb id "extended_key_usage") eqn:E.
  - apply String.eqb_eq in E. destruct (parse_tlv v) as [[u r]|]; cbn [rbind] in H; [|discriminate H].
    destruct (items_of _ _ _) as [l|]; cbn [rbind] in H; [|discriminate H].
    destruct (map_res _ _) as [names|]; cbn [rbind] in H; [|discriminate H]. injection H as <-.
    split; [intros _ Q; discriminate Q|intros _; exact E].
  - apply String.eqb_neq in E. assert (P : p = (id, XOther)).
    { destruct (String.eqb id "microsoft_spc_sp_agency_info"); [destruct (agency_native v); [injection H as <-; reflexivity|discriminate H]|].
      destruct (String.eqb id "microsoft_spc_financial_criteria"); [destruct (financial_native v); [injection H as <-; reflexivity|discriminate H]|].
      injection H as <-. reflexivity. }
    subst p. split; [intros Q; contradiction|intros Q; exfalso; apply Q; reflexivity].
Qed.

Lemma extension_iff t v : decode X509Extension Untagged t = Ok v ->
  forall o, (let? p := read_extension t in Ok (usage_of p)) = Ok o <-> extension_means v o.
Proof.
  intros H o. unfold X509Extension in H. destruct (decode_children _ _ _ _ H) as (b & vs & d & -> & C & K & Al).
  pose proof (aligned_length _ _ _ Al) as L. destruct vs as [|o1 [|o2 [|o3 [|o4 vs]]]]; try discriminate L. clear L.
  unfold read_extension. change (contents_of Extension Untagged t) with (contents_of X509Extension Untagged t).
  unfold X509Extension. rewrite C. cbn [rbind]. change (children Extension b) with (children X509Extension b). unfold X509Extension. rewrite K.
  pose proof (read_iff 0 _ _ _ _ _ _ (seq_fields Extension) _ _ _ _ _ (read_oid extension_types) Al ltac:(names) eq_refl eq_refl eq_refl
               (fun v y => exists b, v = VPrim b /\ y = oid_native extension_types b)) as F1.
  lapply F1; clear F1.
  2: { intros t2 v2 D2 y. destruct (prim_iff _ _ _ _ D2) as (u & -> & U). unfold read_oid, aObjectIdentifier. rewrite U. cbn [rbind].
       split; [intros Q; injection Q as <-; exists u; split; reflexivity|]. intros (w & E & ->). injection E as <-. reflexivity. }
  intros F1.
  pose proof (read_iff 2 _ _ _ _ _ _ (seq_fields Extension) _ _ _ _ _ contents_of Al ltac:(names) eq_refl eq_refl eq_refl octets_mean) as F2.
  lapply F2; clear F2.
  2: { intros t2 v2 D2 y. destruct (prim_iff _ _ _ _ D2) as (u & -> & U). unfold aOctetString. rewrite U. unfold octets_mean.
       split; [intros Q; injection Q as <-; reflexivity|]. intros E. injection E as <-. reflexivity. }
  intros F2.
  pose proof (field_at 1 _ _ _ _ _ _ (seq_fields Extension) _ _ _ _ _ contents_of Al ltac:(names) eq_refl eq_refl eq_refl) as F3.
  assert (F4 : exists c, read_field Extension (Ok d) "critical" contents_of = Ok c).
  { destruct o2 as [v2|].
    - destruct F3 as (t2 & D2 & R2 & _). change (ASeq (seq_fields Extension)) with Extension in R2. rewrite R2.
      destruct (prim_iff _ _ _ _ D2) as (u & _ & U). unfold aBoolean. rewrite U. eexists. reflexivity.
    - eexists. exact F3. }
  destruct F4 as (crit & F4). clear F3.
  change (ASeq (seq_fields Extension)) with Extension in F1, F2. unfold extension_means. split.
  - intros Q. destruct (read Extension (Ok d) "extn_id" _) as [id|] eqn:E1; cbn [rbind] in Q; [|discriminate Q].
    rewrite F4 in Q. cbn [rbind] in Q.
    destruct (read Extension (Ok d) "extn_value" _) as [val|] eqn:E2; cbn [rbind] in Q; [|discriminate Q].
    destruct (proj1 (F1 _) eq_refl) as (v1 & -> & oid & -> & ->). destruct (proj1 (F2 _) eq_refl) as (v2 & -> & M2). red in M2. subst v2.
    exists oid, o2, val. split; [reflexivity|]. rewrite identifier_is.
    destruct (String.eqb_spec (oid_native extension_types oid) "extended_key_usage") as [E|E].
    + apply eku_name in E. split; [|split; intros Q'; rewrite E in Q'; discriminate Q'].
      left. split; [exact E|].
      pose proof (purposes_iff val) as P. destruct (parse_tlv val) as [[u r]|]; cbn [rbind] in *; [|discriminate Q].
      destruct (items_of _ _ _) as [l|]; cbn [rbind] in *; [|discriminate Q].
      destruct (map_res _ _) as [names|]; cbn [rbind] in *; [|discriminate Q]. injection Q as <-.
      exists names. split; [reflexivity|]. apply P. reflexivity.
    + assert (N : dotted oid <> "2.5.29.37") by (intros N; apply E, eku_name; exact N). rewrite <- agency_name, <- financial_name.
      destruct (String.eqb_spec (oid_native extension_types oid) "microsoft_spc_sp_agency_info") as [E'|E'].
      { destruct (agency_native val) as [[]|] eqn:Y; [|discriminate Q]. injection Q as <-.
        split; [right; split; [exact N|reflexivity]|]. split; [intros _; apply agency_iff; exact Y|].
        intros Q. rewrite E' in Q. discriminate Q. }
      destruct (String.eqb_spec (oid_native extension_types oid) "microsoft_spc_financial_criteria") as [E3|E3].
      { destruct (financial_native val) as [[]|] eqn:Y; [|discriminate Q]. injection Q as <-.
        split; [right; split; [exact N|reflexivity]|]. split; [intros Q; contradiction|]. intros _. apply financial_iff. exact Y. }
      injection Q as <-. split; [right; split; [exact N|reflexivity]|]. split; intros Q; contradiction.
  - intros (oid & critical & val & E & M). injection E as -> -> ->. rewrite identifier_is in M.
    rewrite (proj2 (F1 (oid_native extension_types oid))); [|exists (VPrim oid); split; [reflexivity|]; exists oid; split; reflexivity].
    cbn [rbind]. rewrite F4. cbn [rbind]. rewrite (proj2 (F2 val)); [|exists (VPrim val); split; reflexivity]. cbn [rbind].
    destruct M as ([(E & us & -> & P)|(E & ->)] & Ag & Fi).
    + rewrite (proj2 (eku_name _) E). rewrite String.eqb_refl.
      apply purposes_iff in P. destruct (parse_tlv val) as [[u r]|]; cbn [rbind] in *; [|discriminate P].
      destruct (items_of _ _ _) as [l|]; cbn [rbind] in *; [|discriminate P]. rewrite P. reflexivity.
    + rewrite <- agency_name in Ag. rewrite <- financial_name in Fi.
      destruct (String.eqb_spec (oid_native extension_types oid) "extended_key_usage") as [Q|Q]; [exfalso; apply E, eku_name; exact Q|].
      destruct (String.eqb_spec (oid_native extension_types oid) "microsoft_spc_sp_agency_info") as [E1|E1].
      { rewrite (proj2 (agency_iff _) (Ag E1)). reflexivity. }
      destruct (String.eqb_spec (oid_native extension_types oid) "microsoft_spc_financial_criteria") as [E2|E2]; [|reflexivity].
      rewrite (proj2 (financial_iff _) (Fi E2)). reflexivity.
Qed.

Lemma map_res_then {A B C} (f : A -> res B) (g : B -> C) l :
  map_res (fun x => let? y := f x in Ok (g y)) l = (let? ys := map_res f l in Ok (map g ys)).
Proof.
  induction l as [|x l IH]; [reflexivity|]. cbn [map_res]. destruct (f x) as [y|]; cbn [rbind]; [|reflexivity].
  rewrite IH. destruct (map_res f l); reflexivity.
Qed.
Lemma map_res_all {A B} (f : A -> res B) (P : B -> Prop) : (forall x y, f x = Ok y -> P y) ->
  forall l ys, map_res f l = Ok ys -> Forall P ys.
Proof.
  intros H. induction l as [|x l IH]; intros ys Q; cbn [map_res] in Q; [injection Q as <-; constructor|].
  destruct (f x) as [y|] eqn:E; cbn [rbind] in Q; [|discriminate Q]. destruct (map_res f l) as [zs|]; cbn [rbind] in Q; [|discriminate Q].
  injection Q as <-. constructor; [exact (H _ _ E)|apply IH; reflexivity].
Qed.

Lemma last_of_unique {A} (l : list (option A)) o o' : last_of l o -> last_of l o' -> o = o'.
Proof.
  revert o o'. induction l as [|x l IH] using rev_ind; intros o o' H H'.
  - destruct o as [y|]; [destruct H as (l1 & l2 & E & _); destruct l1; discriminate E|].
    destruct o' as [y|]; [destruct H' as (l1 & l2 & E & _); destruct l1; discriminate E|reflexivity].
  - assert (G : forall o, last_of (l ++ [x]) o -> match x with Some _ => o = x | None => last_of l o end).
    { clear. intros [y|] H; cbn [last_of] in H.
      - destruct H as (l1 & l2 & E & F). destruct l2 as [|z l2 _] using rev_ind.
        + apply app_inj_tail in E as [-> ->]. reflexivity.
        + rewrite app_comm_cons, app_assoc in E. apply app_inj_tail in E as [-> ->].
          apply Forall_app in F as [F1 F2]. inversion F2; subst. exists l1, l2. split; [reflexivity|exact F1].
      - apply Forall_app in H as [F1 F2]. inversion F2; subst. exact F1. }
    apply G in H, H'. destruct x; [congruence|]. exact (IH _ _ H H').
Qed.
Lemma last_usages_of l : Forall proper l -> last_of (map usage_of l) (last_usages l).
Proof.
  induction l as [|p l IH] using rev_ind; intros F; [constructor|].
  apply Forall_app in F as [F1 F2]. inversion F2 as [|q r P _ E]; subst. specialize (IH F1).
  rewrite map_app. cbn [map]. unfold last_usages, dict_of_list. rewrite fold_left_app. cbn [fold_left].
  destruct p as [id x]. cbn [fst snd]. unfold proper in P. cbn [fst] in P.
  destruct (string_dec id "extended_key_usage") as [->|N].
  - rewrite dict_get_set_same. destruct x as [u|].
    + cbn [usage_of snd]. exists (map usage_of l), []. split; [reflexivity|constructor].
    + exfalso. apply (proj1 P eq_refl). reflexivity.
  - rewrite dict_get_set_other; [|congruence].
    assert (U : usage_of (id, x) = None). { destruct (usage_of (id, x)) eqn:E; [|reflexivity]. exfalso. apply N, P. discriminate. }
    rewrite U. change (last_of (map usage_of l ++ [None]) (last_usages l)).
    destruct (last_usages l) as [u|]; cbn [last_of] in *.
    + destruct IH as (l1 & l2 & E & F). exists l1, (l2 ++ [None]). split; [rewrite E, <- app_assoc; reflexivity|].
      apply Forall_app. split; [exact F|]. repeat constructor.
    + apply Forall_app. split; [exact IH|]. repeat constructor.
Qed.

Lemma extensions_iff tg t v : decode (ASeqOf X509Extension) tg t = Ok v -> forall us,
  (let? l := (let? l := items_of (ASeqOf Extension) tg t in map_res read_extension l) in Ok (last_usages l)) = Ok us <->
  usages_mean (Some v) us.
Proof.
  intros H us. destruct (seqof_items _ _ _ _ H) as (ts & vs & -> & I & F).
  change (items_of (ASeqOf Extension) tg t) with (items_of (ASeqOf X509Extension) tg t). rewrite I. cbn [rbind].
  pose proof (map_res_iff _ _ _ extension_iff _ _ F) as M. rewrite map_res_then in M. cbn [usages_mean].
  destruct (map_res read_extension ts) as [l|e] eqn:R; cbn [rbind] in *.
  - pose proof (last_usages_of l (map_res_all _ _ extension_proper _ _ R)) as P. split.
    + intros Q. injection Q as <-. exists vs, (map usage_of l). split; [reflexivity|]. split; [apply M; reflexivity|exact P].
    + intros (l' & xs & E & G & P'). injection E as <-. apply M in G. injection G as <-. f_equal. exact (last_of_unique _ _ _ P P').
  - split; [intros Q; discriminate Q|]. intros (l' & xs & E & G & P'). injection E as <-. apply M in G. discriminate G.
Qed.

(** ** Certificates *)

Lemma lz_certificate_iff c y : lz_certificate c = Ok y <->
  ((exists s, lc_signature_algorithm c = Ok s) /\ (exists b, lc_signature_value c = Ok b) /\ (exists u, lc_tbs c = Ok u) /\
   (exists s, lc_version c = Ok s)) /\
  (lc_serial c = Ok (c_serial y) /\ lc_issuer c = Ok (c_issuer y)) /\
  (lc_not_before c = Ok (c_valid_from y) /\ lc_not_after c = Ok (c_valid_to y)) /\
  lc_subject c = Ok (c_subject y) /\
  (lc_key_algorithm c = Ok (k_alg (c_key y)) /\ lc_key_parameters c = Ok (k_params (c_key y)) /\
   lc_key_bits c = Ok (k_bits (c_key y))) /\
  (let? o := lc_extensions c in Ok (match o with Some l => last_usages l | None => None end)) = Ok (c_eku y) /\
  c_id y = lc_id c /\ c_der y = lc_der c.
Proof.
  unfold lz_certificate. split.
  - intros H.
    destruct (lc_signature_algorithm c) as [x1|]; cbn [rbind] in H; [|discriminate H].
    destruct (lc_signature_value c) as [x2|]; cbn [rbind] in H; [|discriminate H].
    destruct (lc_tbs c) as [x3|]; cbn [rbind] in H; [|discriminate H].
    destruct (lc_version c) as [x4|]; cbn [rbind] in H; [|discriminate H].
    destruct (lc_serial c) as [x5|]; cbn [rbind] in H; [|discriminate H].
    destruct (lc_issuer c) as [x6|]; cbn [rbind] in H; [|discriminate H].
    destruct (lc_not_before c) as [x7|]; cbn [rbind] in H; [|discriminate H].
    destruct (lc_not_after c) as [x8|]; cbn [rbind] in H; [|discriminate H].
    destruct (lc_subject c) as [x9|]; cbn [rbind] in H; [|discriminate H].
    destruct (lc_key_algorithm c) as [x10|]; cbn [rbind] in H; [|discriminate H].
    destruct (lc_key_parameters c) as [x11|]; cbn [rbind] in H; [|discriminate H].
    destruct (lc_key_bits c) as [x12|]; cbn [rbind] in H; [|discriminate H].
    destruct (lc_extensions c) as [x13|]; cbn [rbind] in H; [|discriminate H].
    injection H as <-. cbn [c_serial c_issuer c_valid_from c_valid_to c_subject c_key k_alg k_params k_bits c_eku c_id c_der rbind].
    repeat split; try (eexists; reflexivity).
  - intros (((s1 & ->) & (s2 & ->) & (s3 & ->) & (s4 & ->)) & (-> & ->) & (-> & ->) & -> & (-> & -> & ->) & Q & E1 & E2).
    cbn [rbind]. destruct (lc_extensions c) as [o|]; cbn [rbind] in *; [|discriminate Q]. injection Q as Q.
    rewrite Q, <- E1, <- E2. destruct y as [y1 y2 y3 y4 y5 [k1 k2 k3] y7 y8 y9]. reflexivity.
Qed.

Lemma cert_iff t v : decode X509 Untagged t = Ok v ->
  forall c, lz_certificate (read_certificate t) = Ok c <->
            cert_means v c /\ c_id c = identity (tlv_dump t) /\ c_der c = tlv_dump t.
Proof.
  intros H c. rewrite lz_certificate_iff. unfold X509 in H.
  destruct (decode_children _ _ _ _ H) as (b & vs & d & -> & C & K & Al).
  pose proof (aligned_length _ _ _ Al) as L. destruct vs as [|o1 [|o2 [|o3 [|o4 vs]]]]; try discriminate L. clear L.
  unfold read_certificate.
  cbn [lc_signature_algorithm lc_signature_value lc_tbs lc_version lc_serial lc_issuer lc_not_before lc_not_after lc_subject
       lc_key_algorithm lc_key_parameters lc_key_bits lc_extensions lc_id lc_der].
  change (contents_of Certificate Untagged t) with (contents_of X509 Untagged t). unfold X509. rewrite C. cbn [rbind].
  change (children Certificate b) with (children X509 b). unfold X509. rewrite K.
  pose proof (field_at 0 _ _ _ _ _ _ (seq_fields Certificate) _ _ _ _ _ contents_of Al ltac:(names) eq_refl eq_refl eq_refl) as F1.
  pose proof (field_at 1 _ _ _ _ _ _ (seq_fields Certificate) _ _ _ _ _
     (fun a tg t => la_name (read_algid signature_algorithms a tg t)) Al ltac:(names) eq_refl eq_refl eq_refl) as F2.
  pose proof (read_iff 2 _ _ _ _ _ _ (seq_fields Certificate) _ _ _ _ _ contents_of Al ltac:(names) eq_refl eq_refl eq_refl octets_mean) as F3.
  lapply F3; clear F3.
  2: { intros t2 v2 D2 y. destruct (prim_iff _ _ _ _ D2) as (u & -> & U). unfold aBitString. rewrite U. unfold octets_mean.
       split; [intros Q; injection Q as <-; reflexivity|]. intros E. injection E as <-. reflexivity. }
  intros F3. change (ASeq (seq_fields Certificate)) with Certificate in F1, F2, F3.
  destruct o1 as [v1|].
  2: { rewrite (read_missing _ _ _ _ F1). cbn [rbind]. split; [intros ((_ & _ & (u & Q) & _) & _); discriminate Q|].
       intros ((x1 & x2 & x3 & x4 & x5 & x6 & x7 & x8 & x9 & x10 & x11 & x12 & x13 & E & _) & _). discriminate E. }
  destruct F1 as (t1 & D1 & _ & R1). rewrite R1. unfold X509Body in D1.
  destruct (decode_children _ _ _ _ D1) as (b1 & vs1 & d1 & -> & C1 & K1 & Al1).
  pose proof (aligned_length _ _ _ Al1) as L. destruct vs1 as [|p1 [|p2 [|p3 [|p4 [|p5 [|p6 [|p7 [|p8 [|p9 [|p10 [|p11 vs]]]]]]]]]]]; try discriminate L. clear L.
  change (contents_of TbsCertificate Untagged t1) with (contents_of X509Body Untagged t1). unfold X509Body. rewrite C1. cbn [rbind].
  assert (K1' : children TbsCertificate b1 = Ok d1).
  { rewrite <- K1. apply (children_alike _ _ b1). repeat split. }
  rewrite K1'. clear K1 K1' R1.
  pose proof (field_iff 0 _ _ _ _ _ _ (seq_fields TbsCertificate) _ _ _ _ _ contents_of Al1 ltac:(names) eq_refl eq_refl eq_refl octets_mean) as G0.
  lapply G0; clear G0.
  2: { intros t2 v2 D2 y. destruct (prim_iff _ _ _ _ D2) as (u & -> & U). unfold aInteger. rewrite U. unfold octets_mean.
       split; [intros Q; injection Q as <-; reflexivity|]. intros E. injection E as <-. reflexivity. }
  intros G0.
  pose proof (read_iff 1 _ _ _ _ _ _ (seq_fields TbsCertificate) _ _ _ _ _ read_int Al1 ltac:(names) eq_refl eq_refl eq_refl integer_means) as G1.
  lapply G1; clear G1.
  2: { intros t2 v2 D2 y. destruct (prim_iff _ _ _ _ D2) as (u & -> & U). unfold read_int, aInteger. rewrite U. unfold integer_means. cbn [rbind].
       split; [intros Q; injection Q as <-; exists u; split; [reflexivity|symmetry; apply integer_is]|]. intros (w & E & ->). injection E as <-. rewrite integer_is. reflexivity. }
  intros G1.
  pose proof (read_iff 3 _ _ _ _ _ _ (seq_fields TbsCertificate) _ _ _ _ _ read_name Al1 ltac:(names) eq_refl eq_refl eq_refl name_means (name_iff _)) as G3.
  pose proof (field_at 4 _ _ _ _ _ _ (seq_fields TbsCertificate) _ _ _ _ _ contents_of Al1 ltac:(names) eq_refl eq_refl eq_refl) as G4.
  pose proof (read_iff 5 _ _ _ _ _ _ (seq_fields TbsCertificate) _ _ _ _ _ read_name Al1 ltac:(names) eq_refl eq_refl eq_refl name_means (name_iff _)) as G5.
  pose proof (field_at 6 _ _ _ _ _ _ (seq_fields TbsCertificate) _ _ _ _ _ contents_of Al1 ltac:(names) eq_refl eq_refl eq_refl) as G6.
  pose proof (field_at 9 _ _ _ _ _ _ (seq_fields TbsCertificate) _ _ _ _ _
     (fun a tg t => let? l := items_of a tg t in map_res read_extension l) Al1 ltac:(names) eq_refl eq_refl eq_refl) as G9.
  change (ASeq (seq_fields TbsCertificate)) with TbsCertificate in G0, G1, G3, G4, G5, G6, G9.
  rewrite G1, G3, G5. clear G1 G3 G5.
  (* the extensions *)
  assert (X9 : (let? o := read_field TbsCertificate (Ok d1) "extensions"
                            (fun a tg t => let? l := items_of a tg t in map_res read_extension l) in
                Ok (match o with Some l => last_usages l | None => None end)) = Ok (c_eku c) <-> usages_mean p10 (c_eku c)).
  { destruct p10 as [v10|].
    - destruct G9 as (t9 & D9 & R9 & _). rewrite R9. rewrite <- (extensions_iff _ _ _ D9).
      destruct (let? l := _ in map_res read_extension l) as [l|]; cbn [rbind]; reflexivity.
    - rewrite G9. cbn [rbind usages_mean]. split; [intros Q; injection Q as <-; reflexivity|intros ->; reflexivity]. }
  rewrite X9. clear X9 G9.
  (* the version *)
  assert (X0 : exists s, (let? v := read_field TbsCertificate (Ok d1) "version" contents_of in
                          Ok (match v with Some b => version_native 1 b | None => "v1" end)) = Ok s).
  { pose proof (field_at 0 _ _ _ _ _ _ (seq_fields TbsCertificate) _ _ _ _ _ contents_of Al1 ltac:(names) eq_refl eq_refl eq_refl) as G.
    change (ASeq (seq_fields TbsCertificate)) with TbsCertificate in G. destruct p1 as [w|].
    - destruct G as (t0 & D0 & R0 & _). rewrite R0. destruct (prim_iff _ _ _ _ D0) as (u & -> & U). unfold aInteger. rewrite U. eexists. reflexivity.
    - rewrite G. eexists. reflexivity. }
  destruct X0 as (s0 & X0). rewrite X0. clear X0 G0.
  (* the algorithm *)
  assert (X2 : (exists s, read Certificate (Ok d) "signature_algorithm" (fun a tg t => la_name (read_algid signature_algorithms a tg t)) = Ok s) <->
               exists alg params, o2 = Some (VSeq [Some (VPrim alg); params])).
  { destruct o2 as [w|].
    - destruct F2 as (t2 & D2 & _ & R2). rewrite R2. split.
      + intros (s & Q). unfold X509Algorithm in D2. destruct (decode_children _ _ _ _ D2) as (b2 & vs2 & d2 & -> & C2 & K2 & Al2).
        pose proof (aligned_length _ _ _ Al2) as L. destruct vs2 as [|q1 [|q2 [|q3 vs2]]]; try discriminate L. clear L.
        unfold read_algid in Q. change (contents_of AlgorithmIdentifier Untagged t2) with (contents_of X509Algorithm Untagged t2) in Q.
        unfold X509Algorithm in Q. rewrite C2 in Q. cbn [rbind la_name] in Q. change (children AlgorithmIdentifier b2) with (children X509Algorithm b2) in Q.
        unfold X509Algorithm in Q. rewrite K2 in Q.
        pose proof (field_at 0 _ _ _ _ _ _ (seq_fields AlgorithmIdentifier) _ _ _ _ _ (read_oid signature_algorithms) Al2 ltac:(names) eq_refl eq_refl eq_refl) as G.
        change (ASeq (seq_fields AlgorithmIdentifier)) with AlgorithmIdentifier in G. destruct q1 as [w1|].
        * destruct G as (t3 & D3 & _). destruct (prim_iff _ _ _ _ D3) as (u & -> & _). exists u, q2. reflexivity.
        * unfold read in Q. rewrite G in Q. discriminate Q.
      + intros (alg & params & E). injection E as ->. exists (oid_native signature_algorithms alg).
        exact (algid_encodes signature_algorithms Untagged t2 alg [params] D2).
    - unfold read. rewrite F2. cbn [rbind]. split; [intros (s & Q); discriminate Q|intros (alg & params & Q); discriminate Q]. }
  rewrite X2. clear X2 F2.
  assert (X3 : (exists b, read Certificate (Ok d) "signature_value" contents_of = Ok b) <-> exists value, o3 = Some (VPrim value)).
  { split.
    - intros (y & Q). apply F3 in Q. destruct Q as (w & -> & M). red in M. subst w. exists y. reflexivity.
    - intros (value & ->). exists value. apply F3. exists (VPrim value). split; reflexivity. }
  rewrite X3. clear X3 F3.
  destruct p5 as [v5|].
  2: { rewrite (read_missing _ _ _ _ G4). cbn [rbind]. split; [intros (_ & _ & (Q & _) & _); discriminate Q|].
       intros ((x1 & x2 & x3 & x4 & x5 & x6 & x7 & x8 & x9 & x10 & x11 & x12 & x13 & E & _) & _). discriminate E. }
  destruct G4 as (t5 & D5 & _ & R5). rewrite R5. destruct (validity_iff _ _ _ D5) as (b5 & d5 & C5 & K5 & M5).
  rewrite C5. cbn [rbind]. rewrite K5, M5. clear R5 C5 K5 M5.
  destruct p7 as [v7|].
  2: { rewrite (read_missing _ _ _ _ G6). cbn [rbind]. split; [intros (_ & _ & _ & _ & (Q & _) & _); discriminate Q|].
       intros ((x1 & x2 & x3 & x4 & x5 & x6 & x7 & x8 & x9 & x10 & x11 & x12 & x13 & E & _) & _). discriminate E. }
  destruct G6 as (t7 & D7 & _ & R7). rewrite R7. destruct (key_iff _ _ _ D7) as (b7 & d7 & C7 & K7 & M7).
  rewrite C7. cbn [rbind]. rewrite K7. cbv zeta in M7. rewrite M7. clear R7 C7 K7 M7.
  unfold cert_means. split.
  - intros (((alg & params & ->) & (value & ->) & _ & _) & ((w2 & -> & serial & -> & Q2) & (w4 & -> & Q4)) & Q5 & (w6 & -> & Q6) & Q7 & Q8 & Q9).
    split; [|exact Q9].
    exists p1, serial, p3, w4, v5, w6, v7, p8, p9, p10, alg, params, value. split; [reflexivity|]. do 5 (split; [assumption|]). assumption.
  - intros ((version & serial & signature & issuer & validity & subject & key & u1 & u2 & extensions & alg & params & value & E & Q1 & Q2 & Q3 & Q4 & Q5 & Q6) & Q7).
    injection E as -> -> -> -> -> -> -> -> -> -> -> ->.
    split; [split; [exists alg, params; reflexivity|split; [exists value; reflexivity|split; [exists tt; reflexivity|exists s0; reflexivity]]]|].
    split; [split; [exists (VPrim serial); split; [reflexivity|exists serial; split; [reflexivity|exact Q1]]|exists issuer; split; [reflexivity|exact Q2]]|].
    split; [exact Q3|]. split; [exists subject; split; [reflexivity|exact Q4]|]. split; [exact Q5|]. split; [exact Q6|exact Q7].
Qed.

Theorem read_from_der b v : written true X509 v b -> exists id der rest, b = der ++ rest /\
  forall c, cert_from_der b = Ok c <-> cert_means v c /\ c_id c = id /\ c_der c = der.
Proof.
  intros L. apply written_load in L; [|apart]. destruct (load_inv _ _ _ L) as (t & r & P & D). exists (identity (tlv_dump t)), (tlv_dump t), r.
  split; [exact (proj1 (parse_tlv_split _ _ _ P))|]. intros c. unfold cert_from_der. rewrite P. cbn [rbind].
  assert (C : exists x, contents_of Certificate Untagged t = Ok x).
  { unfold X509 in D. destruct (decode_children _ _ _ _ D) as (b' & vs & d & _ & C & _). exists b'. exact C. }
  destruct C as (x & ->). cbn [rbind]. exact (cert_iff _ _ D c).
Qed.

Lemma x509_distinct : distinct X509.
Proof.
  let l := eval cbv in X509 in change (distinct l).
  repeat match goal with
  | |- Forall _ _ => constructor
  | |- distinct _ => constructor
  | |- distinct_fields _ => constructor
  | |- distinct_alts _ => constructor
  end.
  all: intros; intro; told.
Qed.
Theorem read_encoded v b rest c : encodes X509 Untagged v b -> cert_means v c ->
  cert_from_der (b ++ rest) =
  Ok (mkCert (identity b) b (c_issuer c) (c_serial c) (c_subject c) (c_key c) (c_valid_from c) (c_valid_to c) (c_eku c)).
Proof.
  intros H M. destruct (proj1 decode_encodes _ _ _ _ H x509_distinct) as (_ & t & P & Dt & _). specialize (P rest).
  assert (E : tlv_dump t = b). { destruct (parse_tlv_split _ _ _ P) as [E _]. apply app_inv_tail in E. symmetry. exact E. }
  unfold cert_from_der. rewrite P. cbn [rbind].
  assert (C : exists x, contents_of Certificate Untagged t = Ok x).
  { unfold X509 in Dt. destruct (decode_children _ _ _ _ Dt) as (b' & vs & d & _ & C & _). exists b'. exact C. }
  destruct C as (x & ->). cbn [rbind]. apply (cert_iff _ _ Dt). cbn [c_id c_der]. rewrite E. split; [|split; reflexivity].
  exact M.
Qed.

Theorem names_registered names s d : In (names, (s, d)) registered -> forall b, oid_native names b = s <-> oid_text b = d.
Proof.
  intros H b. rewrite identifier_is. unfold registered in H. repeat (apply in_app_or in H; destruct H as [H|H]).
  all: cbn [map In] in H; repeat (destruct H as [H|H]; [injection H as <- <- <-; apply names_iff; [reflexivity|reflexivity|one_name]|]); destruct H.
Qed.
