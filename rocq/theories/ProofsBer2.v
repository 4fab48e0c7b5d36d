(** Declared types are read exactly from their encodings by the basic encoding rules. *)
From Verif Require Import Base Bytes ModelDer ModelSpc SpecAsn SpecBer ProofsDer ProofsDecode ProofsAsn ProofsBer.
From Coq Require Import ZifyBool ZifyNat.

(** ** Tags around a value *)

Lemma unwrap_around tg t u : unwrap tg t = Ok u ->
  (forall n, tg = Implicit n -> t_class t = 2 /\ t_tag t = n) -> around true tg t u.
Proof.
  destruct tg as [|n|n]; cbn [unwrap]; intros H I.
  - injection H as <-. constructor.
  - injection H as <-. destruct (I n eq_refl). constructor; assumption.
  - destruct ((t_class t =? 2) && t_cons t && (t_tag t =? n)) eqn:C; [|discriminate H]. cbn [negb] in H.
    apply andb_prop in C. destruct C as [C C3]. apply andb_prop in C. destruct C as [C1 C2].
    destruct (parse_tlv (t_contents t)) as [[u' r]|] eqn:P; [|discriminate H]. injection H as ->.
    apply parse_tlv_iff in P. destruct P as [V E]. eapply AroundExplicit; [lia|exact C2|lia|exact V|exact E|left; reflexivity].
Qed.
Lemma around_unwrap b tg t u : around b tg t u -> unwrap tg t = Ok u.
Proof.
  intros [t'|n t' _ _|n t' u' rest C1 C2 C3 V E _]; cbn [unwrap]; [reflexivity|reflexivity|].
  rewrite C1, C2, C3, !Z.eqb_refl. cbn [andb negb]. rewrite (proj2 (parse_tlv_iff _ _ _) (conj V E)). reflexivity.
Qed.
Lemma expect_bears tg con tag t u : expect tg con tag t = Ok u -> bears true con tag tg t (t_contents u).
Proof.
  unfold expect. destruct (unwrap tg t) as [u'|] eqn:U; [|discriminate]. cbn [rbind]. intros H.
  assert (E : u' = u /\ t_cons u = con /\ (t_class u, t_tag u) = match tg with Implicit n => (2, n) | _ => (0, tag) end).
  { destruct tg; match type of H with (if ?c then _ else _) = _ => destruct c eqn:C; [|discriminate H] end; injection H as ->;
    apply andb_prop in C; destruct C as [C C3]; apply andb_prop in C; destruct C as [C1 C2]; apply Bool.eqb_prop in C2;
    (split; [reflexivity|split; [exact C2|f_equal; lia]]). }
  destruct E as (-> & E1 & E2). econstructor; [|exact E1|exact E2]. apply unwrap_around; [exact U|].
  intros n ->. cbn [unwrap] in U. injection U as ->. injection E2 as -> ->. split; reflexivity.
Qed.
Lemma bears_expect b con tag tg t c : bears b con tag tg t c -> exists u, expect tg con tag t = Ok u /\ t_contents u = c.
Proof.
  intros [tg' t' u A C I]. exists u. split; [|reflexivity]. unfold expect. rewrite (around_unwrap _ _ _ _ A). cbn [rbind].
  destruct tg'; injection I as I1 I2; rewrite C, I1, I2, Bool.eqb_reflx, !Z.eqb_refl; reflexivity.
Qed.
Lemma around_begins b tg t u a : around b tg t u -> (tg = Untagged -> begins a Untagged (t_class u, t_tag u)) ->
  begins a tg (t_class t, t_tag t).
Proof.
  intros [t'|n t' C T|n t' u' rest C1 C2 C3 V E _] H; [apply H; reflexivity|rewrite C, T; constructor|rewrite C1, C3; constructor].
Qed.
Lemma bears_begins b con tag tg t c a : bears b con tag tg t c -> begins a Untagged (0, tag) ->
  begins a tg (t_class t, t_tag t).
Proof. intros [tg' t' u A C I] B. eapply around_begins; [exact A|]. intros ->. rewrite I. exact B. Qed.

(** ** What is written is read *)

Lemma spells_decode b :
  (forall a tg v t, spells b a tg v t -> distinct a -> decode a tg t = Ok v /\ begins a tg (t_class t, t_tag t)) /\
  (forall fs vs l, spells_fields b fs vs l -> distinct_fields fs ->
     decode_fields fs l = Ok vs /\ match l with [] => True | t :: _ => follows fs (t_class t, t_tag t) end) /\
  (forall x vs l, spells_all b x vs l -> distinct x -> decode_all x l = Ok vs).
Proof.
  apply spells_ind3.
  - intros tag tg t c B _. destruct (bears_expect _ _ _ _ _ _ B) as (u & U & C). split.
    + cbn [decode]. rewrite U. cbn [rbind]. rewrite C. reflexivity.
    + eapply bears_begins; [exact B|constructor].
  - intros fs vs tg t l B V _ IH D. inversion D; subst. destruct (IH H0) as [F _].
    destruct (bears_expect _ _ _ _ _ _ B) as (u & U & C). split.
    + rewrite decode_seq, U. cbn [rbind]. rewrite C, (proj2 (parse_all_iff _ _) (conj V eq_refl)). cbn [rbind]. rewrite F. reflexivity.
    + eapply bears_begins; [exact B|constructor].
  - intros x vs tg t l B V _ IH D. inversion D; subst. pose proof (IH H0) as F.
    destruct (bears_expect _ _ _ _ _ _ B) as (u & U & C). split.
    + rewrite decode_seqof, U. cbn [rbind]. rewrite C, (proj2 (parse_all_iff _ _) (conj V eq_refl)). cbn [rbind]. rewrite F. reflexivity.
    + eapply bears_begins; [exact B|constructor].
  - intros x vs tg t l B V _ IH D. inversion D; subst. pose proof (IH H0) as F.
    destruct (bears_expect _ _ _ _ _ _ B) as (u & U & C). split.
    + rewrite decode_setof, U. cbn [rbind]. rewrite C, (proj2 (parse_all_iff _ _) (conj V eq_refl)). cbn [rbind]. rewrite F. reflexivity.
    + eapply bears_begins; [exact B|constructor].
  - intros alts n x y v tg t u A I _ IH D. inversion D; subst.
    assert (Dx : distinct x).
    { clear - I H0. induction alts as [|[n' [x' y']] alts IH]; [destruct I|]. inversion H0; subst.
      destruct I as [I|I]; [injection I as -> -> ->; assumption|apply IH; assumption]. }
    destruct (IH Dx) as (Dt & Bt). split.
    + rewrite decode_choice, (around_unwrap _ _ _ _ A). cbn [rbind]. eapply decode_alts_in; eassumption.
    + eapply around_begins; [exact A|]. intros _. econstructor; eassumption.
  - intros tg t u A _. split.
    + cbn [decode]. rewrite (around_unwrap _ _ _ _ A). reflexivity.
    + eapply around_begins; [exact A|]. intros _. constructor.
  - intros _. split; [reflexivity|exact I].
  - intros n x tg p fs vs l Np _ IH D. destruct (distinct_fields_inv _ _ _ _ _ D) as (D1 & D2 & D3). destruct (IH D2) as (F & Fo).
    destruct l as [|h l].
    + split; [|exact I]. cbn [decode_fields]. fold decode_fields. rewrite F. cbn [rbind]. destruct p; [congruence|reflexivity|reflexivity].
    + split; [|apply FollowsLater; assumption]. cbn [decode_fields]. fold decode_fields.
      assert (Q : id_in h (first_ids x tg) = false).
      { destruct (id_in h (first_ids x tg)) eqn:Q; [|reflexivity]. exfalso. apply id_in_begins in Q. exact (D3 Np _ Q Fo). }
      rewrite Q. destruct p; [congruence| |]; rewrite F; reflexivity.
  - intros n x tg p fs v vs t l _ IHx _ IH D. destruct (distinct_fields_inv _ _ _ _ _ D) as (D1 & D2 & D3). destruct (IHx D1) as (Dt & B).
    destruct (IH D2) as (F & _). split; [|apply FollowsHere; exact B]. cbn [decode_fields]. fold decode_fields.
    rewrite (proj2 (id_in_begins x tg t) B), Dt. cbn [rbind]. rewrite F. cbn [rbind]. destruct p; reflexivity.
  - intros x _. reflexivity.
  - intros x v vs t l _ IHx _ IH D. destruct (IHx D) as (Dt & _). cbn [decode_all]. fold decode_all. rewrite Dt. cbn [rbind].
    rewrite (IH D). reflexivity.
Qed.

(** ** What is read was written *)

Lemma id_implicit a n t : id_in t (first_ids a (Implicit n)) = true -> t_class t = 2 /\ t_tag t = n.
Proof. intros H. apply id_in_begins in H. inversion H. split; reflexivity. Qed.

Fixpoint decode_spells (a : asn) : forall tg t v, taggable a = true ->
  (open_type a = true -> forall n, tg = Implicit n -> t_class t = 2 /\ t_tag t = n) ->
  decode a tg t = Ok v -> spells true a tg v t.
Proof.
  destruct a as [tag|fs|c|c|alts|]; intros tg t v W I H.
  - cbn [decode] in H. destruct (expect tg false tag t) as [u|] eqn:U; [|discriminate H]. injection H as <-.
    constructor. apply expect_bears. exact U.
  - rewrite decode_seq in H. destruct (expect tg true 16 t) as [u|] eqn:U; [|discriminate H]. cbn [rbind] in H.
    destruct (parse_all (t_contents u)) as [l|] eqn:P; [|discriminate H]. cbn [rbind] in H.
    destruct (decode_fields fs l) as [vs|] eqn:F; [|discriminate H]. injection H as <-.
    apply parse_all_iff in P. destruct P as [V E]. apply expect_bears in U. rewrite E in U.
    eapply SpellsSeq; [exact U|exact V|]. clear U V E u t I tg. cbn [taggable] in W. revert l vs F.
    induction fs as [|[n [x [y p]]] fs IH]; intros l vs F.
    { cbn [decode_fields] in F. destruct l; [|discriminate F]. injection F as <-. constructor. }
    cbn [forallb] in W. apply andb_prop in W. destruct W as [W W']. apply andb_prop in W. destruct W as [W1 W2].
    specialize (IH W'). cbn [decode_fields] in F. fold decode_fields in F.
    destruct l as [|h l].
    + destruct (decode_fields fs []) as [ws|] eqn:G; [|destruct p; discriminate F].
      destruct p; [discriminate F| |]; injection F as <-; (constructor; [discriminate|apply IH; exact G]).
    + destruct (match p with Required => true | _ => id_in h (first_ids x y) end) eqn:Q.
      * destruct (decode x y h) as [w|] eqn:D; [|discriminate F]. cbn [rbind] in F.
        destruct (decode_fields fs l) as [ws|] eqn:G; [|discriminate F]. injection F as <-.
        constructor; [|apply IH; exact G]. apply decode_spells; [exact W1| |exact D].
        intros O m ->. destruct p.
        { rewrite O in W2. discriminate W2. }
        { exact (id_implicit x m h Q). } { exact (id_implicit x m h Q). }
      * destruct (decode_fields fs (h :: l)) as [ws|] eqn:G; [|discriminate F]. injection F as <-.
        constructor; [destruct p; congruence|apply IH; exact G].
  - rewrite decode_seqof in H. destruct (expect tg true 16 t) as [u|] eqn:U; [|discriminate H]. cbn [rbind] in H.
    destruct (parse_all (t_contents u)) as [l|] eqn:P; [|discriminate H]. cbn [rbind] in H.
    destruct (decode_all c l) as [vs|] eqn:F; [|discriminate H]. injection H as <-.
    apply parse_all_iff in P. destruct P as [V E]. apply expect_bears in U. rewrite E in U.
    eapply SpellsSeqOf; [exact U|exact V|]. clear U V E u t I tg. cbn [taggable] in W. revert vs F.
    induction l as [|h l IH]; intros vs F; cbn [decode_all] in F; fold decode_all in F.
    { injection F as <-. constructor. }
    destruct (decode c Untagged h) as [w|] eqn:D; [|discriminate F]. cbn [rbind] in F.
    destruct (decode_all c l) as [ws|] eqn:G; [|discriminate F]. injection F as <-.
    constructor; [|apply IH; reflexivity]. apply decode_spells; [exact W|intros _ n N; discriminate N|exact D].
  - rewrite decode_setof in H. destruct (expect tg true 17 t) as [u|] eqn:U; [|discriminate H]. cbn [rbind] in H.
    destruct (parse_all (t_contents u)) as [l|] eqn:P; [|discriminate H]. cbn [rbind] in H.
    destruct (decode_all c l) as [vs|] eqn:F; [|discriminate H]. injection H as <-.
    apply parse_all_iff in P. destruct P as [V E]. apply expect_bears in U. rewrite E in U.
    eapply SpellsSetOf; [exact U|exact V|]. clear U V E u t I tg. cbn [taggable] in W. revert vs F.
    induction l as [|h l IH]; intros vs F; cbn [decode_all] in F; fold decode_all in F.
    { injection F as <-. constructor. }
    destruct (decode c Untagged h) as [w|] eqn:D; [|discriminate F]. cbn [rbind] in F.
    destruct (decode_all c l) as [ws|] eqn:G; [|discriminate F]. injection F as <-.
    constructor; [|apply IH; reflexivity]. apply decode_spells; [exact W|intros _ n N; discriminate N|exact D].
  - rewrite decode_choice in H. destruct (unwrap tg t) as [u|] eqn:U; [|discriminate H]. cbn [rbind] in H.
    apply unwrap_around in U; [|exact (I eq_refl)].
    assert (K : exists n x y w, v = VChoice n w /\ In (n, (x, y)) alts /\ spells true x y w u).
    { clear U I t tg. cbn [taggable] in W. revert W H. induction alts as [|[n [x y]] alts IH]; intros W H; [discriminate H|].
      cbn [forallb] in W. apply andb_prop in W. destruct W as [W W']. cbn [decode_alts] in H. fold (decode_alts u) in H.
      destruct (id_in u (first_ids x y)) eqn:Q.
      - destruct (decode x y u) as [w|] eqn:D; [|discriminate H]. injection H as <-. exists n, x, y, w.
        split; [reflexivity|]. split; [left; reflexivity|]. apply decode_spells; [exact W| |exact D].
        intros _ m ->. exact (id_implicit x m u Q).
      - destruct (IH W' H) as (n' & x' & y' & w & E & J & K). exists n', x', y', w. split; [exact E|]. split; [right; exact J|exact K]. }
    destruct K as (n & x & y & w & -> & J & K). econstructor; eassumption.
  - cbn [decode] in H. destruct (unwrap tg t) as [u|] eqn:U; [|discriminate H]. injection H as <-. constructor.
    apply unwrap_around; [exact U|exact (I eq_refl)].
Qed.

Theorem load_iff a b v : distinct a -> taggable a = true -> load a b = Ok v <-> written true a v b.
Proof.
  intros D W. unfold load, written. split.
  - destruct (parse_tlv b) as [[t r]|] eqn:P; [|discriminate]. cbn [rbind]. intros H. apply parse_tlv_iff in P. destruct P as [V E].
    exists t, r. split; [exact E|]. split; [exact V|]. apply decode_spells; [exact W|intros _ n N; discriminate N|exact H].
  - intros (t & r & E & V & H). rewrite (proj2 (parse_tlv_iff _ _ _) (conj V E)). cbn [rbind].
    exact (proj1 (proj1 (spells_decode true) _ _ _ _ H D)).
Qed.

Theorem written_load a b v : distinct a -> written true a v b -> load a b = Ok v.
Proof.
  intros D (t & r & E & V & H). unfold load. rewrite (proj2 (parse_tlv_iff _ _ _) (conj V E)). cbn [rbind].
  exact (proj1 (proj1 (spells_decode true) _ _ _ _ H D)).
Qed.
Theorem load_written a b v : taggable a = true -> load a b = Ok v -> written true a v b.
Proof.
  unfold load, written. intros W. destruct (parse_tlv b) as [[t r]|] eqn:P; [|discriminate]. cbn [rbind]. intros H.
  apply parse_tlv_iff in P. destruct P as [V E]. exists t, r. split; [exact E|]. split; [exact V|].
  apply decode_spells; [exact W|intros _ n N; discriminate N|exact H].
Qed.
(** A value of a type, and what is decoded. *)
Lemma decoded_is a t v : distinct a -> spells true a Untagged v t -> decode a Untagged t = Ok v.
Proof. intros D H. exact (proj1 (proj1 (spells_decode true) _ _ _ _ H D)). Qed.
Lemma is_decoded a t v : taggable a = true -> decode a Untagged t = Ok v -> spells true a Untagged v t.
Proof. intros W H. apply decode_spells; [exact W|intros _ n N; discriminate N|exact H]. Qed.
(** What is written is found by computation. *)
Ltac computed :=
  lazymatch goal with
  | |- _ = _ => idtac
  | _ => first [apply load_written; [vm_compute; reflexivity|] | apply is_decoded; [vm_compute; reflexivity|] | idtac]
  end; vm_compute; reflexivity.
(** Decides that fields and alternatives can be told apart. *)
Ltac apart :=
  match goal with |- distinct ?x => let l := eval cbv in x in change (distinct l) end;
  repeat match goal with
  | |- Forall _ _ => constructor
  | |- distinct _ => constructor
  | |- distinct_fields _ => constructor
  | |- distinct_alts _ => constructor
  end;
  intros; intro; told.

Lemma all_taggable : forallb taggable declarations = true.
Proof. vm_compute. reflexivity. Qed.
Theorem load_declared a b v : In a declarations -> load a b = Ok v <-> written true a v b.
Proof.
  intros I. apply load_iff; [exact (proj1 (Forall_forall _ _) all_distinct a I)|].
  exact (proj1 (forallb_forall _ _) all_taggable a I).
Qed.

(** ** Definite lengths are a special case *)

Lemma element_value cls con tag c b : element cls con tag c b ->
  exists h, b = tlv_dump (mkTlv cls con tag h c []) /\ value (mkTlv cls con tag h c []).
Proof.
  intros [lo Hc Ht L]. exists ([identifier cls con tag] ++ lo). split.
  - unfold tlv_dump. cbn [t_header t_contents t_trailer]. rewrite app_nil_r. reflexivity.
  - left. exists [identifier cls con tag], lo. cbn [t_header t_contents t_trailer t_class t_cons t_tag].
    split; [reflexivity|]. split; [constructor; assumption|]. split; [exact L|reflexivity].
Qed.
Lemma outer_around b tg d d' : outer tg d d' -> forall t, d = tlv_dump t -> value t ->
  exists t', d' = tlv_dump t' /\ value t' /\ around b tg t' t.
Proof.
  intros [d0|n d0 d0' E] t -> V.
  - exists t. split; [reflexivity|]. split; [exact V|constructor].
  - destruct (element_value _ _ _ _ _ E) as (h & -> & V'). eexists. split; [reflexivity|]. split; [exact V'|].
    eapply AroundExplicit with (rest := []); [reflexivity|reflexivity|reflexivity|exact V|cbn; rewrite app_nil_r; reflexivity|right; reflexivity].
Qed.
Lemma tagged_bears b con tag c tg d : tagged con tag c tg d -> exists t, d = tlv_dump t /\ value t /\ bears b con tag tg t c.
Proof.
  intros [n d0 E|tg' d0 d' E O].
  - destruct (element_value _ _ _ _ _ E) as (h & -> & V). eexists. split; [reflexivity|]. split; [exact V|].
    apply (Bears b con tag (Implicit n) (mkTlv 2 con n h c []) (mkTlv 2 con n h c [])); [constructor; reflexivity|reflexivity|reflexivity].
  - destruct (element_value _ _ _ _ _ E) as (h & -> & V). destruct (outer_around b _ _ _ O _ eq_refl V) as (t' & E' & V' & A).
    exists t'. split; [exact E'|]. split; [exact V'|].
    apply (Bears b con tag tg' t' (mkTlv 0 con tag h c [])); [exact A|reflexivity|]. destruct O; reflexivity.
Qed.
Lemma undeclared_value t : undeclared t -> value t.
Proof.
  intros [T E]. destruct (element_value _ _ _ _ _ E) as (h & Ed & V).
  assert (Eh : t_header t = h).
  { unfold tlv_dump in Ed. rewrite T in Ed. cbn [t_header t_contents t_trailer] in Ed. rewrite !app_nil_r in Ed.
    apply app_inv_tail in Ed. exact Ed. }
  destruct t as [x1 x2 x3 x4 x5 x6]. cbn in *. subst. exact V.
Qed.
Lemma encodes_spells b :
  (forall a tg v d, encodes a tg v d -> exists t, d = tlv_dump t /\ value t /\ spells b a tg v t) /\
  (forall fs vs c, encodes_fields fs vs c -> exists l, c = concat (map tlv_dump l) /\ Forall value l /\ spells_fields b fs vs l) /\
  (forall x vs c, encodes_all x vs c -> exists l, c = concat (map tlv_dump l) /\ Forall value l /\ spells_all b x vs l).
Proof.
  apply encodes_ind3.
  - intros tag tg c d T. destruct (tagged_bears b _ _ _ _ _ T) as (t & E & V & B). exists t. split; [exact E|]. split; [exact V|]. constructor. exact B.
  - intros fs vs c tg d _ (l & -> & F & H) T. destruct (tagged_bears b _ _ _ _ _ T) as (t & E & V & B).
    exists t. split; [exact E|]. split; [exact V|]. econstructor; eassumption.
  - intros x vs c tg d _ (l & -> & F & H) T. destruct (tagged_bears b _ _ _ _ _ T) as (t & E & V & B).
    exists t. split; [exact E|]. split; [exact V|]. econstructor; eassumption.
  - intros x vs c tg d _ (l & -> & F & H) T. destruct (tagged_bears b _ _ _ _ _ T) as (t & E & V & B).
    exists t. split; [exact E|]. split; [exact V|]. econstructor; eassumption.
  - intros alts n x y v tg d d' I _ (t & E & V & H) O. destruct (outer_around b _ _ _ O t E V) as (t' & E' & V' & A).
    exists t'. split; [exact E'|]. split; [exact V'|]. econstructor; eassumption.
  - intros t tg d U O. destruct (outer_around b _ _ _ O t eq_refl (undeclared_value t U)) as (t' & E' & V' & A).
    exists t'. split; [exact E'|]. split; [exact V'|]. constructor. exact A.
  - intros t n U C T. exists t. split; [reflexivity|]. split; [apply undeclared_value; exact U|]. constructor. constructor; assumption.
  - exists []. split; [reflexivity|]. split; constructor.
  - intros n x tg p fs vs c Np _ (l & E & F & H). exists l. split; [exact E|]. split; [exact F|]. constructor; assumption.
  - intros n x tg p fs v vs d c _ (t & -> & V & Ht) _ (l & -> & F & H). exists (t :: l). split; [reflexivity|].
    split; constructor; assumption.
  - intros x. exists []. split; [reflexivity|]. split; constructor.
  - intros x v vs d c _ (t & -> & V & Ht) _ (l & -> & F & H). exists (t :: l). split; [reflexivity|]. split; constructor; assumption.
Qed.
Theorem encodes_written b a v d rest : encodes a Untagged v d -> written b a v (d ++ rest).
Proof.
  intros H. destruct (proj1 (encodes_spells b) _ _ _ _ H) as (t & -> & V & Ht). exists t, rest.
  split; [reflexivity|]. split; [exact V|exact Ht].
Qed.

(** ** Everything else is a ValueError *)

Theorem load_error a b e : load a b = Err e -> e_class e = ValueError.
Proof.
  intros H. apply (ve_err _ (load a b) e); [|exact H]. apply ve_load.
Qed.

(** ** What the library overlooks *)

Definition overlooked : bytes := [xa2; x04; x80; x00; x80; x00].
Lemma overlooked_read : load SpcLink overlooked = Ok (VChoice "file" (VChoice "unicode" (VPrim []))).
Proof. vm_compute. reflexivity. Qed.
Lemma overlooked_never v : ~ written false SpcLink v overlooked.
Proof.
  intros (t & rest & E & V & H).
  assert (P : parse_tlv overlooked = Ok (mkTlv 2 true 2 [xa2; x04] [x80; x00; x80; x00] [], [])) by (vm_compute; reflexivity).
  rewrite (proj2 (parse_tlv_iff _ t rest) (conj V E)) in P. injection P as -> _.
  assert (N : forall u, ~ around false (Explicit 2) (mkTlv 2 true 2 [xa2; x04] [x80; x00; x80; x00] []) u).
  { intros u A. inversion A as [| |n t' u' r C1 C2 C3 V' E' L]; subst. cbn [t_contents] in E'.
    destruct L as [L|L]; [discriminate L|]. subst r.
    assert (P : parse_tlv [x80; x00; x80; x00] = Ok (mkTlv 2 false 0 [x80; x00] [] [], [x80; x00])) by (vm_compute; reflexivity).
    rewrite (proj2 (parse_tlv_iff _ u []) (conj V' E')) in P. injection P as _ P. discriminate P. }
  inversion H as [| | | |alts n x y w tg t' u A I K|]; subst. inversion A; subst.
  destruct I as [I|[I|[I|[]]]]; injection I as <- <- <-.
  - inversion K as [? ? ? ? B| | | | |]; subst. inversion B as [? ? ? A' _ J]; subst. inversion A'; subst. discriminate J.
  - inversion K as [|? ? ? ? ? B| | | |]; subst. inversion B as [? ? ? A' _ J]; subst. inversion A'; subst. discriminate J.
  - inversion K as [| | | |? ? ? ? ? ? ? ? A' _ _|]; subst. exact (N _ A').
Qed.
