(** Proofs that what is accepted was written; statements in PropertiesAccepted.v.  Reading. *)
From Coq Require Import Lia ZifyBool ZifyNat.
From Verif Require Import Base Monad ModelX509 ModelPkcs7 ModelLazy ModelDer ModelSpc ModelDecode SpecAsn ProofsDer ProofsAsn ProofsAsn2.
From Verif Require Import ProofsDecode2 ProofsDecode3 ProofsLazy2 SpecPrim SpecTime ProofsTime ProofsPrim4 SpecBer SpecStl ProofsStl SpecRead ProofsRead ProofsBer2
  SpecEnvelope ProofsEnvelope ProofsEnvelope2 SpecShown.
From Verif Require SpecPkcs7.
From Verif Require Import SpecAccepted.

(** ** From the fields to the structure *)

Lemma match_aligned : forall fs l d vs, match_fields fs l = Ok d -> aligned fs vs d -> decode_fields fs l = Ok vs.
Proof.
  induction fs as [|[n [x [tg p]]] fs IH]; intros l d vs M Al.
  - destruct l; cbn in M; [|discriminate M]. injection M as <-. inversion Al. reflexivity.
  - cbn [decode_fields]; fold decode_fields. destruct l as [|t l].
    + destruct p; cbn [match_fields] in M; [discriminate M| |];
        inv M d' Hd; injection M as <-; inversion Al as [|? ? ? ? ? ? ? Al'|]; subst; rewrite (IH _ _ _ Hd Al'); reflexivity.
    + assert (M' : (if match p with Required => true | _ => id_in t (first_ids x tg) end
                    then let? d := match_fields fs l in Ok ((n, Some t) :: d)
                    else let? d := match_fields fs (t :: l) in Ok ((n, None) :: d)) = Ok d) by (destruct p; exact M).
      clear M. destruct (match p with Required => true | _ => id_in t (first_ids x tg) end).
      * inv M' d' Hd. injection M' as <-. inversion Al as [| |? ? ? ? ? ? ? ? ? D Al']; subst. rewrite D. cbn [rbind].
        rewrite (IH _ _ _ Hd Al'). reflexivity.
      * inv M' d' Hd. injection M' as <-. inversion Al as [|? ? ? ? ? ? ? Al'|]; subst. rewrite (IH _ _ _ Hd Al'). reflexivity.
Qed.
Lemma close_seq a' fs tg t b d vs : contents_of a' tg t = Ok b -> children a' b = Ok d ->
  a' = ASeq (seq_fields a') -> alike fs (seq_fields a') -> aligned fs vs d -> decode (ASeq fs) tg t = Ok (VSeq vs).
Proof.
  intros C K E A Al. rewrite E in C. cbn [contents_of] in C. rewrite decode_seq. inv C u Hu. injection C as <-. unfold children in K.
  rewrite Hu. cbn [rbind]. inv K l Hl. rewrite Hl. cbn [rbind].
  rewrite <- (match_fields_alike _ _ A) in K. rewrite (match_aligned _ _ _ _ K Al). reflexivity.
Qed.

Fixpoint with_shape (fs : list (string * (asn * (tagging * presence)))) (Q : dict (option tlv) -> Prop) : Prop :=
  match fs with
  | [] => Q []
  | (n, (x, (tg, p))) :: fs' =>
      match p with
      | Required => forall t, with_shape fs' (fun d => Q ((n, Some t) :: d))
      | _ => forall o, match o with Some t => id_in t (first_ids x tg) = true | None => True end ->
               with_shape fs' (fun d => Q ((n, o) :: d))
      end
  end.
Lemma by_shape : forall fs l d Q, match_fields fs l = Ok d -> with_shape fs Q -> Q d.
Proof.
  induction fs as [|[n [x [tg p]]] fs IH]; intros l d Q M S.
  - destruct l; cbn in M; [|discriminate M]. injection M as <-. exact S.
  - destruct l as [|t l].
    + destruct p; cbn [match_fields] in M; [discriminate M| |];
        inv M d' Hd; injection M as <-; exact (IH _ _ (fun d => Q ((n, None) :: d)) Hd (S None I)).
    + destruct p; cbn [match_fields] in M.
      * inv M d' Hd; injection M as <-; exact (IH _ _ (fun d => Q ((n, Some t) :: d)) Hd (S t)).
      * destruct (id_in t (first_ids x tg)) eqn:G; inv M d' Hd; injection M as <-;
          [exact (IH _ _ (fun d => Q ((n, Some t) :: d)) Hd (S (Some t) G))|exact (IH _ _ (fun d => Q ((n, None) :: d)) Hd (S None I))].
      * destruct (id_in t (first_ids x tg)) eqn:G; inv M d' Hd; injection M as <-;
          [exact (IH _ _ (fun d => Q ((n, Some t) :: d)) Hd (S (Some t) G))|exact (IH _ _ (fun d => Q ((n, None) :: d)) Hd (S None I))].
Qed.
Lemma children_shape a b d Q : children a b = Ok d -> with_shape (seq_fields a) Q -> Q d.
Proof. intros K. unfold children in K. inv K l Hl. exact (by_shape _ _ _ Q K). Qed.

(** The values of the fields of [a]: to be followed by [intros], [told] and [intros]. *)
Ltac shape K a :=
  match type of K with
  | children _ ?b = Ok ?d =>
      let K' := fresh "K" in pose proof K as K'; revert K;
      repeat match goal with H : context [d] |- _ => tryif constr_eq H K' then fail else revert H end;
      pattern d; match goal with |- ?P d => let Q := fresh "Shape" in set (Q := P); apply (children_shape _ _ _ Q K') end; clear K'; clear d;
      cbv beta iota delta [with_shape seq_fields a field field_with]
  end.
Ltac told := match goal with Q := _ |- ?Q' _ => constr_eq Q Q'; unfold Q; clear Q; cbv beta end.
Ltac rd H :=
  repeat (match type of H with
          | context [read ?a (Ok ?d) ?n ?k] =>
              let E := open_constr:(proj2 (read_at a d n _ _ _ _ k eq_refl eq_refl)) in rewrite E in H
          | context [read_field ?a (Ok ?d) ?n ?k] =>
              first [let E := open_constr:(proj1 (read_at a d n _ _ _ _ k eq_refl eq_refl)) in rewrite E in H
                    |let E := open_constr:(read_absent a d n k eq_refl) in rewrite E in H]
          end; cbn [rbind] in H).

(** ** Primitive values and lists *)

Lemma prim_back tag tg t b : contents_of (APrim tag) tg t = Ok b -> decode (APrim tag) tg t = Ok (VPrim b).
Proof. cbn [contents_of decode]. intros H. inv H u Hu. injection H as <-. rewrite Hu. reflexivity. Qed.
Lemma oid_back names tg t s : read_oid names (APrim 6) tg t = Ok s ->
  exists b, decode (APrim 6) tg t = Ok (VPrim b) /\ s = called names b.
Proof. unfold read_oid. intros H. inv H b Hb. injection H as <-. exists b. split; [exact (prim_back _ _ _ _ Hb)|symmetry; apply called_is]. Qed.
Lemma int_back tg t z : read_int (APrim 2) tg t = Ok z -> exists b, decode (APrim 2) tg t = Ok (VPrim b) /\ z = signed_integer b.
Proof. unfold read_int. intros H. inv H b Hb. injection H as <-. exists b. split; [exact (prim_back _ _ _ _ Hb)|symmetry; apply integer_is]. Qed.
Lemma any_back tg t u : unwrap tg t = Ok u -> decode AAny tg t = Ok (VAny u).
Proof. cbn [decode]. intros ->. reflexivity. Qed.
Lemma all_any : forall l, decode_all AAny l = Ok (map VAny l).
Proof. induction l as [|t l IH]; [reflexivity|]. cbn [decode_all map]. fold decode_all. cbn [decode unwrap rbind]. rewrite IH. reflexivity. Qed.
Lemma set_back x tg t l : items_of (ASetOf x) tg t = Ok l -> decode (ASetOf AAny) tg t = Ok (VList (map VAny l)).
Proof.
  unfold items_of. cbn [contents_of]. intros H. inv H b Hb. inv Hb u Hu. injection Hb as <-. rewrite decode_setof, Hu. cbn [rbind].
  rewrite H. cbn [rbind]. rewrite all_any. reflexivity.
Qed.
Lemma all_back {A} (f : tlv -> res A) x : (forall t y, f t = Ok y -> exists v, decode x Untagged t = Ok v) ->
  forall ts ys, map_res f ts = Ok ys -> exists vs, decode_all x ts = Ok vs.
Proof.
  intros H. induction ts as [|t ts IH]; intros ys Q; cbn [map_res] in Q; [exists []; reflexivity|].
  inv Q y Hy. inv Q zs Hzs. destruct (H _ _ Hy) as (v & D). destruct (IH _ Hzs) as (vs & Ds). exists (v :: vs).
  cbn [decode_all]. fold decode_all. rewrite D. cbn [rbind]. rewrite Ds. reflexivity.
Qed.
Lemma setof_back {A} (f : tlv -> res A) x x' tg t ts ys : (forall t y, f t = Ok y -> exists v, decode x Untagged t = Ok v) ->
  items_of (ASetOf x') tg t = Ok ts -> map_res f ts = Ok ys -> exists v, decode (ASetOf x) tg t = Ok v.
Proof.
  intros H I M. destruct (all_back f x H _ _ M) as (vs & D). unfold items_of in I. cbn [contents_of] in I. inv I b Hb. inv Hb u Hu.
  injection Hb as <-. exists (VList vs). rewrite decode_setof, Hu. cbn [rbind]. rewrite I. cbn [rbind]. rewrite D. reflexivity.
Qed.
Lemma seqof_back {A} (f : tlv -> res A) x x' tg t ts ys : (forall t y, f t = Ok y -> exists v, decode x Untagged t = Ok v) ->
  items_of (ASeqOf x') tg t = Ok ts -> map_res f ts = Ok ys -> exists v, decode (ASeqOf x) tg t = Ok v.
Proof.
  intros H I M. destruct (all_back f x H _ _ M) as (vs & D). unfold items_of in I. cbn [contents_of] in I. inv I b Hb. inv Hb u Hu.
  injection Hb as <-. exists (VList vs). rewrite decode_seqof, Hu. cbn [rbind]. rewrite I. cbn [rbind]. rewrite D. reflexivity.
Qed.
Ltac present D := eapply AlignedPresent; [exact D|].
Ltac close a fs Hb K := eapply (close_seq a (seq_fields fs) _ _ _ _ _ Hb K eq_refl); [alike|].

(** An optional field. *)
Definition opt_decode (x : asn) (tg : tagging) (o : option tlv) (v : option aval) : Prop :=
  match o, v with
  | Some t, Some v => decode x tg t = Ok v
  | None, None => True
  | _, _ => False
  end.
Lemma AlignedOpt n x tg p o v fs vs d : opt_decode x tg o v -> aligned fs vs d -> aligned ((n, (x, (tg, p))) :: fs) (v :: vs) ((n, o) :: d).
Proof. destruct o, v; cbn [opt_decode]; intros H Al; try contradiction H; constructor; assumption. Qed.
Lemma opt_some x tg o : match o with Some u => exists v, decode x tg u = Ok v | None => True end -> exists v, opt_decode x tg o v.
Proof. destruct o as [u|]; [intros (v & D); exists (Some v); exact D|exists None; exact I]. Qed.
Lemma opt_any tg o : (forall n, tg <> Explicit n) -> opt_decode AAny tg o (option_map VAny o).
Proof. intros N. destruct o as [t|]; [|exact I]. cbn [option_map opt_decode decode]. destruct tg; [reflexivity|reflexivity|exfalso; exact (N _ eq_refl)]. Qed.
Ltac maybe D := eapply AlignedOpt; [exact D|].

(** ** Names, algorithms and times *)

Lemma ava_back t x : read_ava t = Ok x -> exists v, decode X509Attribute Untagged t = Ok v.
Proof.
  unfold read_ava. intros H. inv H b Hb. cbv zeta in H. destruct (children NameTypeAndValue b) as [d|] eqn:K; [|discriminate H].
  shape K NameTypeAndValue. intros t1 t2. told. intros H K. rd H. inv H oid Ho. inv Ho c Hc. eexists. close NameTypeAndValue X509Attribute Hb K.
  present (prim_back _ _ _ _ Hc). present (any_back Untagged t2 t2 eq_refl). constructor.
Qed.
Lemma rdn_back t x : read_rdn t = Ok x -> exists v, decode (ASetOf X509Attribute) Untagged t = Ok v.
Proof. unfold read_rdn. intros H. inv H l Hl. inv H avas Ha. exact (setof_back _ _ _ _ _ _ _ ava_back Hl Ha). Qed.
Lemma name_back tg t n : read_name Name tg t = Ok n -> exists v, decode X509Name tg t = Ok v /\ name_means v n.
Proof.
  intros R. pose proof R as H. unfold read_name in H. inv H l Hl. destruct (seqof_back _ _ _ _ _ _ _ rdn_back Hl H) as (v & D).
  exists v. split; [exact D|]. apply (name_iff _ _ _ D). exact R.
Qed.

Lemma algorithm_back names tg t s : la_name (read_algid names AlgorithmIdentifier tg t) = Ok s ->
  exists oid params, decode X509Algorithm tg t = Ok (VSeq [Some (VPrim oid); params]) /\ s = called names oid.
Proof.
  unfold read_algid. cbn [la_name]. intros H. destruct (contents_of AlgorithmIdentifier tg t) as [b|] eqn:Hb; [|discriminate H].
  cbn [rbind] in H. destruct (children AlgorithmIdentifier b) as [d|] eqn:K; [|discriminate H].
  shape K AlgorithmIdentifier. intros t1 o _. told. intros H K. rd H. destruct (oid_back _ _ _ _ H) as (oid & D & ->). exists oid.
  eexists. split; [|reflexivity]. close AlgorithmIdentifier X509Algorithm Hb K. present D. maybe (opt_any Untagged o ltac:(discriminate)). constructor.
Qed.
Lemma digest_back tg t n : lz_digest_algorithm (read_algid digest_algorithms AlgorithmIdentifier tg t) = Ok n ->
  exists v, decode X509Algorithm tg t = Ok v /\ digest_in v n.
Proof.
  unfold lz_digest_algorithm. intros H. inv H s Hs. destruct (str_mem s accepted_digest_algorithms) eqn:M; cbn [negb] in H; [|discriminate H].
  inv H p Hp. destruct p; [discriminate H|]. injection H as ->.
  destruct (algorithm_back _ _ _ _ Hs) as (oid & params & D & E). eexists. split; [exact D|].
  exists (mkAlgid n false). split.
  - exists oid, params. split; [reflexivity|]. split; [exact E|].
    destruct (open_seq AlgorithmIdentifier _ _ _ _ D eq_refl ltac:(alike)) as (b & d & C & K & Al).
    unfold read_algid in Hp. cbn [la_params] in Hp. rewrite C in Hp. cbn [rbind] in Hp. rewrite K in Hp.
    destruct params as [x|]; [|reflexivity].
    edestruct (at_present 1 AlgorithmIdentifier) as (t1 & D1 & _ & R1 & _); [exact Al|names|reflexivity|reflexivity|reflexivity|].
    rewrite R1 in Hp. cbn [rbind] in Hp. cbn [decode unwrap rbind] in D1. injection D1 as <-. exists t1. split; [reflexivity|].
    injection Hp as Hp. cbn [alg_has_params]. split; [|reflexivity]. intros _. apply truthy_is. exact Hp.
  - split; [reflexivity|]. split; [|reflexivity]. revert M. clear. unfold accepted_digest_algorithms, str_mem. cbn [existsb].
    rewrite !Bool.orb_true_iff, !String.eqb_eq. cbn [In]. intuition congruence.
Qed.

Lemma choice_back {A} alts alts' tg t (k : string -> asn -> tagging -> tlv -> res A) r :
  choice_of (AChoice alts') tg t k = Ok r -> alike_alts alts alts' ->
  exists i n x y x' y' u, nth_error alts i = Some (n, (x, y)) /\ nth_error alts' i = Some (n, (x', y')) /\
    unwrap tg t = Ok u /\ k n x' y' u = Ok r /\ forall v, decode x y u = Ok v -> decode (AChoice alts) tg t = Ok (VChoice n v).
Proof.
  cbn [choice_of]. intros H L. inv H u Hu. rewrite decode_choice, Hu. cbn [rbind]. revert alts L H.
  induction alts' as [|[n' [x' y']] alts' IH]; intros [|[n [x y]] alts] L H; try contradiction L; cbn [find_alt] in H; [discriminate H|].
  cbn [alike_alts] in L. destruct L as (<- & E & L). destruct (id_in u (first_ids x' y')) eqn:J.
  - exists 0%nat, n, x, y, x', y', u. repeat (split; [reflexivity|]). split; [exact H|]. intros v D. cbn [decode_alts]. rewrite E, J, D. reflexivity.
  - destruct (IH _ L H) as (i & m & x2 & y2 & x3 & y3 & w & N1 & N2 & U & Q & R). exists (S i), m, x2, y2, x3, y3, w.
    split; [exact N1|]. split; [exact N2|]. split; [exact U|]. split; [exact Q|]. intros v D. cbn [decode_alts]. fold decode_alts. rewrite E, J. exact (R v D).
Qed.
Ltac which i N1 N2 := repeat (destruct i as [|i]; [injection N1 as <- <- <-; injection N2 as <- <-|]); try (destruct i; discriminate N1).

Lemma time_back tg t z : read_time Time tg t = Ok z -> exists v, decode X509Time tg t = Ok v /\ time_means v z.
Proof.
  intros R. pose proof R as H. unfold read_time, Time in H.
  destruct (choice_back (alts_of X509Time) _ _ _ _ _ H ltac:(alike)) as (i & n & x & y & x' & y' & u & N1 & N2 & U & Q & D).
  assert (D' : exists v, decode X509Time tg t = Ok v).
  { which i N1 N2; inv Q b Hb; (eexists; apply D; exact (prim_back _ _ _ _ Hb)). }
  destruct D' as (v & D'). exists v. split; [exact D'|]. apply (time_iff _ _ _ D'). exact R.
Qed.

(** ** Certificates *)

Lemma validity_back tg t z1 z2 :
  let validity := (let? b := contents_of Validity tg t in children Validity b) in
  read Validity validity "not_before" read_time = Ok z1 -> read Validity validity "not_after" read_time = Ok z2 ->
  exists v, decode X509Validity tg t = Ok v.
Proof.
  cbv zeta. destruct (contents_of Validity tg t) as [b|] eqn:Hb; cbn [rbind]; [|discriminate].
  destruct (children Validity b) as [d|] eqn:K; [|discriminate]. intros H1 H2. shape K Validity. intros t1 t2. told. intros H1 H2 K.
  rd H1. rd H2. destruct (time_back _ _ _ H1) as (v1 & D1 & _). destruct (time_back _ _ _ H2) as (v2 & D2 & _).
  eexists. close Validity X509Validity Hb K. present D1. present D2. constructor.
Qed.
Lemma key_back tg t s p y :
  let key := (let? b := contents_of PublicKeyInfo tg t in children PublicKeyInfo b) in
  let key_alg := (let? b := read PublicKeyInfo key "algorithm" contents_of in children AlgorithmIdentifier b) in
  read AlgorithmIdentifier key_alg "algorithm" (read_oid key_algorithms) = Ok s ->
  (let? p := read_field AlgorithmIdentifier key_alg "parameters" (fun _ _ t => read_parameters t) in
   Ok (match p with Some v => v | None => PNone end)) = Ok p ->
  read PublicKeyInfo key "public_key" (fun a tg t => let? _ := contents_of a tg t in Ok (tlv_dump t)) = Ok y ->
  exists v, decode X509Key tg t = Ok v.
Proof.
  cbv zeta. destruct (contents_of PublicKeyInfo tg t) as [b|] eqn:Hb; cbn [rbind]; [|discriminate].
  destruct (children PublicKeyInfo b) as [d|] eqn:K; [|discriminate]. intros H1 _ _. shape K PublicKeyInfo. intros t1 t2. told. intros H1 K.
  rd H1. assert (A : la_name (read_algid key_algorithms AlgorithmIdentifier Untagged t1) = Ok s) by exact H1.
  destruct (algorithm_back _ _ _ _ A) as (oid & params & D & _). eexists. close PublicKeyInfo X509Key Hb K.
  present D. present (any_back Untagged t2 t2 eq_refl). constructor.
Qed.
Lemma extension_back t p : read_extension t = Ok p -> exists v, decode X509Extension Untagged t = Ok v.
Proof.
  unfold read_extension. intros H. inv H b Hb. cbv zeta in H. destruct (children Extension b) as [d|] eqn:K; [|discriminate H].
  shape K Extension. intros t1 o _ t2. told. intros H K. rd H. inv H id Hid. destruct (oid_back _ _ _ _ Hid) as (oid & D1 & _).
  destruct o as [u|]; rd H.
  - destruct (contents_of aBoolean Untagged u) as [c|] eqn:Hc; [|discriminate H]. cbn [rbind] in H.
    rd H. inv H val Hval. eexists. close Extension X509Extension Hb K. present D1. present (prim_back _ _ _ _ Hc). present (prim_back _ _ _ _ Hval). constructor.
  - inv H val Hval. eexists. close Extension X509Extension Hb K. present D1. apply AlignedAbsent. present (prim_back _ _ _ _ Hval). constructor.
Qed.
Lemma extensions_back tg t l : (let? l := items_of (ASeqOf Extension) tg t in map_res read_extension l) = Ok l ->
  exists v, decode (ASeqOf X509Extension) tg t = Ok v.
Proof. intros H. inv H ts Hts. exact (seqof_back _ _ _ _ _ _ _ extension_back Hts H). Qed.

Lemma certificate_back t c : lz_certificate (read_certificate t) = Ok c -> exists v, decode X509 Untagged t = Ok v /\ cert_means v c /\
  c_id c = identity (tlv_dump t) /\ c_der c = tlv_dump t.
Proof.
  intros R. cut (exists v, decode X509 Untagged t = Ok v).
  { intros (v & D). exists v. split; [exact D|]. apply (cert_iff _ _ D). exact R. }
  apply lz_certificate_iff in R. destruct R as (((s1 & H1) & (s2 & H2) & _ & (s4 & H4)) & (H5 & H6) & (H7 & H8) & H9 & (H10 & H11 & H12) & H13 & _).
  unfold read_certificate in *.
  cbn [lc_id lc_der lc_signature_algorithm lc_signature_value lc_tbs lc_version lc_serial lc_issuer lc_not_before lc_not_after lc_subject
       lc_key_algorithm lc_key_parameters lc_key_bits lc_extensions] in *.
  destruct (contents_of Certificate Untagged t) as [b|] eqn:Hb; cbn [rbind] in *; [|discriminate H1].
  destruct (children Certificate b) as [d|] eqn:K; [|discriminate H1].
  shape K Certificate. intros t1 t2 t3. told. intros H1 H2 H4 H5 H6 H7 H8 H9 H10 H11 H12 H13 K.
  rd H1. rd H2. rd H4. rd H5. rd H6. rd H7. rd H8. rd H9. rd H10. rd H11. rd H12. rd H13.
  cut (exists v, decode X509Body Untagged t1 = Ok v).
  { intros (v1 & D1). destruct (algorithm_back _ _ _ _ H1) as (oid & params & D2 & _). eexists. close Certificate X509 Hb K.
    present D1. present D2. present (prim_back _ _ _ _ H2). constructor. }
  clear K Hb H1 H2 b t2 t3 s1 s2.
  destruct (contents_of TbsCertificate Untagged t1) as [b|] eqn:Hb; cbn [rbind] in *; [|discriminate H5].
  destruct (children TbsCertificate b) as [d|] eqn:K; [|discriminate H5].
  shape K TbsCertificate. intros o1 _ u1 u2 u3 u4 u5 u6 o2 _ o3 _ o4 _. told. intros H4 H5 H6 H7 H8 H9 H10 H11 H12 H13 K.
  rd H5. rd H6. rd H7. rd H8. rd H9. rd H10. rd H11. rd H12.
  destruct (int_back _ _ _ H5) as (b1 & D1 & _). destruct (name_back _ _ _ H6) as (v2 & D2 & _). destruct (name_back _ _ _ H9) as (v3 & D3 & _).
  destruct (validity_back _ _ _ _ H7 H8) as (v4 & D4). destruct (key_back _ _ _ _ _ H10 H11 H12) as (v5 & D5).
  assert (V : match o1 with Some u => exists v, decode (APrim 2) (Explicit 0) u = Ok v | None => True end).
  { destruct o1 as [u|]; [|exact I]. rd H4. destruct (contents_of aInteger (Explicit 0) u) as [w|] eqn:Hw; [|discriminate H4].
    eexists. exact (prim_back _ _ _ _ Hw). }
  assert (X : match o4 with Some u => exists v, decode (ASeqOf X509Extension) (Explicit 3) u = Ok v | None => True end).
  { destruct o4 as [u|]; [|exact I]. rd H13. inv H13 o Ho. inv Ho l Hl. exact (extensions_back _ _ _ Hl). }
  clear H4 H5 H6 H7 H8 H9 H10 H11 H12 H13.
  destruct (opt_some _ _ _ V) as (x1 & V1). destruct (opt_some _ _ _ X) as (x4 & X4).
  eexists. close TbsCertificate X509Body Hb K.
  maybe V1. present D1. present (any_back Untagged u2 u2 eq_refl). present D2. present D4. present D3. present D5.
  maybe (opt_any (Implicit 1) o2 ltac:(discriminate)). maybe (opt_any (Implicit 2) o3 ltac:(discriminate)). maybe X4. constructor.
Qed.
