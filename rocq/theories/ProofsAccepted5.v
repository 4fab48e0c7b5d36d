(** Proofs that what is written is accepted; statements in PropertiesAccepted.v. *)
From Coq Require Import Lia ZifyBool ZifyNat.
From Verif Require Import Base Monad ModelX509 ModelPkcs7 ModelLazy ModelDer ModelSpc ModelDecode ModelShown SpecAsn ProofsDer ProofsAsn ProofsAsn2.
From Verif Require Import ProofsDecode2 ProofsDecode3 ProofsLazy ProofsLazy2 SpecPrim SpecTime ProofsTime ProofsPrim3 ProofsPrim4 SpecBer SpecStl ProofsStl SpecRead ProofsRead ProofsBer2
  SpecEnvelope ProofsEnvelope ProofsEnvelope2 SpecShown ProofsShown.
From Verif Require SpecPkcs7 ProofsPkcs7.
From Verif Require Import ProofsShown2 ProofsShown3 SpecAccepted ProofsAccepted ProofsAccepted2 ProofsAccepted3 ProofsAccepted4.

(** ** Parts *)

Lemma digest_at tg t v n : decode X509Algorithm tg t = Ok v -> digest_in v n ->
  lz_digest_algorithm (read_algid digest_algorithms AlgorithmIdentifier tg t) = Ok n.
Proof. intros D (a & M & A). rewrite (alg_emb _ _ _ _ D M), emb_alg_eq. apply ProofsPkcs7.accepted_ok. exact A. Qed.

(** ** Attributes *)

Lemma begins_expect con tag t : begins_with con [tag] t -> expect Untagged con tag t = Ok t.
Proof.
  intros (C & K & [G|[]]). unfold expect. cbn [unwrap rbind]. rewrite C, K, <- G. destruct con; cbn; rewrite Z.eqb_refl; reflexivity.
Qed.
Lemma begins_simple {A} tag (k : bytes -> res A) t : begins_with false [tag] t -> simple_item tag k t = Ok (k (t_contents t)).
Proof. intros B. unfold simple_item. rewrite (begins_expect _ _ _ B). reflexivity. Qed.
Lemma begins_seq a t : a = ASeq (seq_fields a) -> begins_with true [16] t -> contents_of a Untagged t = Ok (t_contents t).
Proof. intros E B. rewrite E. cbn [contents_of]. rewrite (begins_expect _ _ _ B). reflexivity. Qed.
Lemma begins_time t : begins_with false [23; 24] t -> exists x, item_time t = Ok x.
Proof.
  intros (C & K & G). unfold item_time, choice_of, Time. cbn [unwrap rbind find_alt].
  unfold id_in. cbn [first_ids existsb]. rewrite C. destruct G as [G|[G|[]]]; rewrite <- G; cbn; unfold expect; cbn [unwrap rbind]; rewrite C, K, <- G; cbn; eexists; reflexivity.
Qed.
Lemma all_read {A} (k : tlv -> res A) (P : tlv -> Prop) : (forall t, P t -> exists x, k t = Ok x) -> forall ts, Forall P ts -> exists l, map_res k ts = Ok l.
Proof.
  intros H. induction 1 as [|t ts B F (l & IH)]; [exists []; reflexivity|]. destruct (H _ B) as (x & E). cbn [map_res]. rewrite E. cbn [rbind].
  rewrite IH. eexists. reflexivity.
Qed.
Lemma plausible_read f oid v : Forall (plausible (oid_text oid)) v -> lz_readable (of_values f (called attribute_types oid) v) = Ok tt.
Proof.
  intros F. unfold of_values.
  rewrite name_content_type, name_message_digest, name_signing_time, name_counter, name_statement, name_opus, name_nested, name_token.
  generalize dependent (oid_text oid). intros typ F.
  assert (Y : forall B (k : tlv -> res B), (forall t, plausible typ t -> exists x, k t = Ok x) -> (let? _ := map_res k v in Ok tt) = Ok tt).
  { intros B k H. destruct (all_read _ _ H _ F) as (l & ->). reflexivity. }
  assert (S : In typ ["1.2.840.113549.1.9.6"; "1.3.6.1.4.1.311.2.1.11"; "1.3.6.1.4.1.311.2.1.12"; "1.3.6.1.4.1.311.2.4.1"; "1.3.6.1.4.1.311.3.3.1"] ->
              forall a t, a = ASeq (seq_fields a) -> plausible typ t -> contents_of a Untagged t = Ok (t_contents t)).
  { intros H a t E (_ & _ & _ & P). exact (begins_seq _ _ E (P H)). }
  destruct (String.eqb_spec typ "1.2.840.113549.1.9.3") as [E|N3].
  { apply Y. intros t (P & _). rewrite (begins_simple _ _ _ (P E)). eexists. reflexivity. }
  destruct (String.eqb_spec typ "1.2.840.113549.1.9.4") as [E|N4].
  { apply Y. intros t (_ & P & _). rewrite (begins_simple _ _ _ (P E)). eexists. reflexivity. }
  destruct (String.eqb_spec typ "1.2.840.113549.1.9.5") as [E|N5].
  { apply Y. intros t (_ & _ & P & _). exact (begins_time _ (P E)). }
  destruct (String.eqb_spec typ "1.2.840.113549.1.9.6") as [E|N6].
  { apply Y. intros t P. rewrite (S ltac:(rewrite E; cbn [In]; tauto) SignerInfo t eq_refl P). eexists. reflexivity. }
  destruct (String.eqb_spec typ "1.3.6.1.4.1.311.2.1.11") as [E|N11].
  { apply Y. intros t P. unfold statement_of. change (contents_of SpcStatementType Untagged t) with (contents_of (ASeq []) Untagged t).
    rewrite (S ltac:(rewrite E; cbn [In]; tauto) (ASeq []) t eq_refl P). eexists. reflexivity. }
  destruct (String.eqb_spec typ "1.3.6.1.4.1.311.2.1.12") as [E|N12].
  { apply Y. intros t P. unfold read_opus. rewrite (S ltac:(rewrite E; cbn [In]; tauto) SpcSpOpusInfo t eq_refl P). eexists. reflexivity. }
  destruct (String.eqb_spec typ "1.3.6.1.4.1.311.2.4.1") as [E|N41].
  { apply Y. intros t P. unfold info_of. rewrite (S ltac:(rewrite E; cbn [In]; tauto) ContentInfo t eq_refl P). eexists. reflexivity. }
  destruct (String.eqb_spec typ "1.3.6.1.4.1.311.3.3.1") as [E|N33].
  { apply Y. intros t P. unfold info_of. rewrite (S ltac:(rewrite E; cbn [In]; tauto) ContentInfo t eq_refl P). eexists. reflexivity. }
  cbn [lz_readable]. rewrite map_res_same. reflexivity.
Qed.
Lemma shown_attr f t typ v : show_attr t = Ok (typ, v) -> read_attr (S f) t = Ok (of_values f typ v).
Proof.
  unfold show_attr. intros H. inv H b Hb. cbv zeta in H. inv H s Hs. inv H l Hl. injection H as <- <-. cbn [read_attr]. rewrite Hb. cbn [rbind].
  rewrite Hs. cbn [rbind]. rewrite Hl. reflexivity.
Qed.
Lemma dict_read f : forall ts l, Forall2 attribute ts l -> Forall (fun a => Forall (plausible (fst a)) (snd a)) l ->
  exists au d, lz_attributes (Ok (map (read_attr (S f)) ts)) = Ok au /\ Forall2 (tied_attr f) au d /\ Forall2 named d l.
Proof.
  unfold lz_attributes. cbn [rbind]. induction 1 as [|t a ts l B F IH]; intros P; [exists [], []; split; [reflexivity|split; constructor]|].
  inversion P as [|? ? P1 P2]; subst. destruct (IH P2) as (au & d & E & T & N). destruct (attribute_told _ _ B) as ([typ v] & S & Na).
  exists (of_values f typ v :: au), ((typ, v) :: d). destruct Na as (oid & A1 & A2). pose proof A2 as A3. injection A3 as -> ->.
  rewrite A1 in P1. pose proof (plausible_read f _ _ P1) as R.
  split.
  - cbn [map map_res]. rewrite (shown_attr f _ _ _ S). cbn [rbind]. rewrite R. cbn [rbind]. rewrite E. reflexivity.
  - split; constructor; try assumption; [split; [reflexivity|exact R]|]. exists oid. split; assumption.
Qed.
Lemma last_same typ l : forall o o', last_of typ l o -> last_of typ l o' -> o = o'.
Proof.
  assert (K : forall l v r, Forall (fun a : string * list tlv => fst a <> typ) (l ++ (typ, v) :: r) -> False).
  { intros m v r F. apply Forall_app in F as (_ & F). inversion F as [|? ? N _]. exact (N eq_refl). }
  assert (J : forall l1 v1 r1 l2 v2 r2, Forall (fun a : string * list tlv => fst a <> typ) r1 -> Forall (fun a : string * list tlv => fst a <> typ) r2 ->
              l1 ++ (typ, v1) :: r1 = l2 ++ (typ, v2) :: r2 -> v1 = v2).
  { induction l1 as [|x l1 IH]; intros v1 r1 l2 v2 r2 F1 F2 E; destruct l2 as [|y l2]; cbn [app] in E.
    - injection E as E _. exact E.
    - injection E as _ E. subst r1. exfalso. exact (K _ _ _ F1).
    - injection E as _ E. subst r2. exfalso. exact (K _ _ _ F2).
    - injection E as _ E. exact (IH _ _ _ _ _ F1 F2 E). }
  intros o o' H H'. inversion H as [l1 F1|l1 v1 r1 F1 E1]; subst.
  - inversion H' as [l2 F2|l2 v2 r2 F2 E2]; subst; [reflexivity|]. exfalso. exact (K _ _ _ F1).
  - inversion H' as [l2 F2|l2 v2 r2 F2 E2]; subst.
    + exfalso. exact (K _ _ _ F2).
    + rewrite (J _ _ _ _ _ _ F1 F2 (eq_sym E2)). reflexivity.
Qed.
Lemma found_none {A} (g : lz_attr -> option (res (list A))) k o au l : finds g k o au l -> last_of o l None -> lz_values g au = None.
Proof.
  unfold finds. destruct (lz_values g au) as [xs|]; [|reflexivity]. intros (ts & L & _) H. discriminate (last_same _ _ _ _ L H).
Qed.
Lemma found_some {A} (g : lz_attr -> option (res (list A))) k o au l ts : finds g k o au l -> last_of o l (Some ts) ->
  exists xs, lz_values g au = Some xs /\ map_res k ts = Ok xs.
Proof.
  unfold finds. destruct (lz_values g au) as [xs|].
  - intros (ts' & L & M) H. pose proof (last_same _ _ _ _ L H) as E. injection E as ->. exists xs. split; [reflexivity|exact M].
  - intros L H. discriminate (last_same _ _ _ _ L H).
Qed.
Lemma found_one {A} (g : lz_attr -> option (res (list A))) k o au l t : finds g k o au l -> last_of o l (Some [t]) ->
  exists x, lz_values g au = Some [x] /\ k t = Ok x.
Proof.
  intros F L. destruct (found_some _ _ _ _ _ _ F L) as (xs & E & M). cbn [map_res] in M. inv M x Hx. injection M as <-. exists x. split; assumption.
Qed.

(** ** Signers *)

Lemma attrs_in d n i fs vs tg v ts l f : aligned fs vs d -> NoDup (map fst fs) ->
  nth_error fs i = Some (n, (ASetOf AAny, (tg, Optional))) -> nth_error vs i = Some v ->
  dict_get n (seq_fields SignerInfo) = Some (ASetOf CMSAttribute, (tg, Optional)) ->
  attributes_in v ts l ->
  exists au e, lz_attributes (let? o := read_field SignerInfo (Ok d) n items_of in
                              match o with None => Ok [] | Some l => Ok (map (read_attr (S f)) l) end) = Ok au /\
    Forall2 (tied_attr f) au e /\ Forall2 named e l /\
    match read_field SignerInfo (Ok d) n contents_of with Ok (Some b) => b | _ => [] end = concat (map tlv_dump ts).
Proof.
  intros Al ND N1 N2 G (M & F & P). destruct v as [v|]; cbn [members] in M; subst.
  - destruct (at_present i SignerInfo _ _ _ _ _ _ _ _ _ _ Al ND N1 G _ N2) as (t3 & D3 & G3 & F3 & R3).
    destruct (members_at CMSAttribute _ _ _ D3) as (I3 & C3). rewrite !F3, I3, C3. cbn [rbind].
    destruct (dict_read f _ _ F P) as (au & e & E & T & N). exists au, e. auto.
  - rewrite !(at_absent i SignerInfo _ _ _ _ _ _ _ Al ND N1 N2). cbn [rbind]. inversion F; subst. exists [], []. repeat split; constructor.
Qed.
Lemma signer_at need ex typ f t i signed unsigned : same_type ex typ -> signer_in need typ t i signed unsigned ->
  exists b auth unauth d d', contents_of SignerInfo Untagged t = Ok b /\ lz_signer need ex (read_si (S (S f)) b) = Ok (i, (auth, unauth)) /\
    Forall2 (tied_attr f) auth d /\ Forall2 named d signed /\ Forall2 (tied_attr f) unauth d' /\ Forall2 named d' unsigned.
Proof.
  intros Same H. destruct H as [t version issuer serial valg vsigned salg params signature vunsigned n alg ts1 signed ts2 unsigned x1 oid x2 digest time
    H Mn Ma At1 At2 L1 I1 Ty L2 I2 Ti Need].
  apply decoded_is in H; [|apart]. destruct (open_seq SignerInfo _ _ _ _ H eq_refl ltac:(alike)) as (b & d & C & K & Al).
  destruct (attrs_in d "signed_attrs" 3 _ _ _ _ _ _ f Al ltac:(names) eq_refl eq_refl eq_refl At1) as (auth & e & E1 & T1 & N1 & O1).
  destruct (attrs_in d "unsigned_attrs" 6 _ _ _ _ _ _ f Al ltac:(names) eq_refl eq_refl eq_refl At2) as (unauth & e' & E2 & T2 & N2 & _).
  exists b, auth, unauth, e, e'. split; [exact C|]. split; [|repeat split; assumption].
  remember (S f) as g eqn:Eg. cbn [read_si lz_signer]. rewrite K. subst g.
  fld 1%nat SignerInfo Al t1 D1 G1 F1 R1.
  assert (Sid : sid_says (VChoice "issuer_and_serial_number" (VSeq [Some issuer; Some (VPrim serial)])) (SidIssuerSerial n (signed_integer serial))).
  { exists issuer, serial. auto. }
  pose proof (sid_read _ _ _ _ D1 Sid) as ES. cbv zeta in ES. rewrite R1, ES. cbn [rbind emb_sid].
  rewrite E1. cbn [rbind].
  pose proof (find_type _ _ _ _ T1 N1) as Q1. pose proof (find_digest _ _ _ _ T1 N1) as Q2. pose proof (find_time _ _ _ _ T1 N1) as Q3.
  destruct (found_one _ _ _ _ _ _ Q1 L1) as (y1 & V1 & Y1). destruct (found_one _ _ _ _ _ _ Q2 L2) as (y2 & V2 & Y2).
  unfold item_type in Y1. unfold item_digest in Y2. rewrite (simple_at _ _ _ _ I1) in Y1. rewrite (simple_at _ _ _ _ I2) in Y2. injection Y1 as <-. injection Y2 as <-.
  rewrite V1, V2. cbn [present andb].
  assert (Tim : present (lz_values lz_signing_time auth) = (match time with Some _ => true | None => false end) /\
                lz_single (lz_values lz_signing_time auth) "Only one SigningTime expected in SignerInfo.authenticatedAttributes" = Ok time).
  { destruct time as [z|]; cbn [time_in] in Ti.
    - destruct Ti as (x & v & L3 & I3 & M3). destruct (found_one _ _ _ _ _ _ Q3 L3) as (y3 & V3 & Y3). unfold item_time in Y3.
      rewrite (time_at _ _ _ I3 M3) in Y3. injection Y3 as <-. rewrite V3. split; reflexivity.
    - rewrite (found_none _ _ _ _ _ Q3 Ti). split; reflexivity. }
  destruct Tim as (P3 & S3). rewrite P3.
  assert (B : (negb need || match time with Some _ => true | None => false end) = true).
  { destruct need; [|reflexivity]. destruct time; [reflexivity|]. exfalso. exact (Need eq_refl eq_refl). }
  rewrite B. cbn [rbind]. rewrite E2. cbn [rbind]. rewrite O1.
  fld 4%nat SignerInfo Al t4 D4 G4 F4 R4. rewrite R4. rewrite (algid_encodes _ _ _ _ _ D4). cbn [la_name rbind].
  fld 5%nat SignerInfo Al t5 D5 G5 F5 R5. rewrite R5. unfold aOctetString. rewrite (prim_at _ _ _ _ D5). cbn [rbind].
  fld 2%nat SignerInfo Al t2 D2 G2 F2 R2. rewrite R2. unfold algid_ok at 1. cbn [rbind]. rewrite (digest_at _ _ _ _ D2 Ma). cbn [rbind].
  unfold lz_single at 1 2. cbn [rbind].
  assert (X : match ex with
              | Some e => if String.eqb (oid_native content_types oid) e then Ok tt else raise SignerInfoParseError "Unexpected content type for SignerInfo"
              | None => Ok tt end = Ok tt).
  { destruct ex as [s|], typ as [ty|]; try contradiction Same; [|reflexivity]. rewrite <- called_is, (Same oid), (Ty _ eq_refl), String.eqb_refl. reflexivity. }
  rewrite X. cbn [rbind]. rewrite S3. cbn [rbind]. rewrite <- !called_is. reflexivity.
Qed.

(** ** Countersigners *)

Lemma counter_at t i : counter_in t i -> exists n, forall f depth, (n <= f)%nat -> (n <= depth)%nat ->
  exists r, item_signer f t = Ok r /\ lz_countersigner depth r = Ok i.
Proof.
  induction 1 as [t i signed unsigned H L|t i signed unsigned x j H L Hx (n & IH)].
  - exists 2%nat. intros f depth Lf Ld. destruct f as [|[|f]]; try lia. destruct depth as [|depth]; [lia|].
    destruct (signer_at true None None f _ _ _ _ I H) as (b & auth & unauth & d & d' & C & P & _ & _ & T & N).
    exists (read_si (S (S f)) b). unfold item_signer. rewrite C. split; [reflexivity|]. cbn [lz_countersigner]. rewrite P. cbn [rbind fst snd].
    unfold lz_countersignature. rewrite (found_none _ _ _ _ _ (find_counter _ _ _ _ T N) L). reflexivity.
  - exists (S (S n)). intros f depth Lf Ld. destruct f as [|[|f]]; try lia. destruct depth as [|depth]; [lia|].
    destruct (signer_at true None None f _ _ _ _ I H) as (b & auth & unauth & d & d' & C & P & _ & _ & T & N).
    exists (read_si (S (S f)) b). unfold item_signer at 1. rewrite C. split; [reflexivity|]. cbn [lz_countersigner]. rewrite P. cbn [rbind fst snd].
    unfold lz_countersignature. destruct (found_one _ _ _ _ _ _ (find_counter _ _ _ _ T N) L) as (y & V & Y). rewrite V. cbn [rbind].
    destruct (IH f depth ltac:(lia) ltac:(lia)) as (r & R & Q). rewrite R in Y. injection Y as <-. rewrite Q. reflexivity.
Qed.

(** ** Content infos *)

Lemma info_at {A} t u m (sub : lz_sd -> res A) : envelope_in t u ->
  exists c, contents_of ContentInfo Untagged t = Ok c /\
  forall f b, contents_of SignedData Untagged u = Ok b -> lz_sub m sub (read_ci (S f) c) = sub (read_sd f b).
Proof.
  intros (oid & H & E). apply decoded_is in H; [|apart]. destruct (open_seq ContentInfo _ _ _ _ H eq_refl ltac:(alike)) as (c & d & C & K & Al).
  exists c. split; [exact C|]. intros f b Hb. cbn [read_ci lz_sub]. rewrite K.
  fld 0%nat ContentInfo Al t0 D0 G0 F0 R0. rewrite R0. unfold aObjectIdentifier. rewrite (oid_at _ _ _ _ D0). cbn [rbind]. rewrite name_signed, E.
  change (String.eqb "1.2.840.113549.1.7.2" "1.2.840.113549.1.7.2") with true. cbn [negb].
  fld 1%nat ContentInfo Al t1 D1 G1 F1 R1. rewrite F1. destruct (any_iff _ _ _ D1) as (w & W & U). injection W as <-. rewrite U. cbn [rbind].
  rewrite Hb. reflexivity.
Qed.

(** ** Timestamps *)

Lemma id_of t id l : (t_class t, t_tag t) = id -> id_in t (Some l) = existsb (id_eqb id) l.
Proof. intros <-. reflexivity. Qed.
Lemma tst_fields t1 t2 t3 t4 t5 o1 o2 o3 o4 o5 :
  part_begins (0, 16) o1 -> part_begins (0, 1) o2 -> part_begins (0, 2) o3 -> part_begins (2, 0) o4 -> part_begins (2, 1) o5 ->
  match_fields (seq_fields TSTInfo) (t1 :: t2 :: t3 :: t4 :: t5 :: part o1 ++ part o2 ++ part o3 ++ part o4 ++ part o5) =
  Ok [("version", Some t1); ("policy", Some t2); ("message_imprint", Some t3); ("serial_number", Some t4); ("gen_time", Some t5);
      ("accuracy", o1); ("ordering", o2); ("nonce", o3); ("tsa", o4); ("extensions", o5)].
Proof.
  intros P1 P2 P3 P4 P5.
  assert (F1 : first_ids Accuracy Untagged = Some [(0, 16)]) by reflexivity. assert (F2 : first_ids aBoolean Untagged = Some [(0, 1)]) by reflexivity.
  assert (F3 : first_ids aInteger Untagged = Some [(0, 2)]) by reflexivity. assert (F4 : first_ids GeneralName (Explicit 0) = Some [(2, 0)]) by reflexivity.
  assert (F5 : first_ids (ASeqOf Extension) (Implicit 1) = Some [(2, 1)]) by reflexivity.
  destruct o1 as [x1|], o2 as [x2|], o3 as [x3|], o4 as [x4|], o5 as [x5|]; cbn [part_begins part app] in *;
    unfold TSTInfo; cbn [seq_fields match_fields field field_with fst snd]; rewrite ?F1, ?F2, ?F3, ?F4, ?F5;
    repeat first [ rewrite (id_of _ _ _ P1) | rewrite (id_of _ _ _ P2) | rewrite (id_of _ _ _ P3) | rewrite (id_of _ _ _ P4) | rewrite (id_of _ _ _ P5) ];
    reflexivity.
Qed.
Lemma any_inj : forall l m, map VAny l = map VAny m -> l = m.
Proof. induction l as [|x l IH]; intros [|y m] E; cbn [map] in E; try discriminate E; [reflexivity|]. injection E as -> E. f_equal. exact (IH _ E). Qed.
Ltac rg := match goal with |- context [read_field ?a (Ok ?d) ?n ?k] =>
  first [let E := open_constr:(proj1 (read_at a d n _ _ _ _ k eq_refl eq_refl)) in rewrite E | rewrite (read_absent a d n k eq_refl)] end.
Lemma tst_at t i : tst_in t i -> contents_of TSTInfo Untagged t = Ok (t_contents t) /\ lz_tst_info (LVTst (read_tst (t_contents t))) = Ok i.
Proof.
  intros H. destruct H as [t version policy imprint serial time accuracy ordering nonce tsa extensions b1 b2 alg n digest b4 b5 z us
    H P1 P2 P3 P4 P5 I1 V I2 I3 A I4 I5 G Y T].
  apply decoded_is in H; [|apart]. apply decoded_is in I1, I2, I3, I4, I5; try apart.
  rewrite decode_seqof in H. inv H u Hu. inv H l Hl. inv H vs Hvs.
  assert (u = t) as ->.
  { unfold expect in Hu. cbn [unwrap rbind] in Hu. destruct ((t_class t =? 0) && _ && _); [|discriminate Hu]. injection Hu as <-. reflexivity. }
  assert (C : contents_of TSTInfo Untagged t = Ok (t_contents t)).
  { unfold TSTInfo. cbn [contents_of]. rewrite Hu. reflexivity. }
  split; [exact C|]. rewrite all_any in Hvs. injection Hvs as <-. injection H as H. 
  assert (L : l = version :: policy :: imprint :: serial :: time :: part accuracy ++ part ordering ++ part nonce ++ part tsa ++ part extensions).
  { apply any_inj. exact H. }
  assert (K : children TSTInfo (t_contents t) =
    @Ok (dict (option tlv)) [("version", Some version); ("policy", Some policy); ("message_imprint", Some imprint); ("serial_number", Some serial); ("gen_time", Some time);
      ("accuracy", accuracy); ("ordering", ordering); ("nonce", nonce); ("tsa", tsa); ("extensions", extensions)]).
  { unfold children. rewrite Hl. cbn [rbind]. rewrite L. exact (tst_fields _ _ _ _ _ _ _ _ _ _ P1 P2 P3 P4 P5). }
  clear H Hu Hl L l.
  unfold read_tst. rewrite K. cbn [lz_tst_info lt_version lt_policy lt_hash_alg lt_hashed_message lt_serial lt_gen_time lt_accuracy lt_tsa].
  match goal with |- ?x = _ => assert (Q : exists r, x = r) by (eexists; reflexivity) end. destruct Q as (r & Q). rewrite Q. rd Q. 
  revert Q. unfold aInteger, aObjectIdentifier. rewrite (prim_at _ _ _ _ I1). cbn [rbind]. rewrite (proj2 (version_v1 _) V). cbn [String.eqb Ascii.eqb Bool.eqb negb].
  rewrite (plain_oid _ _ _ I2). cbn [rbind].
  destruct (open_seq MessageImprint _ _ _ _ I3 eq_refl ltac:(alike)) as (b3 & d3 & C3 & K3 & Al3). rewrite C3. cbn [rbind]. rewrite K3.
  fld 0%nat MessageImprint Al3 t6 D6 G6 F6 R6. rewrite R6. unfold algid_ok. cbn [rbind]. rewrite (digest_at _ _ _ _ D6 A). cbn [rbind].
  fld 1%nat MessageImprint Al3 t7 D7 G7 F7 R7. rewrite R7. unfold aOctetString. rewrite (prim_at _ _ _ _ D7). cbn [rbind].
  rewrite (int_at _ _ _ I4). cbn [rbind]. rewrite (prim_at _ _ _ _ I5). cbn [rbind].
  rewrite (proj2 (general_exact _ _) G). cbn [rbind].
  intros Q. assert (AC : exists acc, read_field TSTInfo
     (@Ok (dict (option tlv)) [("version", Some version); ("policy", Some policy); ("message_imprint", Some imprint); ("serial_number", Some serial); ("gen_time", Some time);
      ("accuracy", accuracy); ("ordering", ordering); ("nonce", nonce); ("tsa", tsa); ("extensions", extensions)]) "accuracy" read_accuracy = Ok acc /\
     lz_accuracy_to_python acc = Ok us).
  { destruct accuracy as [x|].
    - destruct Y as (v & [[q1 q2] q3] & D & M & Fi). apply decoded_is in D; [|apart]. pose proof (accuracy_read _ _ _ _ D M) as R.
      rg. rewrite R. eexists. split; [reflexivity|].
      apply ProofsPkcs7.accuracy_ok in Fi. cbn [fst snd]. exact Fi.
    - subst us. rg. exists None. split; reflexivity. }
  destruct AC as (acc & E1 & E2). rewrite E1 in Q. cbn [rbind] in Q. rewrite E2 in Q. cbn [rbind] in Q. clear E1 E2.
  destruct tsa as [x|].
  - destruct T as (v & nm & D & M). apply (proj1 (spells_decode true)) in D; [|apart]. destruct D as (D & _).
    rd Q. revert Q. 
    rewrite (tsa_read _ _ _ (TsaDirectory nm) D ltac:(exists v; split; [reflexivity|exact M])). cbn [rbind lz_authority]. intros <-. reflexivity.
  - rd Q. revert Q. cbn [rbind lz_authority]. intros <-. reflexivity.
Qed.

(** ** Signed data *)

Lemma certs_at vcerts cs d a vs i fs tg : aligned fs vs d -> NoDup (map fst fs) -> a = SignedData ->
  nth_error fs i = Some ("certificates", (ASetOf AAny, (tg, Optional))) -> nth_error vs i = Some vcerts ->
  dict_get "certificates" (seq_fields SignedData) = Some (ASetOf CertificateChoices, (tg, Optional)) -> certs_in vcerts cs ->
  exists l, (let? o := read_field a (Ok d) "certificates" items_of in match o with None => Ok [] | Some l => Ok (map read_choice l) end) = Ok l /\
    lz_certificates l = Ok cs.
Proof.
  intros Al ND -> N1 N2 G (ts & l & M & F & C). destruct (choices_read _ _ F) as (xs & E & Ag). exists (map read_choice ts). split.
  - destruct vcerts as [v|]; cbn [members] in M; subst.
    + destruct (at_present i SignedData _ _ _ _ _ _ _ _ _ _ Al ND N1 G _ N2) as (t3 & D3 & G3 & F3 & R3).
      destruct (members_at CertificateChoices _ _ _ D3) as (I3 & _). rewrite F3, I3. reflexivity.
    + rewrite (at_absent i SignedData _ _ _ _ _ _ _ Al ND N1 N2). reflexivity.
  - rewrite E, (ag_certificates _ _ Ag). apply ProofsPkcs7.certificates_ok in C. rewrite C. reflexivity.
Qed.
Lemma sd_at a t version valg alg typ u vcerts cs vcrls s expected octets (P : lz_value -> Prop) :
  a = CmsSignedData \/ a = TspSignedData ->
  is_a a t (VSeq [Some (VPrim version); Some (VList [valg]); Some (VSeq [Some (VPrim typ); Some (VAny u)]); vcerts; vcrls; Some (VList [VAny s])]) ->
  digest_in valg alg -> called content_types typ = expected -> certs_in vcerts cs ->
  (forall t3 bb, decode CmsContentInfo Untagged t3 = Ok (VSeq [Some (VPrim typ); Some (VAny u)]) -> contents_of ContentInfo Untagged t3 = Ok bb ->
   exists v, read_content (version_native 0 version) bb = Ok (mkLzContent octets (Ok v)) /\ P v) ->
  exists b value, contents_of SignedData Untagged t = Ok b /\ P value /\
    (forall f, lz_signed_data expected (read_sd (S f) b) = Ok (mkSdata alg expected octets cs, value)) /\
    (forall f, lz_signers (read_sd (S f) b) = let? r := item_signer f s in Ok [r]) /\
    (a = CmsSignedData -> members vcrls [] -> forall f, lz_crls (read_sd (S f) b) = Ok O).
Proof.
  intros W H Ma Ty Mc Co.
  assert (O : exists b d fs, contents_of SignedData Untagged t = Ok b /\ children SignedData b = Ok d /\ a = ASeq fs /\
    aligned fs [Some (VPrim version); Some (VList [valg]); Some (VSeq [Some (VPrim typ); Some (VAny u)]); vcerts; vcrls; Some (VList [VAny s])] d).
  { destruct W as [->| ->]; (apply decoded_is in H; [|apart]); destruct (open_seq SignedData _ _ _ _ H eq_refl ltac:(alike)) as (b & d & C & K & Al);
      eexists b, d, _; (split; [exact C|split; [exact K|split; [reflexivity|exact Al]]]). }
  destruct O as (b & d & fs & C & K & Ef & Al).
  assert (Q : exists o, fs = [field "version" (APrim 2); field "digest_algorithms" (ASetOf X509Algorithm); field "encap_content_info" CmsContentInfo;
        field_with "certificates" (ASetOf AAny) (Implicit 0) Optional; o; field "signer_infos" (ASetOf AAny)] /\ NoDup (map fst fs) /\
        (a = CmsSignedData -> o = field_with "crls" (ASetOf AAny) (Implicit 1) Optional)).
  { destruct W as [->| ->]; injection Ef as <-; eexists; (split; [reflexivity|split; [names|]]); [reflexivity|]. intros E. discriminate E. }
  destruct Q as (o & -> & ND & Eo).
  destruct (at_present 0 SignedData _ _ _ _ _ _ _ _ _ _ Al ND eq_refl eq_refl _ eq_refl) as (t0 & D0 & G0 & F0 & R0).
  destruct (at_present 1 SignedData _ _ _ _ _ _ _ _ _ _ Al ND eq_refl eq_refl _ eq_refl) as (t1 & D1 & G1 & F1 & R1).
  destruct (at_present 2 SignedData _ _ _ _ _ _ _ _ _ _ Al ND eq_refl eq_refl _ eq_refl) as (t2 & D2 & G2 & F2 & R2).
  destruct (at_present 5 SignedData _ _ _ _ _ _ _ _ _ _ Al ND eq_refl eq_refl _ eq_refl) as (t5 & D5 & G5 & F5 & R5).
  destruct (certs_at _ _ _ SignedData _ 3 _ _ Al ND eq_refl eq_refl eq_refl eq_refl Mc) as (l & E3 & L3).
  destruct (open_seq ContentInfo _ _ _ _ D2 eq_refl ltac:(alike)) as (b2 & d2 & C2 & K2 & Al2).
  destruct (Co _ _ D2 C2) as (value & Rc & Pv). exists b, value. split; [exact C|]. split; [exact Pv|].
  split; [|split].
  - intros f. cbn [read_sd lz_signed_data]. rewrite K, R0. unfold aInteger. rewrite (prim_at _ _ _ _ D0). cbn [rbind]. rewrite R1.
    assert (I1 : exists x, items_of (ASetOf AlgorithmIdentifier) Untagged t1 = Ok [x] /\ decode X509Algorithm Untagged x = Ok valg).
    { rewrite decode_setof in D1. inv D1 w Hw. inv D1 m Hm. inv D1 vs Hvs. injection D1 as ->. unfold items_of. cbn [contents_of]. rewrite Hw. cbn [rbind].
      destruct m as [|x m]; cbn [decode_all] in Hvs; [discriminate Hvs|]. inv Hvs v1 Hv1. inv Hvs vs1 Hvs1. injection Hvs as -> ->.
      destruct m; cbn [decode_all] in Hvs1; [|inv Hvs1 v2 Hv2; inv Hvs1 vs2 Hvs2; discriminate Hvs1]. exists x. split; [exact Hm|exact Hv1]. }
    destruct I1 as (x & I1 & Dx). rewrite I1. cbn [rbind map]. rewrite (digest_at _ _ _ _ Dx Ma). cbn [rbind]. rewrite R2.
    change (contents_of (ASeq []) Untagged t2) with (contents_of ContentInfo Untagged t2). rewrite C2. cbn [rbind]. rewrite K2.
    fld 0%nat ContentInfo Al2 t6 D6 G6 F6 R6. rewrite R6. unfold aObjectIdentifier. rewrite (oid_at _ _ _ _ D6). cbn [rbind].
    rewrite Ty, String.eqb_refl. cbn [rbind]. rewrite Rc. cbn [rbind lo_value lo_octets]. rewrite E3. cbn [rbind]. rewrite L3. reflexivity.
  - intros f. cbn [read_sd lz_signers]. rewrite K, R5. destruct (members_at SignerInfo _ _ [s] D5) as (I5 & _). rewrite I5. cbn [rbind map_res].
    unfold item_signer. destruct (contents_of SignerInfo Untagged s); reflexivity.
  - intros Ea M f. specialize (Eo Ea). subst o. cbn [read_sd lz_crls]. rewrite K. destruct vcrls as [v|]; cbn [members] in M; subst.
    + destruct (at_present 4 SignedData _ _ _ _ _ _ _ _ _ _ Al ND eq_refl eq_refl _ eq_refl) as (t4 & D4 & G4 & F4 & R4). rewrite F4.
      match goal with |- context [items_of (ASetOf ?x) _ t4] => destruct (members_at x _ _ [] D4) as (I4 & _) end. rewrite I4. reflexivity.
    + rewrite (at_absent 4 SignedData _ _ _ _ _ _ _ Al ND eq_refl eq_refl). reflexivity.
Qed.

(** ** Tokens *)

Lemma token_content version typ u w tst t3 bb : decode CmsContentInfo Untagged t3 = Ok (VSeq [Some (VPrim typ); Some (VAny u)]) ->
  contents_of ContentInfo Untagged t3 = Ok bb -> oid_text typ = "1.2.840.113549.1.9.16.1.4" ->
  signed_integer version <> 1 -> octet_string u -> holds_a AAny (t_contents u) (VAny w) -> tst_in w tst ->
  exists v, read_content (version_native 0 version) bb = Ok (mkLzContent (t_contents u) (Ok v)) /\ lz_tst_info v = Ok tst.
Proof.
  intros H C E V O L T. destruct (open_seq EncapsulatedContentInfo _ _ _ _ H eq_refl ltac:(alike)) as (b2 & d2 & C2 & K2 & Al2).
  change (contents_of EncapsulatedContentInfo Untagged t3) with (contents_of ContentInfo Untagged t3) in C2.
  rewrite C in C2. injection C2 as <-. unfold read_content. rewrite version_one, <- integer_is, K2. cbv zeta. rewrite (proj2 (Z.eqb_neq _ _) V).
  fld 0%nat EncapsulatedContentInfo Al2 t2 D2 G2 F2 R2. rewrite R2.
  change (read_oid content_types aObjectIdentifier) with (read_oid content_types (APrim 6)). rewrite (oid_at _ _ _ _ D2). cbn [rbind].
  fld 1%nat EncapsulatedContentInfo Al2 t1 D1 G1 F1 R1. rewrite F1. unfold aOctetString. rewrite (octets_at _ _ D1 O). cbn [rbind].
  destruct (held_inv _ _ _ L) as (w' & rest & P & D). apply decoded_is in D; [|apart]. cbn [decode unwrap rbind] in D. injection D as ->.
  rewrite P. cbn [rbind]. rewrite !name_spc, name_tst, E. cbn [String.eqb Ascii.eqb Bool.eqb]. destruct (tst_at _ _ T) as (C3 & Q). rewrite C3. cbn [rbind].
  eexists. split; [reflexivity|exact Q].
Qed.
Lemma token_at u r : token_in u r -> exists b, contents_of SignedData Untagged u = Ok b /\ forall f, (3 <= f)%nat -> lz_rsd (read_sd f b) = Ok r.
Proof.
  intros H. destruct H as [t version valg alg typ u w tst vcerts cs vcrls s i signed unsigned H Ma Ty V O L T Mc S Ls].
  assert (Tn : called content_types typ = "tst_info") by (apply String.eqb_eq; rewrite name_tst, Ty; reflexivity).
  destruct (sd_at TspSignedData t version valg alg typ u vcerts cs vcrls s "tst_info" (t_contents u) (fun v => lz_tst_info v = Ok tst)
              (or_intror eq_refl) H Ma Tn Mc) as (b & value & C & Q & Sd & Si & _).
  { intros t3 bb D3 C3. exact (token_content _ _ _ _ _ _ _ D3 C3 Ty V O L T). }
  exists b. split; [exact C|]. intros f Lf. destruct f as [|[|[|f]]]; try lia. unfold lz_rsd. rewrite Sd, Si. cbn [rbind].
  destruct (signer_at false (Some "tst_info") (Some "1.2.840.113549.1.9.16.1.4") f _ _ _ _ name_tst S) as (sb & auth & unauth & d & d' & Cs & P & _ & _ & T2 & N2).
  unfold item_signer. rewrite Cs. cbn [rbind map_res]. unfold lz_rfc3161_signer. rewrite P. cbn [rbind fst snd]. unfold lz_countersignature.
  rewrite (found_none _ _ _ _ _ (find_counter _ _ _ _ T2 N2) Ls). cbn [rbind]. rewrite Q. reflexivity.
Qed.

(** ** Signatures *)

Lemma ok_inj {A} (x y : A) : Ok x = Ok y -> y = x.
Proof. intros H. injection H as ->. reflexivity. Qed.
Lemma countersigner_at l o : countersigner_in l o -> exists n, forall f depth au d, (n <= f)%nat -> (n <= depth)%nat ->
  Forall2 (tied_attr f) au d -> Forall2 named d l ->
  exists cs plain, lz_countersignature au = Ok cs /\
    match cs with None => Ok None | Some c => let? k := lz_countersigner depth c in Ok (Some (CSPlain k)) end = Ok plain /\
    present (lz_values lz_counter_signature au) && present (lz_values lz_token au) = false /\
    match lz_values lz_token au with
    | None => Ok plain
    | Some [c] => let? t := lz_sub "RFC-3161 Timestamp does not contain SignedData structure" lz_rsd c in Ok (Some (CSToken t))
    | Some _ => raise AuthenticodeParseError "Only one RFC-3161 timestamp expected"
    end = Ok o.
Proof.
  intros [L1 L2|x i L1 L2 H|x u r L1 L2 E H].
  - exists O. intros f depth au d _ _ T N. exists None, None. unfold lz_countersignature.
    rewrite (found_none _ _ _ _ _ (find_counter _ _ _ _ T N) L1), (found_none _ _ _ _ _ (find_token _ _ _ _ T N) L2). repeat split.
  - destruct (counter_at _ _ H) as (n & K). exists n. intros f depth au d Lf Ld T N. destruct (K f depth Lf Ld) as (c & Hc & Q).
    destruct (found_one _ _ _ _ _ _ (find_counter _ _ _ _ T N) L1) as (y & Y1 & Y2). rewrite Hc in Y2. injection Y2 as <-.
    exists (Some c), (Some (CSPlain i)). unfold lz_countersignature. rewrite Y1, (found_none _ _ _ _ _ (find_token _ _ _ _ T N) L2), Q. repeat split.
  - destruct (token_at _ _ H) as (b & C & K). exists 4%nat. intros f depth au d Lf Ld T N. exists None, None. unfold lz_countersignature.
    rewrite (found_none _ _ _ _ _ (find_counter _ _ _ _ T N) L1). destruct (found_one _ _ _ _ _ _ (find_token _ _ _ _ T N) L2) as (y & Y1 & Y2). rewrite Y1.
    destruct f as [|f]; [lia|].
    destruct (info_at _ _ "RFC-3161 Timestamp does not contain SignedData structure" lz_rsd E) as (c & Hc & Q). unfold info_of in Y2. rewrite Hc in Y2. cbn [rbind] in Y2. apply ok_inj in Y2. subst y.
    rewrite (Q f b C), (K f ltac:(lia)). repeat split.
Qed.
Scheme signature_min := Minimality for signature_in Sort Prop
  with nested_min := Minimality for nested_in Sort Prop
  with signatures_min := Minimality for signatures_in Sort Prop.
Lemma signature_at pe u a : signature_in pe u a ->
  exists n b, contents_of SignedData Untagged u = Ok b /\ forall f depth, (n <= f)%nat -> (n <= depth)%nat -> lz_asd depth pe (read_sd f b) = Ok a.
Proof.
  apply (signature_min pe
    (fun u a => exists n b, contents_of SignedData Untagged u = Ok b /\ forall f depth, (n <= f)%nat -> (n <= depth)%nat -> lz_asd depth pe (read_sd f b) = Ok a)
    (fun l nested => exists n, forall f depth au d, (n <= f)%nat -> (n <= depth)%nat -> Forall2 (tied_attr f) au d -> Forall2 named d l ->
       match lz_values lz_nested au with None => Ok [] | Some l => map_res (lz_sub "Nested signature is not a SignedData structure" (lz_asd depth pe)) l end = Ok nested)
    (fun ts l => exists n, forall f depth, (n <= f)%nat -> (n <= depth)%nat -> exists xs, map_res (info_of f) ts = Ok xs /\
       map_res (lz_sub "Nested signature is not a SignedData structure" (lz_asd depth pe)) xs = Ok l)).
  - clear u a. intros t version valg alg typ u octets r spc vcerts cs vcrls s i signed unsigned counter nested H Ma Ty Co Rs Mc Mr Sg L1 L2 Cs _ (n1 & Ne).
    destruct (countersigner_at _ _ Cs) as (n2 & Ce).
    assert (Tn : called content_types typ = spc_type) by (apply String.eqb_eq; unfold spc_type; rewrite name_spc, Ty; reflexivity).
    destruct (sd_at CmsSignedData t version valg alg typ u vcerts cs vcrls s spc_type octets (fun v => lz_spc_info v = Ok spc)
                (or_introl eq_refl) H Ma Tn Mc) as (b & value & C & Q & Sd & Si & Cr).
    { intros t3 bb D3 C3. destruct (content_read _ _ _ _ _ _ D3 Co C3) as (v & Rv & Ag). exists v. split; [exact Rv|].
      rewrite (ag_spc _ _ Ag). apply ProofsPkcs7.parse_spc_ok. exists r. split; [reflexivity|exact Rs]. }
    specialize (Cr eq_refl Mr). exists (S (S (S (n1 + n2)))), b. split; [exact C|]. intros f depth Lf Ld.
    destruct f as [|[|[|f]]]; try lia. destruct depth as [|depth]; [lia|]. cbn [lz_asd]. rewrite Sd, Si, Cr. cbn [rbind].
    destruct (signer_at false (Some spc_type) (Some "1.3.6.1.4.1.311.2.1.4") f _ _ _ _ name_spc Sg) as (sb & auth & unauth & d & d' & Csb & P & T1 & N1 & T2 & N2).
    destruct (Ce f depth _ _ ltac:(lia) ltac:(lia) T2 N2) as (cs' & plain & E1 & E2 & E3 & E4).
    unfold item_signer. rewrite Csb. cbn [rbind map_res]. unfold lz_asi. rewrite P. cbn [rbind fst snd]. rewrite E1. cbn [rbind]. rewrite E2. cbn [rbind].
    assert (St : lz_statement_types auth = Ok tt).
    { unfold lz_statement_types. destruct L1 as [L|(x & L & v & Ix)].
      - rewrite (found_none _ _ _ _ _ (find_statement _ _ _ _ T1 N1) L). reflexivity.
      - destruct (found_one _ _ _ _ _ _ (find_statement _ _ _ _ T1 N1) L) as (y & Y1 & Y2). rewrite Y1. unfold statement_of in Y2.
        destruct (statement_at _ _ Ix) as (z & Z1 & (q & Z2)). rewrite Z1 in Y2. injection Y2 as <-. rewrite Z2. reflexivity. }
    assert (Op : lz_opus_infos auth = Ok tt).
    { unfold lz_opus_infos. destruct L2 as [L|(x & L & Ox)].
      - rewrite (found_none _ _ _ _ _ (find_opus _ _ _ _ T1 N1) L). reflexivity.
      - destruct (found_one _ _ _ _ _ _ (find_opus _ _ _ _ T1 N1) L) as (y & Y1 & Y2). rewrite Y1.
        destruct (opus_read _ Ox) as (z & Z1 & ((q1 & Z2) & (q2 & Z3) & (q3 & Z4))). rewrite Z1 in Y2. injection Y2 as <-. rewrite Z2, Z3, Z4. reflexivity. }
    rewrite St, Op. cbn [rbind]. rewrite (Ne f depth _ _ ltac:(lia) ltac:(lia) T2 N2). cbn [rbind]. rewrite E3, E4. cbn [rbind]. rewrite Q. reflexivity.
  - intros l L. exists O. intros f depth au d _ _ T N. rewrite (found_none _ _ _ _ _ (find_nested _ _ _ _ T N) L). reflexivity.
  - intros l ts nested L _ (n & K). exists n. intros f depth au d Lf Ld T N. destruct (found_some _ _ _ _ _ _ (find_nested _ _ _ _ T N) L) as (xs & E & M).
    destruct (K f depth Lf Ld) as (ys & E1 & E2). rewrite E1 in M. injection M as <-. rewrite E. exact E2.
  - exists O. intros f depth _ _. exists []. split; reflexivity.
  - intros t u' a' ts l E _ (n1 & b & C & K1) _ (n2 & K2). exists (S (n1 + n2)). intros f depth Lf Ld. destruct f as [|f]; [lia|].
    destruct (K2 (S f) depth ltac:(lia) ltac:(lia)) as (xs & X1 & X2).
    destruct (info_at _ _ "Nested signature is not a SignedData structure" (lz_asd depth pe) E) as (c & Hc & Q).
    exists (read_ci (S f) c :: xs). cbn [map_res]. unfold info_of at 1. rewrite Hc. cbn [rbind]. rewrite X1. split; [reflexivity|].
    rewrite (Q f b C), (K1 f depth ltac:(lia) ltac:(lia)). cbn [rbind]. rewrite X2. reflexivity.
Qed.

(** ** From the octets *)

Theorem envelope_at pe b a : encoded_signature pe b a -> exists n, forall depth, (n <= depth)%nat -> lz_from_envelope der_loader depth pe b = Ok a.
Proof.
  intros (t & u & H & E & Sg). destruct (any_held _ _ H) as (rest & P). destruct (signature_at _ _ _ Sg) as (n & ub & C & K).
  destruct (info_at _ _ "" (fun s => Ok s) E) as (c & Hc & Q). exists n. intros depth Ld.
  unfold lz_from_envelope, der_loader. rewrite P. cbn [rbind]. rewrite Hc. cbn [rbind].
  assert (Lc : (length c < length b)%nat).
  { pose proof (contents_of_shorter _ _ _ _ Hc). pose proof (parse_tlv_shorter _ _ _ P). lia. }
  rewrite (proj1 (proj2 (proj2 (nesting (length b) (S (n + length b))))) c Lc ltac:(lia)).
  specialize (Q (n + length b)%nat ub C). cbn [read_ci lz_sub] in Q |- *. inv Q typ Ht. rewrite Ht. cbn [rbind].
  destruct (String.eqb typ "signed_data") eqn:B; [|discriminate Q]. cbn [negb] in Q. inv Q x Hx. inv Q s Hs. injection Q as ->.
  rewrite Ht in Hx. cbn [rbind] in Hx |- *. try rewrite B in Hx. rewrite Hx. cbn [rbind]. rewrite Hs. cbn [rbind]. apply K; lia.
Qed.
Theorem envelope_iff pe b a : (exists depth, lz_from_envelope der_loader depth pe b = Ok a) <-> encoded_signature pe b a.
Proof.
  split; [intros (depth & H); exact (envelope_back _ _ _ _ H)|]. intros H. destruct (envelope_at _ _ _ H) as (n & K). exists n. apply K. reflexivity.
Qed.

Theorem certificate_iff b c : cert_from_der b = Ok c <->
  exists t v, holds_a AAny b (VAny t) /\ is_a X509 t v /\ cert_means v c /\ c_id c = identity (tlv_dump t) /\ c_der c = tlv_dump t.
Proof.
  split; [apply certificate_loaded|]. intros (t & v & H & D & M).
  destruct (any_held _ _ H) as (rest & P). apply decoded_is in D; [|exact x509_distinct].
  unfold cert_from_der. rewrite P. cbn [rbind].
  assert (C : exists x, contents_of Certificate Untagged t = Ok x).
  { unfold X509 in D. destruct (decode_children _ _ _ _ D) as (b' & vs & d & _ & C & _). exists b'. exact C. }
  destruct C as (x & ->). cbn [rbind]. apply (cert_iff _ _ D c). exact M.
Qed.
