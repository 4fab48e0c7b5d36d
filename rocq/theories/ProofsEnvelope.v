(** Values that are decoded when they are read and agree with completely decoded ones are parsed
    like these; for PropertiesEnvelope.v. *)
From Verif Require Import Base Monad ModelX509 ModelPkcs7 ModelLazy ProofsLazy.

Definition readable {A} (r : res A) : Prop := exists x, r = Ok x.

Definition ag_value (x : lz_value) (v : raw_value) : Prop :=
  match x, v with
  | LVSpc s, RVSpc r =>
      lp_type s = Ok (rp_type r) /\
      (exists o, lp_value s = Ok o /\ match o with
       | None => rp_value r = false
       | Some i => rp_value r = true /\
                   (rp_type r = "microsoft_spc_pe_image_data" -> readable (lm_flags i) /\ readable (lm_file i))
       end) /\
      lp_digest_alg s = Ok (emb_alg (rp_digest_alg r)) /\ lp_digest s = Ok (rp_digest r)
  | LVTst s, RVTst r =>
      (exists version, lt_version s = Ok version /\ (version = "v1" <-> rt_version r = "v1")) /\
      lt_policy s = Ok (rt_policy r) /\ lt_hash_alg s = Ok (emb_alg (rt_hash_alg r)) /\
      lt_hashed_message s = Ok (rt_hashed_message r) /\ lt_serial s = Ok (rt_serial r) /\ lt_gen_time s = Ok (rt_gen_time r) /\
      lt_accuracy s = Ok (match rt_accuracy r with
                          | Some (s, ms, us) => Some (mkLzAccuracy (Ok s) (Ok ms) (Ok us))
                          | None => None
                          end) /\
      lt_tsa s = Ok (match rt_tsa r with
                     | TsaAbsent => LzTsaAbsent
                     | TsaDirectory n => LzTsaDirectory (Ok n)
                     | TsaOther k => LzTsaOther k
                     end)
  | LVNone, RVNone => True
  | _, _ => False
  end.
Definition ag_choice (x : lz_choice) (c : raw_choice) : Prop :=
  match x, c with
  | LzCertificate x, ChoiceCertificate c => lz_certificate x = Ok c
  | LzOtherChoice _, ChoiceOther _ => True
  | _, _ => False
  end.
Definition ag_opus (o : lz_opus) : Prop :=
  readable (lu_program_name o) /\ readable (lu_more_info o) /\ readable (lu_publisher_info o).

Inductive ag_attr : lz_attr -> raw_attr -> Prop :=
| AgContentType v : ag_attr (LContentType (Ok (map (@Ok string) v))) (AContentType v)
| AgMessageDigest v : ag_attr (LMessageDigest (Ok (map (@Ok bytes) v))) (AMessageDigest v)
| AgSigningTime v : ag_attr (LSigningTime (Ok (map (@Ok datetime) v))) (ASigningTime v)
| AgCounterSignature xs v : Forall2 ag_si xs v -> ag_attr (LCounterSignature (Ok xs)) (ACounterSignature v)
| AgStatementType xs n : Forall readable xs -> length xs = n -> ag_attr (LStatementType (Ok xs)) (AStatementType n)
| AgOpusInfo xs n : Forall ag_opus xs -> length xs = n -> ag_attr (LOpusInfo (Ok xs)) (AOpusInfo n)
| AgNested xs v : Forall2 ag_ci xs v -> ag_attr (LNestedSignature (Ok xs)) (ANestedSignature v)
| AgToken xs v : Forall2 ag_ci xs v -> ag_attr (LTimeStampToken (Ok xs)) (ATimeStampToken v)
| AgOtherAttr s s' n : ag_attr (LOther s (Ok n)) (AOther s' n)
with ag_si : lz_si -> raw_si -> Prop :=
| AgSI sid dalg xs signed contents salg signature ys unsigned :
    Forall2 ag_attr xs signed -> Forall2 ag_attr ys unsigned ->
    ag_si (LzSI (Ok (emb_sid sid)) (Ok (emb_alg dalg)) (Ok (map (@Ok lz_attr) xs)) contents (Ok salg) (Ok signature)
                (Ok (map (@Ok lz_attr) ys)))
          (RawSI sid dalg signed contents salg signature unsigned)
with ag_ci : lz_ci -> raw_ci -> Prop :=
| AgSigned s r : ag_sd s r -> ag_ci (LzCI (Ok "signed_data") (Ok (LzSigned s))) (RawSigned r)
| AgOther t sub : ag_ci (LzCI (Ok t) (Ok (LzOther sub))) (RawOther t sub)
with ag_sd : lz_sd -> raw_sd -> Prop :=
| AgSD algs typ octets value v xs certs crls ys signers :
    ag_value value v -> Forall2 ag_choice xs certs -> Forall2 ag_si ys signers ->
    ag_sd (LzSD (Ok (map emb_alg algs)) (Ok typ) (Ok (mkLzContent octets (Ok value))) (Ok (map (@Ok lz_choice) xs)) (Ok crls) (Ok ys))
          (RawSD algs typ (mkRawContent octets v) certs crls signers).

Lemma ag_spc x v : ag_value x v -> lz_spc_info x = parse_spc v.
Proof.
  destruct x as [s|s|], v as [r|r|]; try contradiction; intros H; try reflexivity.
  destruct H as (T & (o & V & Q) & A & D). cbn [lz_spc_info parse_spc]. rewrite T. cbn [rbind].
  destruct (String.eqb_spec (rp_type r) "microsoft_spc_pe_image_data") as [E|E]; cbn [negb]; [|reflexivity].
  rewrite V. cbn [rbind]. destruct o as [i|].
  - destruct Q as (Q & I). specialize (I E). destruct I as ((fl & F) & (fi & G)). rewrite F. cbn [rbind]. rewrite G. cbn [rbind].
    rewrite A. cbn [rbind]. rewrite emb_alg_eq, D, Q. cbn [rbind negb]. reflexivity.
  - rewrite Q. reflexivity.
Qed.
Lemma eqb_v1 a b : (a = "v1" <-> b = "v1") -> String.eqb a "v1" = String.eqb b "v1".
Proof. intros H. destruct (String.eqb_spec a "v1") as [E|E], (String.eqb_spec b "v1") as [F|F]; try reflexivity; exfalso; tauto. Qed.
Lemma ag_tst x v : ag_value x v -> lz_tst_info x = parse_tst v.
Proof.
  destruct x as [s|s|], v as [r|r|]; try contradiction; intros H; try reflexivity.
  destruct H as ((version & V & E) & P & H & M & N & G & Y & T). rewrite <- (emb_tst (RVTst r)).
  cbn [lz_tst_info emb_value lt_version lt_policy lt_hash_alg lt_hashed_message lt_serial lt_gen_time lt_accuracy lt_tsa].
  rewrite V, P, H, M, N, G, Y, T. cbn [rbind]. rewrite (eqb_v1 _ _ E). reflexivity.
Qed.

Lemma ag_certificates xs l : Forall2 ag_choice xs l -> lz_certificates (map (@Ok lz_choice) xs) = Ok (the_certificates l).
Proof.
  induction 1 as [|x c xs l H F IH]; [reflexivity|]. destruct x as [x|k], c as [c|k']; try contradiction H; cbn [map lz_certificates rbind].
  - cbn [ag_choice] in H. rewrite H. cbn [rbind]. rewrite IH. reflexivity.
  - exact IH.
Qed.

Lemma ag_data e x r : ag_sd x r ->
  exists v, ag_value v (raw_value_of r) /\ lz_signed_data e x = let? d := parse_signed_data e r in Ok (d, v).
Proof.
  intros H. destruct H as [algs typ octets value v xs certs crls ys signers V C S]. exists value. split; [exact V|].
  cbn [lz_signed_data parse_signed_data rbind lo_value lo_octets rc_octets].
  assert (A: match map emb_alg algs with [a] => lz_digest_algorithm a | _ => raise KeyError "digestAlgorithms" end
             = match algs with [a] => get_digest_algorithm a | _ => raise KeyError "digestAlgorithms" end).
  { destruct algs as [|a [|]]; reflexivity. }
  rewrite A. destruct (match algs with [a] => get_digest_algorithm a | _ => raise KeyError "digestAlgorithms" end); cbn [rbind]; [|reflexivity].
  destruct (String.eqb typ e); cbn [rbind]; [|reflexivity]. rewrite (ag_certificates _ _ C). reflexivity.
Qed.

Lemma ag_readable x a : ag_attr x a -> lz_readable x = Ok tt.
Proof. intros H. destruct H; reflexivity. Qed.
Lemma ag_attributes xs l : Forall2 ag_attr xs l -> lz_attributes (Ok (map (@Ok lz_attr) xs)) = Ok xs.
Proof.
  unfold lz_attributes. cbn [rbind]. induction 1 as [|x a xs l H F IH]; [reflexivity|].
  cbn [map map_res rbind]. rewrite (ag_readable _ _ H). cbn [rbind]. rewrite IH. reflexivity.
Qed.

Definition ag_option {A B} (R : A -> B -> Prop) (o : option A) (o' : option B) : Prop :=
  match o, o' with Some x, Some y => R x y | None, None => True | _, _ => False end.
Lemma ag_values {A B} (f : lz_attr -> option (res (list A))) (g : raw_attr -> option B) (R : list A -> B -> Prop) :
  (forall x a, ag_attr x a -> match f x, g a with Some (Ok v), Some b => R v b | None, None => True | _, _ => False end) ->
  forall xs l, Forall2 ag_attr xs l -> ag_option R (lz_values f xs) (attr_values g l).
Proof.
  intros K xs l H. induction H as [|x a xs l H F IH]; [exact I|]. cbn [lz_values attr_values].
  destruct (lz_values f xs) as [v|], (attr_values g l) as [b|]; try contradiction IH; [exact IH|].
  specialize (K _ _ H). destruct (f x) as [[v|]|], (g a) as [b|]; try contradiction K; exact K.
Qed.
Ltac asel := let x := fresh "x" in let a := fresh "a" in let H := fresh "H" in intros x a H; destruct H; try exact I; cbn; auto.
Lemma ag_types xs l : Forall2 ag_attr xs l -> lz_values lz_content_type xs = option_map (map (@Ok _)) (attr_values as_content_type l).
Proof.
  intros H. assert (K := ag_values lz_content_type as_content_type (fun v b => v = map (@Ok string) b) ltac:(asel) _ _ H).
  destruct (lz_values _ _), (attr_values _ _); try contradiction K; [cbn in K; subst|]; reflexivity.
Qed.
Lemma ag_digests xs l : Forall2 ag_attr xs l ->
  lz_values (A:=res bytes) lz_message_digest xs = option_map (map (@Ok bytes)) (attr_values as_message_digest l).
Proof.
  intros H. assert (K := ag_values (A:=res bytes) lz_message_digest as_message_digest (fun v b => v = map (@Ok bytes) b) ltac:(asel) _ _ H).
  destruct (lz_values _ _), (attr_values _ _); try contradiction K; [cbn in K; subst|]; reflexivity.
Qed.
Lemma ag_times xs l : Forall2 ag_attr xs l -> lz_values lz_signing_time xs = option_map (map (@Ok _)) (attr_values as_signing_time l).
Proof.
  intros H. assert (K := ag_values lz_signing_time as_signing_time (fun v b => v = map (@Ok datetime) b) ltac:(asel) _ _ H).
  destruct (lz_values _ _), (attr_values _ _); try contradiction K; [cbn in K; subst|]; reflexivity.
Qed.
Lemma ag_counter xs l : Forall2 ag_attr xs l ->
  ag_option (Forall2 ag_si) (lz_values lz_counter_signature xs) (attr_values as_counter_signature l).
Proof. apply ag_values. asel. Qed.
Lemma ag_statement xs l : Forall2 ag_attr xs l ->
  ag_option (fun v n => Forall readable v /\ length v = n) (lz_values lz_statement_type xs) (attr_values as_statement_type l).
Proof. apply ag_values. asel. Qed.
Lemma ag_opus_info xs l : Forall2 ag_attr xs l ->
  ag_option (fun v n => Forall ag_opus v /\ length v = n) (lz_values lz_opus_info xs) (attr_values as_opus_info l).
Proof. apply ag_values. asel. Qed.
Lemma ag_nested xs l : Forall2 ag_attr xs l -> ag_option (Forall2 ag_ci) (lz_values lz_nested xs) (attr_values as_nested l).
Proof. apply ag_values. asel. Qed.
Lemma ag_token xs l : Forall2 ag_attr xs l -> ag_option (Forall2 ag_ci) (lz_values lz_token xs) (attr_values as_token l).
Proof. apply ag_values. asel. Qed.

Lemma ag_signer need e x r : ag_si x r ->
  exists xs ys, Forall2 ag_attr xs (signed_attrs r) /\ Forall2 ag_attr ys (unsigned_attrs r) /\
  lz_signer need e x = let? i := parse_signer need e r in Ok (i, (xs, ys)).
Proof.
  intros H. destruct H as [sid dalg xs signed contents salg signature ys unsigned H1 H2]. exists xs, ys.
  split; [exact H1|]. split; [exact H2|].
  cbn [lz_signer rbind]. destruct sid as [i n|]; cbn [emb_sid parse_signer]; [|reflexivity].
  cbn [rbind]. rewrite (ag_attributes _ _ H1), (ag_attributes _ _ H2). cbn [rbind].
  rewrite (ag_types _ _ H1), (ag_digests _ _ H1), (ag_times _ _ H1), !present_map.
  destruct (present (attr_values as_content_type signed) && present (attr_values as_message_digest signed)
            && (negb need || present (attr_values as_signing_time signed))); cbn [rbind]; [|reflexivity].
  rewrite emb_alg_eq. destruct (get_digest_algorithm dalg); cbn [rbind]; [|reflexivity].
  rewrite (emb_single (A:=bytes)), !emb_single.
  destruct (single (attr_values as_message_digest signed) _) as [md|]; cbn [rbind]; [|reflexivity].
  destruct (single (attr_values as_content_type signed) _) as [ct|]; cbn [rbind]; [|reflexivity].
  destruct (match ct with Some t => _ | None => _ end); cbn [rbind]; [|reflexivity].
  destruct (single (attr_values as_signing_time signed) _) as [st|]; cbn [rbind]; reflexivity.
Qed.

Lemma ag_countersignature r ys : Forall2 ag_attr ys (unsigned_attrs r) ->
  match lz_countersignature ys, counter_signature r with
  | Ok o, Ok o' => ag_option ag_si o o'
  | Err e, Err e' => e = e'
  | _, _ => False
  end.
Proof.
  intros H. unfold lz_countersignature, counter_signature. pose proof (ag_counter _ _ H) as K.
  destruct (lz_values _ _) as [v|], (attr_values _ _) as [b|]; try contradiction K; [|exact I]. cbn [ag_option] in K.
  destruct K as [|x c v b K F]; [reflexivity|]. destruct F; [exact K|reflexivity].
Qed.

Lemma ag_countersigner d : forall x r, ag_si x r -> lz_countersigner d x = parse_countersigner d r.
Proof.
  induction d as [|d IH]; intros x r H; [reflexivity|]. cbn [lz_countersigner parse_countersigner].
  destruct (ag_signer true None _ _ H) as (xs & ys & _ & Y & ->). destruct (parse_signer true None r); cbn [rbind fst snd]; [|reflexivity].
  pose proof (ag_countersignature _ _ Y) as K. destruct (lz_countersignature ys) as [o|], (counter_signature r) as [o'|]; try contradiction K; cbn [rbind].
  - destruct o as [c|], o' as [c'|]; try contradiction K; [|reflexivity]. rewrite (IH _ _ K). reflexivity.
  - rewrite K. reflexivity.
Qed.

Lemma ag_rfc3161 x r : ag_si x r -> lz_rfc3161_signer x = parse_rfc3161_signer r.
Proof.
  intros H. unfold lz_rfc3161_signer, parse_rfc3161_signer.
  destruct (ag_signer false (Some "tst_info") _ _ H) as (xs & ys & _ & Y & ->).
  destruct (parse_signer false (Some "tst_info") r); cbn [rbind fst snd]; [|reflexivity].
  pose proof (ag_countersignature _ _ Y) as K. destruct (lz_countersignature ys) as [o|], (counter_signature r) as [o'|]; try contradiction K; cbn [rbind].
  - destruct o as [c|], o' as [c'|]; try contradiction K; reflexivity.
  - rewrite K. reflexivity.
Qed.

Lemma map_res_ag {A B C} (R : A -> B -> Prop) (f : A -> res C) (g : B -> res C) xs l :
  (forall x y, R x y -> f x = g y) -> Forall2 R xs l -> map_res f xs = map_res g l.
Proof. intros K H. induction H as [|x y xs l H F IH]; [reflexivity|]. cbn [map_res]. rewrite (K _ _ H), IH. reflexivity. Qed.

Lemma ag_signers x r : ag_sd x r -> exists ys, lz_signers x = Ok ys /\ Forall2 ag_si ys (raw_signers r).
Proof. intros H. destruct H. eexists. split; [reflexivity|assumption]. Qed.

Lemma ag_rsd x r : ag_sd x r -> lz_rsd x = parse_rsd r.
Proof.
  intros H. unfold lz_rsd, parse_rsd. destruct (ag_data "tst_info" _ _ H) as (v & V & ->).
  destruct (parse_signed_data "tst_info" r); cbn [rbind fst snd]; [|reflexivity].
  destruct (ag_signers _ _ H) as (ys & -> & Y). cbn [rbind]. rewrite (map_res_ag _ _ _ _ _ ag_rfc3161 Y), (ag_tst _ _ V). reflexivity.
Qed.

Lemma ag_sub {A} m (f : lz_sd -> res A) (g : raw_sd -> res A) : (forall s r, ag_sd s r -> f s = g r) -> forall c c', ag_ci c c' ->
  lz_sub m f c =
  if negb (String.eqb (ci_type c') "signed_data") then raise AuthenticodeParseError m
  else let? s := ci_content c' in g s.
Proof.
  intros K c c' H. destruct H as [s r H|t sub]; cbn [lz_sub ci_type ci_content rbind lz_content_info].
  - replace (negb (String.eqb "signed_data" "signed_data")) with false by reflexivity. apply K. exact H.
  - destruct (negb _); [reflexivity|]. destruct sub; reflexivity.
Qed.

Lemma ag_statement_types xs r : Forall2 ag_attr xs (signed_attrs r) ->
  lz_statement_types xs = single_count (attr_values as_statement_type (signed_attrs r)) "Only one SpcStatementType expected".
Proof.
  intros H. unfold lz_statement_types. pose proof (ag_statement _ _ H) as K.
  destruct (lz_values _ _) as [v|], (attr_values _ _) as [b|]; try contradiction K; [|reflexivity].
  destruct K as (F & <-). destruct F as [|o v (s & ->) F]; [reflexivity|]. destruct F; reflexivity.
Qed.
Lemma ag_opus_infos xs r : Forall2 ag_attr xs (signed_attrs r) ->
  lz_opus_infos xs = single_count (attr_values as_opus_info (signed_attrs r)) "Only one SpcSpOpusInfo expected".
Proof.
  intros H. unfold lz_opus_infos. pose proof (ag_opus_info _ _ H) as K.
  destruct (lz_values _ _) as [v|], (attr_values _ _) as [b|]; try contradiction K; [|reflexivity].
  destruct K as (F & <-). destruct F as [|o v O F]; [reflexivity|]. destruct F; [|reflexivity].
  destruct O as ((s1 & ->) & (s2 & ->) & (s3 & ->)). reflexivity.
Qed.

Lemma ag_asi d (sub : lz_sd -> res asd) (sub' : raw_sd -> res asd) x r : (forall s r, ag_sd s r -> sub s = sub' r) -> ag_si x r ->
  lz_asi d sub x = parse_asi d sub' r.
Proof.
  intros K H. unfold lz_asi, parse_asi. destruct (ag_signer false (Some spc_type) _ _ H) as (xs & ys & X & Y & ->).
  destruct (parse_signer false (Some spc_type) r) as [i|]; cbn [rbind fst snd]; [|reflexivity].
  pose proof (ag_countersignature _ _ Y) as P.
  destruct (lz_countersignature ys) as [o|], (counter_signature r) as [o'|]; try contradiction P; cbn [rbind]; [|rewrite P; reflexivity].
  assert (C: match o with
             | None => Ok None
             | Some c => let? k := lz_countersigner d c in Ok (Some (CSPlain k)) end
             = match o' with None => Ok None
               | Some c => let? k := parse_countersigner d c in Ok (Some (CSPlain k)) end).
  { destruct o as [c|], o' as [c'|]; try contradiction P; [rewrite (ag_countersigner _ _ _ P)|]; reflexivity. }
  rewrite C. clear C. destruct (match o' with None => _ | Some c => _ end); cbn [rbind]; [|reflexivity].
  rewrite (ag_statement_types _ _ X), (ag_opus_infos _ _ X).
  destruct (single_count (attr_values as_statement_type _) _); cbn [rbind]; [|reflexivity].
  destruct (single_count (attr_values as_opus_info _) _); cbn [rbind]; [|reflexivity].
  pose proof (ag_nested _ _ Y) as N.
  assert (C: match lz_values lz_nested ys with
         | None => Ok []
         | Some l => map_res (lz_sub "Nested signature is not a SignedData structure" sub) l end
         = match attr_values as_nested (unsigned_attrs r) with
           | None => Ok []
           | Some l => map_res (fun c =>
                  if negb (String.eqb (ci_type c) "signed_data") then
                    raise AuthenticodeParseError "Nested signature is not a SignedData structure"
                  else let? s := ci_content c in sub' s) l end).
  { destruct (lz_values lz_nested ys) as [v|], (attr_values as_nested _) as [b|]; try contradiction N; [|reflexivity].
    apply (map_res_ag ag_ci); [|exact N]. exact (ag_sub _ _ _ K). }
  rewrite C. clear C. match goal with |- rbind ?x _ = _ => destruct x; cbn [rbind]; [|reflexivity] end.
  assert (E : present (lz_values lz_counter_signature ys) = present (attr_values as_counter_signature (unsigned_attrs r))).
  { pose proof (ag_counter _ _ Y) as Q. destruct (lz_values lz_counter_signature _), (attr_values as_counter_signature _); try contradiction Q; reflexivity. }
  rewrite E. clear E. pose proof (ag_token _ _ Y) as T.
  destruct (lz_values lz_token ys) as [v|], (attr_values as_token _) as [b|]; try contradiction T; cbn [present].
  - destruct (_ && true); [reflexivity|]. cbn [ag_option] in T. destruct T as [|c c' v b T F]; [reflexivity|]. destruct F; [|reflexivity].
    rewrite (ag_sub _ _ _ ag_rsd _ _ T). destruct (negb _); [reflexivity|]. destruct (ci_content c'); reflexivity.
  - destruct (_ && false); reflexivity.
Qed.

Lemma ag_asd d pe : forall x r, ag_sd x r -> lz_asd d pe x = parse_asd d pe r.
Proof.
  induction d as [|d IH]; intros x r H; [reflexivity|]. cbn [lz_asd parse_asd].
  destruct (ag_data spc_type _ _ H) as (v & V & ->).
  destruct (parse_signed_data spc_type r); cbn [rbind fst snd]; [|reflexivity].
  destruct (ag_signers _ _ H) as (ys & -> & Y). cbn [rbind].
  rewrite (map_res_ag ag_si _ (parse_asi d (parse_asd d pe)) _ _ (fun s r => ag_asi d _ _ s r IH) Y), (ag_spc _ _ V).
  destruct (map_res _ _) as [sis|]; cbn [rbind]; [|reflexivity].
  destruct (parse_spc _); cbn [rbind]; [|reflexivity].
  destruct sis as [|s [|]]; try reflexivity. destruct H. reflexivity.
Qed.

Lemma ag_envelope (load : lz_loader) depth pe b x r : load b = Ok x -> ag_ci x r ->
  lz_from_envelope load depth pe b = from_envelope (fun _ => Ok r) depth pe b.
Proof.
  intros L H. unfold lz_from_envelope, from_envelope. rewrite L. cbn [rbind].
  destruct H as [s r H|t sub]; cbn [rbind ci_type ci_content].
  - replace (String.eqb "signed_data" "signed_data") with true by reflexivity. cbn [rbind lz_content_info]. apply ag_asd. exact H.
  - destruct (String.eqb t "signed_data"); cbn [rbind]; [|reflexivity]. destruct sub; reflexivity.
Qed.
