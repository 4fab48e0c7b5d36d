(** Properties C51 and C53: the input of signature checks, the structure of signatures. *)
From Verif Require Import Base Bytes Monad ModelX509 SpecX509 ModelPkcs7 SpecPkcs7 ProofsPkcs7
  ModelAuthenticode ProofsPkcs7b PropertiesX509.

(** *** Concrete data *)
Definition ex_sha256 : algid := mkAlgid "sha256" false.
Definition ex_spc : raw_spc := mkRawSpc "microsoft_spc_pe_image_data" true ex_sha256 [x07; x08].
Definition ex_octets : bytes := [x0a; x0b].
Definition ex_attrs (ct : string) (md : bytes) : list raw_attr := [AContentType [ct]; AMessageDigest [md]].
Definition ex_si (signed unsigned : list raw_attr) : raw_si :=
  RawSI (SidIssuerSerial ex_ca 42) ex_sha256 signed [x01; x02] "rsa" (encode_attributes [x01; x02]) unsigned.
Definition ex_spc_attrs : list raw_attr :=
  ex_attrs "microsoft_spc_indirect_data_content" (x06 :: ex_octets).
Definition ex_sd (signers : list raw_si) : raw_sd :=
  RawSD [ex_sha256] "microsoft_spc_indirect_data_content" (mkRawContent ex_octets (RVSpc ex_spc))
    [ChoiceOther "v1"; ChoiceCertificate ex_cert] 0 signers.
(** a countersigner, countersigned itself *)
Definition ex_cs_attrs : list raw_attr := ex_attrs "data" [x09] ++ [ASigningTime [Aware 500]].
Definition ex_counter : raw_si := ex_si ex_cs_attrs [ACounterSignature [ex_si ex_cs_attrs []]].
(** a token *)
Definition ex_tst : raw_tst := mkRawTst "v1" "1.2.3" ex_sha256 [x09] 5 600 (Some (Some 1, None, Some 30)) TsaAbsent.
Definition ex_token_sd (unsigned : list raw_attr) : raw_sd :=
  RawSD [ex_sha256] "tst_info" (mkRawContent [x0c] (RVTst ex_tst)) [] 0
    [ex_si (ex_attrs "tst_info" [x06; x0c]) unsigned].
(** a signature with a token, nested in one with a countersigner *)
Definition ex_inner : raw_sd := ex_sd [ex_si ex_spc_attrs [ATimeStampToken [RawSigned (ex_token_sd [])]]].
Definition ex_outer : raw_sd :=
  ex_sd [ex_si (ex_spc_attrs ++ [AStatementType 1; AOpusInfo 1])
               [ANestedSignature [RawSigned ex_inner; RawSigned ex_inner]; ACounterSignature [ex_counter]; AOther "1.2" 3]].

(** *** C51 *)

Theorem C51_signature_input :
  forall need expected r i E c legacy,
  zlen (contents_of r) < 256 ^ 126 ->
  parse_signer need expected r = Ok i ->
  exists L, der_len (zlen (contents_of r)) L /\
  let input := x31 :: L ++ contents_of r in
  (verify_issuer_signature E i c legacy = Ok tt <->
   scheme_accepts E (c_key c) (si_signature i) input (si_digest_alg i) \/
   (legacy = true /\ legacy_accepts E (c_key c) (si_signature i) input (si_digest_alg i))).
Proof.
  intros need exp r i E c legacy Hl H. exists (der_length (zlen (contents_of r))). split.
  - apply der_length_der. unfold zlen in *. lia.
  - cbv zeta. rewrite verify_issuer_signature_ok, (signer_encoded _ _ _ _ H). reflexivity.
Qed.
Print Assumptions C51_signature_input.

(** The octets are determined by the contents, and the contents by the octets; for contents
    of any length. *)
Theorem C51_bound :
  (forall n a b, der_len n a -> der_len n b -> a = b) /\
  (forall need expected r i need' expected' r' i',
   parse_signer need expected r = Ok i -> parse_signer need' expected' r' = Ok i' ->
   (si_encoded i = si_encoded i' <-> contents_of r = contents_of r')).
Proof.
  split; [exact der_len_det|].
  intros need exp r i need' exp' r' i' H H'.
  rewrite (signer_encoded _ _ _ _ H), (signer_encoded _ _ _ _ H').
  split; [apply encode_injective|congruence].
Qed.
Print Assumptions C51_bound.

Example C51_run :
  encode_attributes [x01; x02] = [x31; x02; x01; x02] /\
  firstn 4 (encode_attributes (repeat x05 200)) = [x31; x81; xc8; x05] /\
  firstn 5 (encode_attributes (repeat x05 300)) = [x31; x82; x01; x2c; x05] /\
  (exists i, parse_signer true None ex_counter = Ok i /\
     verify_issuer_signature ex_env i ex_cert false = Ok tt /\
     is_ok (verify_issuer_signature ex_env (mkSinfo (si_issuer i) (si_serial i) (si_encoded i) (si_sig_alg i)
       [x31; x02; x01; x03] (si_digest_alg i) None None None) ex_cert false) = false).
Proof. split; [reflexivity|]. split; [vm_compute; reflexivity|]. split; [vm_compute; reflexivity|]. eexists. vm_compute. repeat split. Qed.

(** *** C53 *)

(** The full statement: every accepted structure reads as in [asd_reads] with exactly one
    content type and message digest attribute, and everything else is rejected with a
    ParseError.  Both halves are false. *)

(** Two message digest attributes are accepted. *)
Theorem C53_refuted_attributes :
  exists r s a, raw_signers r = [s] /\ parse_asd 5 true r = Ok a /\
    occurrences as_message_digest (signed_attrs s) = 2%nat /\
    occurrences as_content_type (signed_attrs s) = 2%nat.
Proof.
  exists (ex_sd [ex_si (ex_attrs "data" [x00] ++ ex_spc_attrs) []]). do 2 eexists.
  split; [reflexivity|]. split; [vm_compute; reflexivity|]. split; reflexivity.
Qed.
Print Assumptions C53_refuted_attributes.

(** Structures rejected with errors that are no ParseErrors: no digest algorithm; a token
    with a countersigner; absent content; absent image data; an authority that is not a
    directory name; an accuracy out of range; a ContentInfo without content. *)
Theorem C53_refuted_errors :
  let token t := ex_sd [ex_si ex_spc_attrs [ATimeStampToken [RawSigned t]]] in
  let bad_tst acc tsa := RawSD [ex_sha256] "tst_info"
    (mkRawContent [] (RVTst (mkRawTst "v1" "" ex_sha256 [] 0 0 acc tsa))) [] 0
    [ex_si (ex_attrs "tst_info" []) []] in
  let spc v := RawSD [ex_sha256] "microsoft_spc_indirect_data_content" (mkRawContent [] v) [] 0
    [ex_si ex_spc_attrs []] in
  forall r k, In (r, k)
    [(RawSD [] "" (mkRawContent [] RVNone) [] 0 [], KeyError);
     (token (ex_token_sd [ACounterSignature [ex_counter]]), AssertionError);
     (spc RVNone, TypeError);
     (spc (RVSpc (mkRawSpc "microsoft_spc_pe_image_data" false ex_sha256 [])), TypeError);
     (token (bad_tst None (TsaOther "dns_name")), NotImplementedError);
     (token (bad_tst (Some (Some (10 ^ 15), None, None)) TsaAbsent), OverflowError)] ->
  exists m, parse_asd 5 true r = raise k m /\ issubclass k ParseError = false.
Proof.
  intros token bad_tst spc r k H. cbn [In] in H.
  repeat (destruct H as [H|H]; [injection H as <- <-; eexists; split; [vm_compute; reflexivity|reflexivity]|]).
  destruct H.
Qed.
Print Assumptions C53_refuted_errors.

(** Accepted structures are exactly those that read well, for any depth of nesting: the
    first half without the claim that attributes are not repeated. *)
Theorem C53_accepted_partial :
  forall pe r a,
  (forall depth, parse_asd depth pe r = Ok a -> asd_reads pe r a) /\
  (forall depth, (height_sd r <= depth)%nat -> asd_reads pe r a -> parse_asd depth pe r = Ok a).
Proof.
  intros pe r a. split; [intros d; apply parse_asd_sound|].
  intros d Hd H. now apply parse_asd_complete.
Qed.
Print Assumptions C53_accepted_partial.

(** With attributes that are not repeated, there is exactly one of each. *)
Theorem C53_unique_attributes_partial :
  forall pe r a, asd_reads pe r a ->
  (forall s, In s (raw_signers r) -> (occurrences as_message_digest (signed_attrs s) <= 1)%nat /\
     (occurrences as_content_type (signed_attrs s) <= 1)%nat) ->
  exists s md, raw_signers r = [s] /\ si_message_digest (asi_info (asd_signer a)) = Some md /\
    si_content_type (asi_info (asd_signer a)) = Some "microsoft_spc_indirect_data_content" /\
    (forall b, In b (signed_attrs s) -> as_message_digest b = None \/ as_message_digest b = Some [md]) /\
    occurrences as_message_digest (signed_attrs s) = 1%nat /\
    occurrences as_content_type (signed_attrs s) = 1%nat.
Proof.
  intros pe r a H Ho.
  destruct H as [r d v spc s i cs nested HD HV HS HC HL HI H1 H2 HCS HN].
  rewrite HL in Ho. destruct (Ho s (or_introl eq_refl)) as [O1 O2].
  exists s. destruct HI as [issuer serial dalg signed contents salg sg unsigned alg md ct t Ha Hm Hc He Ht Hn].
  exists md. cbn [signed_attrs asd_signer asi_info si_message_digest si_content_type] in *.
  split; [assumption|]. split; [reflexivity|]. split; [now rewrite (He _ eq_refl)|].
  destruct (has_attr_occurs _ _ _ Hm O1) as (p1 & a1 & q1 & E1 & F1 & P1 & Q1).
  assert (forall (A : Type) (f : raw_attr -> option A) l, Forall (fun b => f b = None) l -> occurrences f l = 0%nat) as Z.
  { intros A f l F. unfold occurrences. induction F as [|b l Hb _ IH]; cbn [filter]; [reflexivity|]. now rewrite Hb. }
  split.
  - intros b Hb. rewrite E1 in Hb. apply in_app_or in Hb. rewrite Forall_forall in P1, Q1.
    destruct Hb as [Hb|[<-|Hb]]; auto.
  - destruct (has_attr_occurs _ _ _ Hc O2) as (p2 & a2 & q2 & E2 & F2 & P2 & Q2).
    split.
    + rewrite E1. unfold occurrences. rewrite filter_app. cbn [filter]. rewrite F1, app_length. cbn [length].
      apply Z in P1, Q1. unfold occurrences in P1, Q1. now rewrite P1, Q1.
    + rewrite E2. unfold occurrences. rewrite filter_app. cbn [filter]. rewrite F2, app_length. cbn [length].
      apply Z in P2, Q2. unfold occurrences in P2, Q2. now rewrite P2, Q2.
Qed.
Print Assumptions C53_unique_attributes_partial.

(** Every signature found inside an accepted one reads well, too. *)
Theorem C53_nested :
  forall pe r a b, asd_reads pe r a -> In b (recursive_nested true a) -> exists r', asd_reads pe r' b.
Proof. intros pe r a b. apply recursive_reads. Qed.
Print Assumptions C53_nested.

(** Missing from the second half: structures that are not regular (C53_refuted_errors), and
    nesting that exceeds the recursion limit. *)
Theorem C53_rejected_partial :
  forall depth pe r, regular_sd r -> (height_sd r <= depth)%nat ->
  (forall a, ~ asd_reads pe r a) ->
  exists e, parse_asd depth pe r = Err e /\ is_parse_error e.
Proof.
  intros d pe r HR Hd HN. destruct (parse_asd d pe r) as [a|e] eqn:P.
  - elim (HN a). eapply parse_asd_sound; eassumption.
  - exists e. split; [reflexivity|]. eapply parse_asd_err; eassumption.
Qed.
Print Assumptions C53_rejected_partial.

(** Without the restrictions: no other classes of errors. *)
Theorem C53_errors :
  forall depth pe r e, parse_asd depth pe r = Err e -> parse_class (e_class e).
Proof. intros d pe r e. apply asd_class. Qed.
Print Assumptions C53_errors.

(** Envelopes: the content must be a SignedData. *)
Theorem C53_envelope :
  forall load depth pe b a,
  (from_envelope load depth pe b = Ok a -> exists r, load b = Ok (RawSigned r) /\ asd_reads pe r a) /\
  (forall r, load b = Ok (RawSigned r) -> (height_sd r <= depth)%nat -> asd_reads pe r a ->
     from_envelope load depth pe b = Ok a) /\
  (forall t s, load b = Ok (RawOther t s) -> t <> "signed_data" ->
     exists e, from_envelope load depth pe b = Err e /\ is_parse_error e).
Proof.
  intros load d pe b a. unfold from_envelope. split; [|split].
  - destruct (load b) as [[r|t s]|]; cbn [rbind ci_type ci_content]; [|destruct (String.eqb t "signed_data")|discriminate].
    + rewrite String.eqb_refl. cbn [rbind]. intros H. exists r. split; [reflexivity|]. eapply parse_asd_sound; eassumption.
    + destruct s; discriminate.
    + discriminate.
  - intros r -> Hd H. cbn [rbind ci_type ci_content]. rewrite String.eqb_refl. cbn [rbind]. now apply parse_asd_complete.
  - intros t s -> Ht. cbn [rbind ci_type ci_content]. destruct (String.eqb_spec t "signed_data"); [contradiction|].
    cbn [rbind]. eexists. split; reflexivity.
Qed.
Print Assumptions C53_envelope.

(** The nested example is accepted with its three signatures; it is regular; a signature
    with both kinds of timestamps, with CRLs, or with two signers is not accepted, although
    it is regular. *)
Definition ex_both : raw_sd :=
  ex_sd [ex_si ex_spc_attrs [ATimeStampToken [RawSigned (ex_token_sd [])]; ACounterSignature [ex_counter]]].
Example C53_run :
  height_sd ex_outer = 3%nat /\
  (exists a, parse_asd 3 true ex_outer = Ok a /\ length (recursive_nested true a) = 3%nat /\
     sd_certificates (asd_data a) = [ex_cert]) /\
  parse_asd 2 true ex_outer = recursion_error /\
  (exists m, parse_asd 4 true ex_both = raise AuthenticodeParseError m) /\
  (exists m, parse_asd 4 true (ex_sd [ex_si ex_spc_attrs []; ex_si ex_spc_attrs []]) = raise AuthenticodeParseError m).
Proof.
  split; [reflexivity|]. split; [eexists; vm_compute; repeat split|]. split; [reflexivity|].
  split; eexists; vm_compute; reflexivity.
Qed.
Example C53_regular : regular_sd ex_both.
Proof.
  assert (regular_content "microsoft_spc_indirect_data_content" (RVSpc ex_spc)) as R.
  { split; [intros _; exists ex_spc; auto|discriminate]. }
  apply regular_sd_intro; [exact R|]. constructor; [|constructor]. apply regular_si_intro.
  - intros l c [H|[H|[]]]; discriminate H.
  - intros l c [H|[H|[]]] Hc; [injection H as <-|discriminate H]. destruct Hc as [<-|[]].
    apply regular_token_signed. apply regular_token_intro.
    + split; [discriminate|]. intros _. exists ex_tst. split; [reflexivity|]. split.
      * exists 1000030. cbn. unfold duration. lia.
      * intros k H. discriminate H.
    + constructor; [constructor|constructor].
Qed.
