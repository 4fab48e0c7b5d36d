(** Property C77: signatures are read as they are written. *)
From Verif Require Import Base Monad ModelX509 ModelPkcs7 ModelLazy ModelAuthenticode ModelDer ModelSpc ModelDecode SpecPrim SpecAsn SpecStl ProofsStl SpecRead ProofsBer2
  ProofsTime ProofsPrim4 SpecEnvelope ProofsEnvelope2 PropertiesFingerprint PropertiesX509 ExampleDer PropertiesAsn PropertiesRead.

(** Octets that say [r]: [from_envelope], which reads them part by part and only when needed,
    gives what it gives for [r] read at once. *)
Theorem C77_read :
  forall b r depth pe, says b r ->
  lz_from_envelope der_loader depth pe b = from_envelope (fun _ => Ok r) depth pe b.
Proof. exact says_read. Qed.
Print Assumptions C77_read.

(** The parts can be in any admissible encoding: whoever writes one gets it back. *)
Theorem C77_encoded :
  forall a v b rest, In a envelope_types -> encodes a Untagged v b ->
  load a (b ++ rest) = Ok v /\ exists t, holds_a AAny (b ++ rest) (VAny t) /\ is_a a t v /\ tlv_dump t = b.
Proof. exact encoded_is. Qed.
Print Assumptions C77_encoded.

(** And whatever the library reads as one of the parts is written there. *)
Theorem C77_parts : forall a b v, In a envelope_types -> load a b = Ok v <-> holds_a a b v.
Proof. exact held_iff. Qed.
Print Assumptions C77_parts.

Definition e_opus : bytes :=
  e_seq [enc xa0 [enc x80 [[x00; x41; xd8; x3d; xde; x00]]]; enc xa1 [enc x80 [str "http://a"]]; enc xa2 [enc xa2 [enc x81 [str "f"]]]].
Definition e_full_attrs : list bytes :=
  e_signed_attrs o_spc (e_spc o_sha256 (str "digest")) ++
  [e_attr "2b06010401823702010c" [e_opus]; e_attr "2b06010401823702010b" [e_seq [e_oid "2b060104018237020115"]];
   e_attr "2a03" [e_null; e_int x05]].
Definition e_full : bytes :=
  e_signed x01 [e_alg o_sha256] o_spc (e_seq [e_spc o_sha256 (str "digest")]) [enc xa0 [e_cert; enc xa1 []]]
    [e_signer o_sha256 e_full_attrs (str "sig")
       [e_attr a_counter [e_counter (str "h") []];
        e_attr a_nested
          [e_envelope x03 (str "other")
             [e_attr a_token [e_token (str "h") [e_seq [e_int x01; enc x81 [[x02]]]; enc xa0 [enc xa4 [e_name "TSA"]]]]]]]].

(** What they say. *)
Definition r_sha256 : algid := mkAlgid "sha256" false.
Definition r_spc (digest : bytes) : raw_value := RVSpc (mkRawSpc "microsoft_spc_pe_image_data" true r_sha256 digest).
Definition r_name (s : string) : name := [mkRdn (mkAva "2.5.4.3" (VStr (ustr_of s))) []].
Definition r_attrs (typ : string) (content : bytes) : list raw_attr := [AContentType [typ]; AMessageDigest [e_hash ex_env "sha256" content]].
Definition r_signer (signed : list raw_attr) (attrs : list bytes) (signature : bytes) (unsigned : list raw_attr) : raw_si :=
  RawSI (SidIssuerSerial (r_name "Me") 5) r_sha256 signed (concat attrs) "rsassa_pkcs1v15" signature unsigned.
Definition r_day : Z := ModelDecode.days_from_civil 2020 1 2 * 86400000000.
Definition r_counter : raw_si :=
  let attrs := e_signed_attrs o_data (str "h") ++ [e_attr a_time [enc x17 [str "200102030405Z"]]] in
  r_signer (r_attrs "data" (str "h") ++ [ASigningTime [Aware (r_day + 11045000000)]]) attrs (e_signature attrs) [].
Definition r_tst : raw_tst :=
  mkRawTst "v1" "1.2.3" r_sha256 (str "h") 7 (r_day + 11045000000) (Some (Some 1, None, Some 2)) (TsaDirectory (r_name "TSA")).
Definition r_token : raw_ci :=
  let content := e_tst (str "h") [e_seq [e_int x01; enc x81 [[x02]]]; enc xa0 [enc xa4 [e_name "TSA"]]] in
  let attrs := e_signed_attrs o_tst content in
  RawSigned (RawSD [r_sha256] "tst_info" (mkRawContent content (RVTst r_tst)) [] 0
               [r_signer (r_attrs "tst_info" content) attrs (e_signature attrs) []]).
Definition r_cert : cert :=
  mkCert (identity e_cert) e_cert (r_name "Me") 5 (r_name "Me") (mkSpki "rsa" PNone [x03; x02; x00; x01])
    (ModelDecode.days_from_civil 2020 1 1 * 86400000000) (ModelDecode.days_from_civil 2040 1 1 * 86400000000) None.
Definition t_spc := "microsoft_spc_indirect_data_content".
Definition r_nested : raw_ci :=
  let content := e_seq [e_spc o_sha256 (str "other")] in
  let attrs := e_signed_attrs o_spc content in
  RawSigned (RawSD [r_sha256] t_spc (mkRawContent content (r_spc (str "other"))) [ChoiceCertificate r_cert] 0
               [r_signer (r_attrs t_spc content) attrs (e_signature attrs) [ATimeStampToken [r_token]]]).
Definition e_said : raw_ci :=
  let content := e_spc o_sha256 (str "digest") in
  RawSigned (RawSD [r_sha256] t_spc (mkRawContent content (r_spc (str "digest"))) [ChoiceCertificate r_cert; ChoiceOther ""] 0
               [r_signer (r_attrs t_spc content ++ [AOpusInfo 1; AStatementType 1; AOther "" 2]) e_full_attrs (str "sig")
                  [ACounterSignature [r_counter]; ANestedSignature [r_nested]]]).
Check (@eq_refl (res asd) (lz_from_envelope der_loader 5 true e_full)
  <: from_envelope (fun _ => Ok e_said) 5 true e_full = lz_from_envelope der_loader 5 true e_full).

(** It does say so: the parts are found by computation. *)
Definition tlvs (o : option aval) : list tlv :=
  match o with Some (VList l) => flat_map (fun v => match v with VAny t => [t] | _ => [] end) l | _ => [] end.
Ltac each tac := repeat first [apply Forall2_nil | apply Forall2_cons; [solve [tac]|]].
Ltac every tac := repeat first [apply Forall_nil | apply Forall_cons; [solve [tac]|]].
Ltac algorithm :=
  eexists _, _; (split; [reflexivity|]); (split; [computed|]); first [reflexivity | eexists; (split; [reflexivity|rewrite <- truthy_is; vm_compute; split; first [reflexivity|discriminate]])].
Ltac text_value := split; [computed|split; [computed|right; split; [vm_compute; discriminate|eexists; split; [apply text_is; computed|computed]]]].
Ltac named :=
  eexists; (split; [reflexivity|]);
  each ltac:(eexists; (split; [reflexivity|]); each ltac:(eexists _, _; (split; [reflexivity|]); (split; [computed|text_value]))).
Ltac link :=
  first [left; eexists; split; [reflexivity|every computed]
        | right; right; eexists; split; [reflexivity|right; eexists; split; [reflexivity|every computed]]].
Ltac image :=
  idtac; lazymatch goal with |- image_ok ?t =>
    lazymatch eval vm_compute in (decode MsImage Untagged t) with
    | Ok (VSeq [?x; ?y]) => exists x, y; split; [computed|split; [exact I|exact I]]
    end
  end.
Ltac spc :=
  eexists _, _, _; (split; [reflexivity|]); (split; [computed|]); (split; [algorithm|]); (split; [reflexivity|]);
  eexists; (split; [reflexivity|intros _; image]).
Ltac tst :=
  eexists _, _, _, _, _, _, _, _, _, _; (split; [reflexivity|]); (split; [split; computed|]); (split; [computed|]); (split; [algorithm|]);
  (split; [computed|]); (split; [apply general_exact; computed|]);
  (split; [eexists _, _, _; (split; [reflexivity|]); (split; [eexists; split; computed|]); (split; [exact I|]); eexists; split; computed|]);
  eexists; (split; [reflexivity|named]).
Ltac content := idtac;
  lazymatch goal with
  | |- content_says ?version ?typ (Some (VAny ?t)) (mkRawContent _ (RVSpc ?r)) =>
      lazymatch eval vm_compute in (decode MsContent Untagged t) with
      | Ok ?v => apply (ContentSpc1 version typ t v r); [computed|computed|computed|spc]
      | _ => lazymatch eval vm_compute in (load MsContent (t_contents t)) with
             | Ok ?v => apply (ContentSpc version typ t v r);
                        [vm_compute; discriminate|computed|split; [split|]; computed|computed|spc]
             end
      end
  | |- content_says ?version ?typ (Some (VAny ?t)) (mkRawContent _ (RVTst ?r)) =>
      lazymatch eval vm_compute in (load TspInfo (t_contents t)) with
      | Ok ?v => apply (ContentTst version typ t v r);
                 [vm_compute; discriminate|computed|split; [split|]; computed|computed|tst]
      end
  end.
Ltac choice := idtac;
  lazymatch goal with
  | |- choice_says ?t (ChoiceCertificate ?c) =>
      lazymatch eval vm_compute in (decode X509 Untagged t) with
      | Ok ?v => apply (ChoiceX509 t v c); [computed| |computed|computed];
                 eexists _, _, _, _, _, _, _, _, _, _, _, _, _; (split; [reflexivity|]); (split; [computed|]); (split; [named|]);
                 (split; [eexists _, _; (split; [reflexivity|]); split; eexists _, _; (split; [reflexivity|apply time_is; computed])|]); (split; [named|]);
                 (split; [|reflexivity]); eexists _, _, _; (split; [reflexivity|]); (split; [computed|]);
                 (split; [eexists; (split; [reflexivity|]); left; split; [split|]; computed|]); repeat split
      end
  | |- choice_says ?t (ChoiceOther ?k) => apply ChoiceForeign; [computed|split; vm_compute; discriminate]
  end.
Ltac instant := eexists; (split; [computed|]); eexists _, _; (split; [reflexivity|apply time_is; computed]).
Ltac attr :=
  idtac; lazymatch goal with |- attr_says ?t ?x =>
    lazymatch eval vm_compute in (decode CmsAttribute Untagged t) with
    | Ok (VSeq [Some (VPrim ?oid); ?o]) =>
        let ts := eval vm_compute in (tlvs o) in
        let d := eval vm_compute in (oid_text oid) in
        apply (AttrSays t oid ts x); [computed|]; replace (oid_text oid) with d by computed
    end
  end;
  lazymatch goal with
  | |- values_say _ _ (AContentType _) => apply SaysContentType; each ltac:(eexists; split; computed)
  | |- values_say _ _ (AMessageDigest _) => apply SaysMessageDigest; each computed
  | |- values_say _ _ (ASigningTime _) => apply SaysSigningTime; each instant
  | |- values_say _ _ (ACounterSignature _) => apply SaysCounterSignature; each signer
  | |- values_say _ ?ts (AStatementType _) => apply (SaysStatementType ts); every ltac:(eexists; computed)
  | |- values_say _ ?ts (AOpusInfo _) => apply (SaysOpusInfo ts); every opus
  | |- values_say _ _ (ANestedSignature _) => apply SaysNested; each info
  | |- values_say _ _ (ATimeStampToken _) => apply SaysToken; each info
  | |- values_say ?d ?ts (AOther ?s _) => apply (SaysOther d s ts); vm_compute; intuition discriminate
  end
with signer :=
  idtac; lazymatch goal with |- signer_says ?t (RawSI ?sid ?alg ?signed _ _ ?signature ?unsigned) =>
    lazymatch eval vm_compute in (decode CmsSigner Untagged t) with
    | Ok (VSeq [?version; Some ?vsid; Some ?valg; ?o1; Some (VSeq [Some (VPrim ?salg); ?params]); _; ?o2]) =>
        let ts1 := eval vm_compute in (tlvs o1) in
        let ts2 := eval vm_compute in (tlvs o2) in
        replace (RawSI _ _ _ _ _ _ _)
          with (RawSI sid alg signed (concat (map tlv_dump ts1)) (called signature_algorithms salg) signature unsigned) by computed;
        apply (SignerSays t version vsid valg o1 o2 salg params signature sid alg ts1 signed ts2 unsigned);
        [computed|eexists _, _; (split; [reflexivity|split; [named|computed]])|algorithm|computed|each attr|computed|each attr]
    end
  end
with info :=
  idtac; lazymatch goal with |- ci_says ?t (RawSigned ?s) =>
    lazymatch eval vm_compute in (decode CmsContentInfo Untagged t) with
    | Ok (VSeq [Some (VPrim ?oid); Some (VAny ?u)]) => apply (CiSigned t oid u s); [computed|computed|data]
    end
  end
with data :=
  idtac; lazymatch goal with |- sd_says ?t (RawSD ?algs _ ?c ?certs _ ?signers) =>
    lazymatch eval vm_compute in (decode CmsSignedData Untagged t) with
    | Ok (VSeq [Some (VPrim ?version); Some (VList ?valgs); Some (VSeq [Some (VPrim ?typ); ?o]); ?o1; ?o2; ?o3]) =>
        let ts := eval vm_compute in (tlvs o3) in
        let ts1 := eval vm_compute in (tlvs o1) in
        let ts2 := eval vm_compute in (tlvs o2) in
        replace (RawSD _ _ _ _ _ _) with (RawSD algs (called content_types typ) c certs (length ts2) signers) by computed;
        apply (SdSays t version valgs typ o o1 o2 ts algs c ts1 certs ts2 signers);
        [computed|each algorithm|content|computed|each choice|computed|each signer]
    end
  end
with opus :=
  idtac; lazymatch goal with |- opus_ok ?t =>
    lazymatch eval vm_compute in (decode MsOpus Untagged t) with
    | Ok (VSeq [?x; ?y; ?z]) =>
        exists x, y, z; split; [computed|split; [|split; link]]; left; exists [65%N; 128512%N]; split; [computed|every ltac:(vm_compute; first [left; reflexivity|right; split; [discriminate|reflexivity]])]
    end
  end.
Example C77_says : says e_full e_said.
Proof.
  lazymatch goal with |- says ?b ?s =>
    let r := eval vm_compute in s in
    lazymatch eval vm_compute in (load AAny b) with
    | Ok (VAny ?t) => replace s with r by computed; exists t; split; [computed|]
    end
  end.
  info.
Qed.

(** An encoded part. *)
Definition e_opus_value : aval :=
  VSeq [Some (VChoice "unicode" (VPrim [x00; x41; xd8; x3d; xde; x00])); Some (VChoice "url" (VPrim (str "http://a")));
        Some (VChoice "file" (VChoice "ascii" (VPrim (str "f"))))].
Example C77_written : encodes MsOpus Untagged e_opus_value e_opus.
Proof. eapply encodes_eq; [unfold e_opus_value, MsOpus, MsLink, MsText; repeat first [wrote|long]|vm_compute; reflexivity]. Qed.
