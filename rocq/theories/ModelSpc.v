(** The declarations of signify/asn1/spc.py and signify/asn1/ctl.py, and those of asn1crypto
    (cms.py, x509.py, algos.py, tsp.py, keys.py: not in /repo) that signify reads, as data for
    ModelDer.v.  No proofs in this file. *)
From Verif Require Import Base ModelDer.

(** The classes of asn1crypto's core.py by universal tag. *)
Definition aBoolean := APrim 1.
Definition aInteger := APrim 2.
Definition aBitString := APrim 3.
Definition aOctetString := APrim 4.
Definition aObjectIdentifier := APrim 6.
Definition aIA5String := APrim 22.
Definition aBMPString := APrim 30.

(** One field: required, or with its parameters. *)
Definition field (n : string) (a : asn) := (n, (a, (Untagged, Required))).
Definition field_with (n : string) (a : asn) (tg : tagging) (p : presence) := (n, (a, (tg, p))).

(** ** signify/asn1/spc.py *)

(** spc.py:54-61. *)
Definition SpcUuid := aOctetString.
(** spc.py:64-79. *)
Definition SpcSerializedObject := ASeq [field "class_id" SpcUuid; field "serialized_data" aOctetString].
(** spc.py:82-97. *)
Definition SpcString :=
  AChoice [("unicode", (aBMPString, Implicit 0)); ("ascii", (aIA5String, Implicit 1))].
(** spc.py:100-117. *)
Definition SpcLink :=
  AChoice [("url", (aIA5String, Implicit 0)); ("moniker", (SpcSerializedObject, Implicit 1));
           ("file", (SpcString, Explicit 2))].
(** spc.py:120-133. *)
Definition SpcImage :=
  ASeq [field_with "image_link" SpcLink (Explicit 0) Optional;
        field_with "bitmap" aOctetString (Implicit 1) Optional;
        field_with "metafile" aOctetString (Implicit 2) Optional;
        field_with "enhanced_metafile" aOctetString (Implicit 3) Optional;
        field_with "gif_file" aOctetString (Implicit 4) Optional].
(** spc.py:136-154: the names of the bits. *)
Definition SpcPeImageFlags := aBitString.
Definition pe_image_flags : list string :=
  ["include_resources"; "include_debug_info"; "include_import_address_table"].
(** spc.py:157-178. *)
Definition SpcPeImageData :=
  ASeq [field_with "flags" SpcPeImageFlags Untagged Default;
        field_with "file" SpcLink (Explicit 0) Optional].
(** spc.py:181-186. *)
Definition spc_attribute_types : dict string :=
  [("1.3.6.1.4.1.311.2.1.15", "microsoft_spc_pe_image_data")].
(** spc.py:189-214.  The type of the value is that of [_oid_specs] when the type is in it. *)
Definition SpcAttributeTypeAndOptionalValue :=
  ASeq [field "type" aObjectIdentifier; field_with "value" AAny Untagged Optional].
(** asn1crypto: DigestAlgorithm and DigestInfo. *)
Definition AlgorithmIdentifier :=
  ASeq [field "algorithm" aObjectIdentifier; field_with "parameters" AAny Untagged Optional].
Definition DigestInfo := ASeq [field "digest_algorithm" AlgorithmIdentifier; field "digest" aOctetString].
(** spc.py:217-235. *)
Definition SpcIndirectDataContent :=
  ASeq [field "data" SpcAttributeTypeAndOptionalValue; field "message_digest" DigestInfo].
(** spc.py:238-257. *)
Definition SpcSpOpusInfo :=
  ASeq [field_with "program_name" SpcString (Explicit 0) Optional;
        field_with "more_info" SpcLink (Explicit 1) Optional;
        field_with "publisher_info" SpcLink (Explicit 2) Optional].
(** spc.py:264-281. *)
Definition spc_statement_types : dict string :=
  [("1.3.6.1.4.1.311.2.1.21", "microsoft_spc_individual_sp_key_purpose");
   ("1.3.6.1.4.1.311.2.1.22", "microsoft_spc_commercial_sp_key_purpose")].
Definition SpcStatementType := ASeqOf aObjectIdentifier.
(** spc.py:302-316. *)
Definition SpcSpAgencyInformation :=
  ASeq [field_with "policy_information" SpcLink (Explicit 0) Required;
        field_with "policy_display_text" SpcString (Explicit 1) Optional;
        field_with "logo_image" SpcImage (Implicit 2) Optional;
        field_with "logo_link" SpcLink (Explicit 3) Optional].
(** spc.py:319-325. *)
Definition SpcFinancialCriteria :=
  ASeq [field_with "financial_info_available" aBoolean Untagged Default;
        field_with "meets_criteria" aBoolean Untagged Default].

(** ** asn1crypto: names, times, certificates *)

Definition NameTypeAndValue := ASeq [field "type" aObjectIdentifier; field "value" AAny].
Definition Name := ASeqOf (ASetOf NameTypeAndValue).
Definition Time := AChoice [("utc_time", (APrim 23, Untagged)); ("general_time", (APrim 24, Untagged))].
Definition Validity := ASeq [field "not_before" Time; field "not_after" Time].
Definition PublicKeyInfo := ASeq [field "algorithm" AlgorithmIdentifier; field "public_key" aBitString].
Definition Extension :=
  ASeq [field "extn_id" aObjectIdentifier; field_with "critical" aBoolean Untagged Default;
        field "extn_value" aOctetString].
Definition ExtKeyUsageSyntax := ASeqOf aObjectIdentifier.
Definition TbsCertificate :=
  ASeq [field_with "version" aInteger (Explicit 0) Default;
        field "serial_number" aInteger;
        field "signature" AlgorithmIdentifier;
        field "issuer" Name;
        field "validity" Validity;
        field "subject" Name;
        field "subject_public_key_info" PublicKeyInfo;
        field_with "issuer_unique_id" aBitString (Implicit 1) Optional;
        field_with "subject_unique_id" aBitString (Implicit 2) Optional;
        field_with "extensions" (ASeqOf Extension) (Explicit 3) Optional].
Definition Certificate :=
  ASeq [field "tbs_certificate" TbsCertificate; field "signature_algorithm" AlgorithmIdentifier;
        field "signature_value" aBitString].

(** ** signify/asn1/ctl.py *)

(** ctl.py:137-147; the values are parsed further when they are read. *)
Definition SubjectAttribute := ASeq [field "type" aObjectIdentifier; field "values" (ASetOf aOctetString)].
(** ctl.py:168-193. *)
Definition TrustedSubject :=
  ASeq [field "subject_identifier" aOctetString;
        field_with "subject_attributes" (ASetOf SubjectAttribute) Untagged Optional].
(** ctl.py:196-237. *)
Definition CertificateTrustList :=
  ASeq [field_with "version" aInteger Untagged Default;
        field "subject_usage" ExtKeyUsageSyntax;
        field_with "list_identifier" aOctetString Untagged Optional;
        field_with "sequence_number" aInteger Untagged Optional;
        field "ctl_this_update" Time;
        field_with "ctl_next_update" Time Untagged Optional;
        field "subject_algorithm" AlgorithmIdentifier;
        field_with "trusted_subjects" (ASeqOf TrustedSubject) Untagged Optional;
        field_with "ctl_extensions" (ASeqOf Extension) (Explicit 0) Optional].

(** ** asn1crypto: cms.py and tsp.py.  Values that contain the type itself are [AAny] here and
    decoded by ModelDecode.v. *)

Definition ContentInfo :=
  ASeq [field "content_type" aObjectIdentifier; field_with "content" AAny (Explicit 0) Optional].
Definition EncapsulatedContentInfo :=
  ASeq [field "content_type" aObjectIdentifier; field_with "content" aOctetString (Explicit 0) Optional].
Definition IssuerAndSerialNumber := ASeq [field "issuer" Name; field "serial_number" aInteger].
Definition SignerIdentifier :=
  AChoice [("issuer_and_serial_number", (IssuerAndSerialNumber, Untagged));
           ("subject_key_identifier", (aOctetString, Implicit 0))].
Definition CMSAttribute := ASeq [field "type" aObjectIdentifier; field "values" (ASetOf AAny)].
Definition SignerInfo :=
  ASeq [field "version" aInteger; field "sid" SignerIdentifier; field "digest_algorithm" AlgorithmIdentifier;
        field_with "signed_attrs" (ASetOf CMSAttribute) (Implicit 0) Optional;
        field "signature_algorithm" AlgorithmIdentifier; field "signature" aOctetString;
        field_with "unsigned_attrs" (ASetOf CMSAttribute) (Implicit 1) Optional].
Definition CertificateChoices :=
  AChoice [("certificate", (Certificate, Untagged)); ("extended_certificate", (AAny, Implicit 0));
           ("v1_attr_cert", (AAny, Implicit 1)); ("v2_attr_cert", (AAny, Implicit 2));
           ("other", (AAny, Implicit 3))].
Definition SignedData :=
  ASeq [field "version" aInteger; field "digest_algorithms" (ASetOf AlgorithmIdentifier);
        field "encap_content_info" (ASeq []);
        field_with "certificates" (ASetOf CertificateChoices) (Implicit 0) Optional;
        field_with "crls" (ASetOf AAny) (Implicit 1) Optional;
        field "signer_infos" (ASetOf SignerInfo)].
Definition MessageImprint :=
  ASeq [field "hash_algorithm" AlgorithmIdentifier; field "hashed_message" aOctetString].
Definition Accuracy :=
  ASeq [field_with "seconds" aInteger Untagged Optional; field_with "millis" aInteger (Implicit 0) Optional;
        field_with "micros" aInteger (Implicit 1) Optional].
Definition GeneralName :=
  AChoice [("other_name", (AAny, Implicit 0)); ("rfc822_name", (aIA5String, Implicit 1));
           ("dns_name", (aIA5String, Implicit 2)); ("x400_address", (AAny, Implicit 3));
           ("directory_name", (Name, Explicit 4)); ("edi_party_name", (AAny, Implicit 5));
           ("uniform_resource_identifier", (aIA5String, Implicit 6)); ("ip_address", (aOctetString, Implicit 7));
           ("registered_id", (aObjectIdentifier, Implicit 8))].
Definition TSTInfo :=
  ASeq [field "version" aInteger; field "policy" aObjectIdentifier; field "message_imprint" MessageImprint;
        field "serial_number" aInteger; field "gen_time" (APrim 24);
        field_with "accuracy" Accuracy Untagged Optional; field_with "ordering" aBoolean Untagged Default;
        field_with "nonce" aInteger Untagged Optional; field_with "tsa" GeneralName (Explicit 0) Optional;
        field_with "extensions" (ASeqOf Extension) (Implicit 1) Optional].

(** ** Names of object identifiers

    The [_map]s of asn1crypto, restricted to the names that signify or its tests mention, with
    what spc.py:288-296 and ctl.py:241 add.  Simplified: all other identifiers keep their
    dotted form. *)

Definition content_types : dict string :=
  [("1.2.840.113549.1.7.1", "data"); ("1.2.840.113549.1.7.2", "signed_data");
   ("1.2.840.113549.1.9.16.1.4", "tst_info");
   ("1.3.6.1.4.1.311.2.1.4", "microsoft_spc_indirect_data_content");
   ("1.3.6.1.4.1.311.10.1", "microsoft_ctl")].
Definition attribute_types : dict string :=
  [("1.2.840.113549.1.9.3", "content_type"); ("1.2.840.113549.1.9.4", "message_digest");
   ("1.2.840.113549.1.9.5", "signing_time"); ("1.2.840.113549.1.9.6", "counter_signature");
   ("1.2.840.113549.1.9.16.2.14", "signature_time_stamp_token");
   ("1.3.6.1.4.1.311.2.4.1", "microsoft_nested_signature");
   ("1.3.6.1.4.1.311.3.3.1", "microsoft_time_stamp_token");
   ("1.3.6.1.4.1.311.2.1.11", "microsoft_spc_statement_type");
   ("1.3.6.1.4.1.311.2.1.12", "microsoft_spc_sp_opus_info")].
Definition digest_algorithms : dict string :=
  [("1.2.840.113549.2.2", "md2"); ("1.2.840.113549.2.5", "md5"); ("1.3.14.3.2.26", "sha1");
   ("2.16.840.1.101.3.4.2.4", "sha224"); ("2.16.840.1.101.3.4.2.1", "sha256");
   ("2.16.840.1.101.3.4.2.2", "sha384"); ("2.16.840.1.101.3.4.2.3", "sha512")].
Definition signature_algorithms : dict string :=
  [("1.2.840.113549.1.1.1", "rsassa_pkcs1v15"); ("1.2.840.113549.1.1.4", "md5_rsa");
   ("1.2.840.113549.1.1.5", "sha1_rsa"); ("1.2.840.113549.1.1.11", "sha256_rsa");
   ("1.2.840.113549.1.1.12", "sha384_rsa"); ("1.2.840.113549.1.1.13", "sha512_rsa")].
Definition key_algorithms : dict string :=
  [("1.2.840.113549.1.1.1", "rsa"); ("1.2.840.10040.4.1", "dsa"); ("1.2.840.10045.2.1", "ec")].
Definition extension_types : dict string :=
  [("2.5.29.37", "extended_key_usage"); ("1.3.6.1.4.1.311.2.1.10", "microsoft_spc_sp_agency_info");
   ("1.3.6.1.4.1.311.2.1.27", "microsoft_spc_financial_criteria")].
Definition key_purposes : dict string :=
  [("2.5.29.37.0", "any_extended_key_usage"); ("1.3.6.1.5.5.7.3.1", "server_auth");
   ("1.3.6.1.5.5.7.3.2", "client_auth"); ("1.3.6.1.5.5.7.3.3", "code_signing");
   ("1.3.6.1.5.5.7.3.4", "email_protection"); ("1.3.6.1.5.5.7.3.8", "time_stamping");
   ("1.3.6.1.5.5.7.3.9", "ocsp_signing"); ("1.3.6.1.4.1.311.10.3.1", "microsoft_trust_list_signing");
   ("1.3.6.1.4.1.311.10.3.13", "microsoft_lifetime_signing")].
