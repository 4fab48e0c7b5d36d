(** Model of signify/pkcs7/signerinfo.py, signify/pkcs7/signeddata.py and of the parsing in
    signify/authenticode/structures.py.  No proofs in this file. *)
From Verif Require Import Base Monad ModelX509.

(** ** Decoded ASN.1 values

    What asn1crypto makes of the bytes.  Simplified: asn1crypto decodes lazily, so that a
    malformed value may raise ValueError in the middle of the code below; here every value
    is decoded completely when the envelope is loaded (see [loader]). *)

(** SignerIdentifier: [self.data["sid"]], signerinfo.py:144-150. *)
Inductive raw_sid : Type :=
| SidIssuerSerial (issuer : name) (serial : Z)
| SidKeyIdentifier (key : bytes).

(** SpcIndirectDataContent, asn1/spc.py:217-235: [["data"]["type"].native], whether
    [["data"]["value"]] is present, and ["message_digest"]. *)
Record raw_spc := mkRawSpc {
  rp_type : string;
  rp_value : bool;
  rp_digest_alg : algid;
  rp_digest : bytes
}.

(** [self.data["tsa"]], a GeneralName: absent, a directory name, or another choice. *)
Inductive raw_tsa : Type :=
| TsaAbsent
| TsaDirectory (n : name)
| TsaOther (kind : string).

(** asn1crypto.tsp.TSTInfo, as read by structures.py:665-680. *)
Record raw_tst := mkRawTst {
  rt_version : string;
  rt_policy : string;
  rt_hash_alg : algid;
  rt_hashed_message : bytes;
  rt_serial : Z;
  rt_gen_time : datetime;
  rt_accuracy : option (option Z * option Z * option Z);
  rt_tsa : raw_tsa
}.

(** [self.content], signeddata.py:126-130: the parsed content; [RVNone] when the optional
    content is absent. *)
Inductive raw_value : Type :=
| RVSpc (s : raw_spc)
| RVTst (t : raw_tst)
| RVNone.

(** [_real_content]: the octets that are hashed (signeddata.py:156-161) and their meaning. *)
Record raw_content := mkRawContent { rc_octets : bytes; rc_value : raw_value }.

(** CertificateChoices, signeddata.py:133-140. *)
Inductive raw_choice : Type :=
| ChoiceCertificate (c : cert)
| ChoiceOther (kind : string).

(** Attributes, signer infos, content infos and signed data.  The type of an attribute
    determines the type of its values (a SET OF).  Of the statement type and the opus info
    only the number of values is kept (their contents are stored and not used).
    [RawOther] is a ContentInfo whose content is not a SignedData; [subscriptable] tells
    whether [content["digest_algorithms"]] raises KeyError or TypeError. *)
Inductive raw_attr : Type :=
| AContentType (vals : list string)
| AMessageDigest (vals : list bytes)
| ASigningTime (vals : list datetime)
| ACounterSignature (vals : list raw_si)
| AStatementType (count : nat)
| AOpusInfo (count : nat)
| ANestedSignature (vals : list raw_ci)
| ATimeStampToken (vals : list raw_ci)
| AOther (typ : string) (count : nat)
with raw_si : Type :=
| RawSI (sid : raw_sid) (digest_alg : algid) (signed : list raw_attr) (signed_contents : bytes)
        (sig_alg : string) (signature : bytes) (unsigned : list raw_attr)
with raw_ci : Type :=
| RawSigned (s : raw_sd)
| RawOther (content_type : string) (subscriptable : bool)
with raw_sd : Type :=
| RawSD (digest_algs : list algid) (content_type : string) (content : raw_content)
        (certs : list raw_choice) (crls : nat) (signers : list raw_si).

(** [["content_type"].native] of a ContentInfo. *)
Definition ci_type (c : raw_ci) : string :=
  match c with RawSigned _ => "signed_data" | RawOther t _ => t end.

(** asn1crypto's [ContentInfo.load], signeddata.py:93. *)
Definition loader := bytes -> res raw_ci.

(** ** SignerInfo *)

(** The values of the last attribute selected by [f]: the dict comprehension of
    [_parse_attributes] (signerinfo.py:249) followed by a lookup; None = not in the dict. *)
Fixpoint attr_values {A} (f : raw_attr -> option A) (l : list raw_attr) : option A :=
  match l with
  | [] => None
  | a :: l' => match attr_values f l' with Some v => Some v | None => f a end
  end.

Definition as_content_type (a : raw_attr) := match a with AContentType v => Some v | _ => None end.
Definition as_message_digest (a : raw_attr) := match a with AMessageDigest v => Some v | _ => None end.
Definition as_signing_time (a : raw_attr) := match a with ASigningTime v => Some v | _ => None end.
Definition as_counter_signature (a : raw_attr) := match a with ACounterSignature v => Some v | _ => None end.
Definition as_statement_type (a : raw_attr) := match a with AStatementType n => Some n | _ => None end.
Definition as_opus_info (a : raw_attr) := match a with AOpusInfo n => Some n | _ => None end.
Definition as_nested (a : raw_attr) := match a with ANestedSignature v => Some v | _ => None end.
Definition as_token (a : raw_attr) := match a with ATimeStampToken v => Some v | _ => None end.

Definition present {A} (o : option A) : bool := match o with Some _ => true | None => false end.

(** DER length octets (X.690 8.1.3), as written by asn1crypto's [dump]. *)
Fixpoint be_bytes (fuel : nat) (n : Z) (acc : bytes) : bytes :=
  match fuel with
  | O => acc
  | S fuel' => if n =? 0 then acc else be_bytes fuel' (n / 256) (byte_of_Z (n mod 256) :: acc)
  end.
Definition der_length (n : Z) : bytes :=
  if n <? 128 then [byte_of_Z n]
  else let b := be_bytes (S (Z.to_nat (Z.log2 n))) n [] in
       byte_of_Z (128 + zlen b) :: b.

(** [_encode_attributes], signerinfo.py:260-269: the contents octets under the universal
    tag SET OF. *)
Definition encode_attributes (contents : bytes) : bytes :=
  x31 :: der_length (zlen contents) ++ contents.

(** The attributes of a SignerInfo, signerinfo.py:115-125; the attribute dicts and the
    countersigner are kept elsewhere. *)
Record sinfo := mkSinfo {
  si_issuer : name;
  si_serial : Z;
  si_encoded : bytes;
  si_sig_alg : string;
  si_signature : bytes;
  si_digest_alg : string;
  si_message_digest : option bytes;
  si_content_type : option string;
  si_signing_time : option datetime
}.

(** [len(values) != 1] raises; the first value otherwise (signerinfo.py:171-205). *)
Definition single {A} (v : option (list A)) (m : string) : res (option A) :=
  match v with
  | None => Ok None
  | Some [a] => Ok (Some a)
  | Some _ => raise SignerInfoParseError m
  end.

(** [SignerInfo._parse] up to the countersigner, signerinfo.py:143-212.  [need_time]:
    signing_time is required (CounterSignerInfo, signerinfo.py:410-414); [expected] is
    [_expected_content_type].  The message of the error for missing attributes formats the
    attribute dict, which cannot fail. *)
Definition parse_signer (need_time : bool) (expected : option string) (r : raw_si) : res sinfo :=
  match r with
  | RawSI (SidKeyIdentifier _) _ _ _ _ _ _ =>
      raise SignerInfoParseError "Cannot handle SignerInfo.sid with a subject_key_identifier"
  | RawSI (SidIssuerSerial issuer serial) dalg signed contents salg signature unsigned =>
      let types := attr_values as_content_type signed in
      let digests := attr_values as_message_digest signed in
      let times := attr_values as_signing_time signed in
      let? _ := (if present types && present digests && (negb need_time || present times) then Ok tt
                 else raise SignerInfoParseError "Not all required attributes found.") in
      let encoded := encode_attributes contents in
      let? digest_algorithm := get_digest_algorithm dalg in
      let? message_digest :=
        single digests "Only one Digest expected in SignerInfo.authenticatedAttributes" in
      let? content_type :=
        single types "Only one ContentType expected in SignerInfo.authenticatedAttributes" in
      let? _ := match content_type, expected with
                | Some t, Some e => if String.eqb t e then Ok tt
                                    else raise SignerInfoParseError "Unexpected content type for SignerInfo"
                | _, _ => Ok tt
                end in
      let? signing_time :=
        single times "Only one SigningTime expected in SignerInfo.authenticatedAttributes" in
      Ok (mkSinfo issuer serial encoded salg signature digest_algorithm message_digest content_type
                  signing_time)
  end.

Definition unsigned_attrs (r : raw_si) : list raw_attr :=
  match r with RawSI _ _ _ _ _ _ u => u end.
Definition signed_attrs (r : raw_si) : list raw_attr :=
  match r with RawSI _ _ s _ _ _ _ => s end.

(** The recursion limit of the interpreter: [depth] is the number of nested constructors
    it leaves room for.  Simplified: the exact number of frames is not modelled. *)
Definition recursion_error {A} : res A := raise RecursionError "maximum recursion depth exceeded".

(** The countersigner attribute, signerinfo.py:214-228: None if there is none. *)
Definition counter_signature (r : raw_si) : res (option raw_si) :=
  single (attr_values as_counter_signature (unsigned_attrs r))
         "Only one CountersignInfo expected in SignerInfo.unauthenticatedAttributes".

(** CounterSignerInfo (signerinfo.py:403-414; AuthenticodeCounterSignerInfo of
    structures.py:142-145 inherits everything).  A countersigner of the countersigner is
    parsed likewise; the resulting object is never looked at and is dropped here. *)
Fixpoint parse_countersigner (depth : nat) (r : raw_si) : res sinfo :=
  match depth with
  | O => recursion_error
  | S d =>
      let? i := parse_signer true None r in
      let? cs := counter_signature r in
      match cs with
      | None => Ok i
      | Some c => let? _ := parse_countersigner d c in Ok i
      end
  end.

(** RFC3161SignerInfo, structures.py:604-610: [_countersigner_class] is None, so that a
    countersigner makes the assertion of signerinfo.py:222 fail. *)
Definition parse_rfc3161_signer (r : raw_si) : res sinfo :=
  let? i := parse_signer false (Some "tst_info") r in
  let? cs := counter_signature r in
  match cs with
  | None => Ok i
  | Some _ => raise AssertionError ""
  end.

(** ** SignedData *)

(** The attributes of a SignedData without its signer infos, signeddata.py:63-69. *)
Record sdata := mkSdata {
  sd_digest_alg : string;
  sd_content_type : string;
  sd_octets : bytes;
  sd_certificates : list cert
}.

(** signeddata.py:133-140; Certificate() itself is part of decoding. *)
Definition the_certificates (l : list raw_choice) : list cert :=
  flat_map (fun c => match c with ChoiceCertificate c => [c] | ChoiceOther _ => [] end) l.

(** [SignedData._parse] up to the signer infos, signeddata.py:99-140.  When the number of
    digest algorithms is not one, formatting the message looks up the unknown field
    'digestAlgorithms', which raises KeyError (signeddata.py:110-112). *)
Definition parse_signed_data (expected : string) (r : raw_sd) : res sdata :=
  match r with
  | RawSD algs content_type content certs _ _ =>
      let? alg := match algs with
                  | [a] => get_digest_algorithm a
                  | _ => raise KeyError "digestAlgorithms"
                  end in
      let? _ := (if String.eqb content_type expected then Ok tt
                 else raise ParseError "SignedData.contentInfo contains another type") in
      Ok (mkSdata alg content_type (rc_octets content) (the_certificates certs))
  end.

Fixpoint map_res {A B} (f : A -> res B) (l : list A) : res (list B) :=
  match l with
  | [] => Ok []
  | a :: l' => let? b := f a in let? bs := map_res f l' in Ok (b :: bs)
  end.

Definition raw_signers (r : raw_sd) : list raw_si := match r with RawSD _ _ _ _ _ s => s end.
Definition raw_crls (r : raw_sd) : nat := match r with RawSD _ _ _ _ c _ => c end.
Definition raw_value_of (r : raw_sd) : raw_value := match r with RawSD _ _ c _ _ _ => rc_value c end.

(** [content_digest], signeddata.py:149-165. *)
Definition content_digest (E : env) (d : sdata) : bytes := e_hash E (sd_digest_alg d) (sd_octets d).

(** ** RFC 3161 *)

(** TSTInfo, structures.py:613-680. *)
Record tst_info := mkTst {
  ti_policy : string;
  ti_hash_alg : string;
  ti_message_digest : bytes;
  ti_serial : Z;
  ti_signing_time : datetime;
  ti_accuracy : Z
}.

(** [TSTInfo(content)._parse], structures.py:665-680.  Content that is not a TSTInfo cannot
    be subscripted with these names.  The name of the authority is kept nowhere: it is only
    checked to be a directory name (certificates.py:274-279). *)
Definition parse_tst (v : raw_value) : res tst_info :=
  match v with
  | RVTst t =>
      if negb (String.eqb (rt_version t) "v1") then
        raise AuthenticodeParseError "TSTInfo.version must be v1" else
      let? alg := get_digest_algorithm (rt_hash_alg t) in
      let? accuracy := accuracy_to_python (rt_accuracy t) in
      let? _ := match rt_tsa t with
                | TsaOther _ => raise NotImplementedError "CertificateNames of this type not supported"
                | _ => Ok tt
                end in
      Ok (mkTst (rt_policy t) alg (rt_hashed_message t) (rt_serial t) (rt_gen_time t) accuracy)
  | _ => raise TypeError "object is not subscriptable"
  end.

(** RFC3161SignedData, structures.py:683-721. *)
Record rsd := mkRsd { r_data : sdata; r_tst : tst_info; r_signer : sinfo }.

(** [RFC3161SignedData._parse], structures.py:701-714. *)
Definition parse_rsd (r : raw_sd) : res rsd :=
  let? d := parse_signed_data "tst_info" r in
  let? signers := map_res parse_rfc3161_signer (raw_signers r) in
  let? tst := parse_tst (raw_value_of r) in
  match signers with
  | [s] => Ok (mkRsd d tst s)
  | _ => raise AuthenticodeParseError "RFC3161 SignedData.signerInfos must contain exactly 1 signer"
  end.

(** [cls(content)] of a ContentInfo: subscripting content that is not a SignedData raises. *)
Definition ci_content (c : raw_ci) : res raw_sd :=
  match c with
  | RawSigned s => Ok s
  | RawOther _ true => raise KeyError "digest_algorithms"
  | RawOther _ false => raise TypeError "object is not subscriptable"
  end.

(** ** Authenticode *)

(** SpcInfo, structures.py:295-373. *)
Record spc_info := mkSpc { sp_digest_alg : string; sp_digest : bytes }.

(** [SpcInfo(content)._parse], structures.py:358-373. *)
Definition parse_spc (v : raw_value) : res spc_info :=
  match v with
  | RVSpc s =>
      if negb (String.eqb (rp_type s) "microsoft_spc_pe_image_data") then
        raise AuthenticodeParseError "SpcInfo does not contain SpcPeImageData" else
      if negb (rp_value s) then raise TypeError "object is not subscriptable" else
      let? alg := get_digest_algorithm (rp_digest_alg s) in
      Ok (mkSpc alg (rp_digest s))
  | _ => raise TypeError "object is not subscriptable"
  end.

(** [signer_info.countersigner]: a CounterSignerInfo or an RFC3161SignedData. *)
Inductive countersigner : Type :=
| CSPlain (i : sinfo)
| CSToken (t : rsd).

(** AuthenticodeSignedData (structures.py:376-425) and AuthenticodeSignerInfo
    (structures.py:148-276).  [pe] tells whether [pefile] is set. *)
Inductive asd : Type :=
| ASD (d : sdata) (spc : spc_info) (s : asi) (pe : bool)
with asi : Type :=
| ASI (i : sinfo) (cs : option countersigner) (nested : list asd).

Definition asd_data (a : asd) : sdata := match a with ASD d _ _ _ => d end.
Definition asd_spc (a : asd) : spc_info := match a with ASD _ s _ _ => s end.
Definition asd_signer (a : asd) : asi := match a with ASD _ _ s _ => s end.
Definition asd_pe (a : asd) : bool := match a with ASD _ _ _ p => p end.
Definition asi_info (s : asi) : sinfo := match s with ASI i _ _ => i end.
Definition asi_cs (s : asi) : option countersigner := match s with ASI _ c _ => c end.
Definition asi_nested (s : asi) : list asd := match s with ASI _ _ n => n end.

(** [len(...) != 1] raising AuthenticodeParseError, structures.py:205-209 and 219-223. *)
Definition single_count (n : option nat) (m : string) : res unit :=
  match n with
  | None => Ok tt
  | Some 1%nat => Ok tt
  | Some _ => raise AuthenticodeParseError m
  end.

Definition spc_type : string := "microsoft_spc_indirect_data_content".

(** [AuthenticodeSignerInfo._parse], structures.py:200-276.  [sub] constructs the nested
    AuthenticodeSignedData (structures.py:247-251). *)
Definition parse_asi (depth : nat) (sub : raw_sd -> res asd) (r : raw_si) : res asi :=
  let? i := parse_signer false (Some spc_type) r in
  let? cs := counter_signature r in
  let? plain := match cs with
                | None => Ok None
                | Some c => let? k := parse_countersigner depth c in Ok (Some (CSPlain k))
                end in
  let? _ := single_count (attr_values as_statement_type (signed_attrs r)) "Only one SpcStatementType expected" in
  let? _ := single_count (attr_values as_opus_info (signed_attrs r)) "Only one SpcSpOpusInfo expected" in
  let? nested :=
    match attr_values as_nested (unsigned_attrs r) with
    | None => Ok []
    | Some l => map_res (fun c =>
                  if negb (String.eqb (ci_type c) "signed_data") then
                    raise AuthenticodeParseError "Nested signature is not a SignedData structure"
                  else let? s := ci_content c in sub s) l
    end in
  let tokens := attr_values as_token (unsigned_attrs r) in
  if present (attr_values as_counter_signature (unsigned_attrs r)) && present tokens then
    raise AuthenticodeParseError "Countersignature and RFC-3161 timestamp present" else
  let? countersigner :=
    match tokens with
    | None => Ok plain
    | Some [c] =>
        if negb (String.eqb (ci_type c) "signed_data") then
          raise AuthenticodeParseError "RFC-3161 Timestamp does not contain SignedData structure"
        else let? s := ci_content c in
             let? t := parse_rsd s in Ok (Some (CSToken t))
    | Some _ => raise AuthenticodeParseError "Only one RFC-3161 timestamp expected"
    end in
  Ok (ASI i countersigner nested).

(** [AuthenticodeSignedData._parse], structures.py:408-425. *)
Fixpoint parse_asd (depth : nat) (pe : bool) (r : raw_sd) : res asd :=
  match depth with
  | O => recursion_error
  | S d =>
      let? data := parse_signed_data spc_type r in
      let? signers := map_res (parse_asi d (parse_asd d pe)) (raw_signers r) in
      let? spc := parse_spc (raw_value_of r) in
      match signers with
      | [s] =>
          match raw_crls r with
          | O => Ok (ASD data spc s pe)
          | S _ => raise AuthenticodeParseError "SignedData.crls is present, but that is unexpected."
          end
      | _ => raise AuthenticodeParseError "SignedData.signerInfos must contain exactly 1 signer"
      end
  end.

(** [SignedData.from_envelope], signeddata.py:85-97. *)
Definition from_envelope (load : loader) (depth : nat) (pe : bool) (b : bytes) : res asd :=
  let? c := load b in
  let? _ := (if String.eqb (ci_type c) "signed_data" then Ok tt
             else raise ParseError "ContentInfo does not contain SignedData") in
  let? s := ci_content c in
  parse_asd depth pe s.
