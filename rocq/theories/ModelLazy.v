(** Model of the parsing of signify/pkcs7/signerinfo.py, signify/pkcs7/signeddata.py,
    signify/authenticode/structures.py and [Certificate._parse] over values that asn1crypto
    decodes on demand: reading a field either gives its value or raises, and what is never
    read never raises.  The results are those of ModelPkcs7.v, where everything is decoded
    at once.  No proofs in this file. *)
From Verif Require Import Base Monad ModelX509 ModelPkcs7.

(** ** Values that are decoded when they are read

    [res A] in a field: what reading it gives.  asn1crypto keeps what it has decoded, so
    that reading a field twice gives the same.  Simplified: the components of a distinguished
    name are decoded with the name, not when names are compared. *)

(** AlgorithmIdentifier: [["algorithm"].native] and the truth of [["parameters"].native],
    hashing.py:20-23. *)
Record lz_algid := mkLzAlgid { la_name : res string; la_params : res bool }.

(** SignerIdentifier, signerinfo.py:144-150. *)
Inductive lz_sid : Type :=
| LzIssuerSerial (issuer : res name) (serial : res Z)
| LzKeyIdentifier.

(** SpcPeImageData, read at structures.py:365-367. *)
Record lz_image := mkLzImage { lm_flags : res (list string); lm_file : res string }.

(** SpcIndirectDataContent, read at structures.py:358-373; no image data: the optional value
    is absent. *)
Record lz_spc := mkLzSpc {
  lp_type : res string;
  lp_value : res (option lz_image);
  lp_digest_alg : res lz_algid;
  lp_digest : res bytes
}.

(** Accuracy, read at helpers.py:8-19. *)
Record lz_accuracy := mkLzAccuracy {
  ly_seconds : res (option Z);
  ly_millis : res (option Z);
  ly_micros : res (option Z)
}.

(** The GeneralName of certificates.py:273-280. *)
Inductive lz_tsa : Type :=
| LzTsaAbsent
| LzTsaDirectory (n : res name)
| LzTsaOther (kind : string).

(** TSTInfo, read at structures.py:665-680. *)
Record lz_tst := mkLzTst {
  lt_version : res string;
  lt_policy : res string;
  lt_hash_alg : res lz_algid;
  lt_hashed_message : res bytes;
  lt_serial : res Z;
  lt_gen_time : res datetime;
  lt_accuracy : res (option lz_accuracy);
  lt_tsa : res lz_tsa
}.

(** The content, signeddata.py:126-130. *)
Inductive lz_value : Type :=
| LVSpc (s : lz_spc)
| LVTst (t : lz_tst)
| LVNone.
Record lz_content := mkLzContent { lo_octets : bytes; lo_value : res lz_value }.

(** The native value of an extension: the usages of an extended_key_usage, or anything
    else. *)
Inductive lz_extension : Type :=
| XUsages (l : list string)
| XOther.

(** x509.Certificate, read at certificates.py:93-132. *)
Record lz_cert := mkLzCert {
  lc_id : Z;
  lc_der : bytes;
  lc_signature_algorithm : res string;
  lc_signature_value : res bytes;
  lc_tbs : res unit;
  lc_version : res string;
  lc_serial : res Z;
  lc_issuer : res name;
  lc_not_before : res datetime;
  lc_not_after : res datetime;
  lc_subject : res name;
  lc_key_algorithm : res string;
  lc_key_parameters : res pkparams;
  lc_key_bits : res bytes;
  lc_extensions : res (option (list (string * lz_extension)))
}.

(** CertificateChoices, signeddata.py:133-140. *)
Inductive lz_choice : Type :=
| LzCertificate (c : lz_cert)
| LzOtherChoice (kind : string).

(** SpcSpOpusInfo, read at structures.py:225-233. *)
Record lz_opus := mkLzOpus {
  lu_program_name : res (option string);
  lu_more_info : res (option string);
  lu_publisher_info : res (option string)
}.

(** Attributes, signer infos, content infos and signed data; see ModelPkcs7.v. *)
Inductive lz_attr : Type :=
| LContentType (vals : res (list (res string)))
| LMessageDigest (vals : res (list (res bytes)))
| LSigningTime (vals : res (list (res datetime)))
| LCounterSignature (vals : res (list lz_si))
| LStatementType (vals : res (list (res (list string))))
| LOpusInfo (vals : res (list lz_opus))
| LNestedSignature (vals : res (list lz_ci))
| LTimeStampToken (vals : res (list lz_ci))
| LOther (typ : string) (count : res nat)
with lz_si : Type :=
| LzSI (sid : res lz_sid) (digest_alg : res lz_algid) (signed : res (list (res lz_attr)))
       (signed_contents : bytes) (sig_alg : res string) (signature : res bytes)
       (unsigned : res (list (res lz_attr)))
with lz_ci : Type :=
| LzCI (content_type : res string) (content : res lz_content_of)
with lz_content_of : Type :=
| LzSigned (s : lz_sd)
| LzOther (subscriptable : bool)
with lz_sd : Type :=
| LzSD (digest_algs : res (list lz_algid)) (content_type : res string) (content : res lz_content)
       (certs : res (list (res lz_choice))) (crls : res nat) (signers : res (list lz_si)).

(** asn1crypto's [ContentInfo.load], signeddata.py:93, which decodes only the outermost tag
    and length. *)
Definition lz_loader := bytes -> res lz_ci.

(** ** Certificates *)

(** [_get_digest_algorithm], hashing.py:15-25. *)
Definition lz_digest_algorithm (a : lz_algid) : res string :=
  let? alg := la_name a in
  if negb (str_mem alg accepted_digest_algorithms) then
    raise ParseError "algorithm must be one of the accepted"
  else
    let? params := la_params a in
    if params then raise ParseError "has parameters set, which is unexpected" else Ok alg.

(** [self.extensions.get("extended_key_usage")] after the loop of certificates.py:123-132,
    which assigns to a dict: the last one with that name. *)
Definition last_usages (l : list (string * lz_extension)) : option (list string) :=
  match dict_get "extended_key_usage" (dict_of_list l) with
  | Some (XUsages u) => Some u
  | _ => None
  end.

(** [Certificate._parse], certificates.py:91-132.  Reading [["extensions"].native] decodes
    them all. *)
Definition lz_certificate (c : lz_cert) : res cert :=
  let? _ := lc_signature_algorithm c in
  let? _ := lc_signature_value c in
  let? _ := lc_tbs c in
  let? _ := lc_version c in
  let? serial := lc_serial c in
  let? issuer := lc_issuer c in
  let? not_before := lc_not_before c in
  let? not_after := lc_not_after c in
  let? subject := lc_subject c in
  let? key_algorithm := lc_key_algorithm c in
  let? key_parameters := lc_key_parameters c in
  let? key_bits := lc_key_bits c in
  let? extensions := lc_extensions c in
  Ok (mkCert (lc_id c) (lc_der c) issuer serial subject
             (mkSpki key_algorithm key_parameters key_bits) not_before not_after
             (match extensions with Some l => last_usages l | None => None end)).

(** The list comprehension of signeddata.py:133-140. *)
Fixpoint lz_certificates (l : list (res lz_choice)) : res (list cert) :=
  match l with
  | [] => Ok []
  | c :: l' =>
      let? choice := c in
      match choice with
      | LzCertificate x =>
          let? y := lz_certificate x in
          let? ys := lz_certificates l' in
          Ok (y :: ys)
      | LzOtherChoice _ => lz_certificates l'
      end
  end.

(** ** SignerInfo *)

(** [list(attr["values"])], signerinfo.py:249. *)
Definition lz_readable (a : lz_attr) : res unit :=
  match a with
  | LContentType v => let? _ := v in Ok tt
  | LMessageDigest v => let? _ := v in Ok tt
  | LSigningTime v => let? _ := v in Ok tt
  | LCounterSignature v => let? _ := v in Ok tt
  | LStatementType v => let? _ := v in Ok tt
  | LOpusInfo v => let? _ := v in Ok tt
  | LNestedSignature v => let? _ := v in Ok tt
  | LTimeStampToken v => let? _ := v in Ok tt
  | LOther _ v => let? _ := v in Ok tt
  end.

(** The dict comprehension of [_parse_attributes], signerinfo.py:249. *)
Definition lz_attributes (l : res (list (res lz_attr))) : res (list lz_attr) :=
  let? attrs := l in
  map_res (fun a => let? x := a in let? _ := lz_readable x in Ok x) attrs.

(** A lookup in that dict: the values of the last attribute selected by [f]. *)
Fixpoint lz_values {A} (f : lz_attr -> option (res (list A))) (l : list lz_attr) : option (list A) :=
  match l with
  | [] => None
  | a :: l' => match lz_values f l' with
               | Some v => Some v
               | None => match f a with Some (Ok v) => Some v | _ => None end
               end
  end.

Definition lz_content_type (a : lz_attr) := match a with LContentType v => Some v | _ => None end.
Definition lz_message_digest (a : lz_attr) := match a with LMessageDigest v => Some v | _ => None end.
Definition lz_signing_time (a : lz_attr) := match a with LSigningTime v => Some v | _ => None end.
Definition lz_counter_signature (a : lz_attr) := match a with LCounterSignature v => Some v | _ => None end.
Definition lz_statement_type (a : lz_attr) := match a with LStatementType v => Some v | _ => None end.
Definition lz_opus_info (a : lz_attr) := match a with LOpusInfo v => Some v | _ => None end.
Definition lz_nested (a : lz_attr) := match a with LNestedSignature v => Some v | _ => None end.
Definition lz_token (a : lz_attr) := match a with LTimeStampToken v => Some v | _ => None end.

(** [len(values) != 1] raises, otherwise [values[0].native] (signerinfo.py:171-205). *)
Definition lz_single {A} (v : option (list (res A))) (m : string) : res (option A) :=
  match v with
  | None => Ok None
  | Some [a] => let? x := a in Ok (Some x)
  | Some _ => raise SignerInfoParseError m
  end.

(** [SignerInfo._parse] up to the countersigner, signerinfo.py:143-212, returning the two
    attribute dicts as well. *)
Definition lz_signer (need_time : bool) (expected : option string) (r : lz_si)
  : res (sinfo * (list lz_attr * list lz_attr)) :=
  match r with
  | LzSI sid dalg signed contents salg signature unsigned =>
      let? s := sid in
      match s with
      | LzKeyIdentifier =>
          raise SignerInfoParseError "Cannot handle SignerInfo.sid with a subject_key_identifier"
      | LzIssuerSerial issuer serial =>
          let? issuer := issuer in
          let? serial := serial in
          let? auth := lz_attributes signed in
          let types := lz_values lz_content_type auth in
          let digests := lz_values lz_message_digest auth in
          let times := lz_values lz_signing_time auth in
          let? _ := (if present types && present digests && (negb need_time || present times) then Ok tt
                     else raise SignerInfoParseError "Not all required attributes found.") in
          let encoded := encode_attributes contents in
          let? unauth := lz_attributes unsigned in
          let? salg := salg in
          let? signature := signature in
          let? dalg := dalg in
          let? digest_algorithm := lz_digest_algorithm dalg in
          let? message_digest :=
            lz_single digests "Only one Digest expected in SignerInfo.authenticatedAttributes" in
          let? content_type :=
            lz_single types "Only one ContentType expected in SignerInfo.authenticatedAttributes" in
          let? _ := match content_type, expected with
                    | Some t, Some e => if String.eqb t e then Ok tt
                                        else raise SignerInfoParseError "Unexpected content type for SignerInfo"
                    | _, _ => Ok tt
                    end in
          let? signing_time :=
            lz_single times "Only one SigningTime expected in SignerInfo.authenticatedAttributes" in
          Ok (mkSinfo issuer serial encoded salg signature digest_algorithm message_digest
                      content_type signing_time, (auth, unauth))
      end
  end.

(** The countersigner attribute, signerinfo.py:214-228. *)
Definition lz_countersignature (unauth : list lz_attr) : res (option lz_si) :=
  match lz_values lz_counter_signature unauth with
  | None => Ok None
  | Some [a] => Ok (Some a)
  | Some _ => raise SignerInfoParseError "Only one CountersignInfo expected in SignerInfo.unauthenticatedAttributes"
  end.

(** CounterSignerInfo, signerinfo.py:403-414. *)
Fixpoint lz_countersigner (depth : nat) (r : lz_si) : res sinfo :=
  match depth with
  | O => recursion_error
  | S d =>
      let? p := lz_signer true None r in
      let? cs := lz_countersignature (snd (snd p)) in
      match cs with
      | None => Ok (fst p)
      | Some c => let? _ := lz_countersigner d c in Ok (fst p)
      end
  end.

(** RFC3161SignerInfo, structures.py:604-610. *)
Definition lz_rfc3161_signer (r : lz_si) : res sinfo :=
  let? p := lz_signer false (Some "tst_info") r in
  let? cs := lz_countersignature (snd (snd p)) in
  match cs with
  | None => Ok (fst p)
  | Some _ => raise AssertionError ""
  end.

(** ** SignedData *)

(** [SignedData._parse] up to the signer infos, signeddata.py:99-140, returning the content
    as well. *)
Definition lz_signed_data (expected : string) (r : lz_sd) : res (sdata * lz_value) :=
  match r with
  | LzSD algs content_type content certs _ _ =>
      let? algs := algs in
      let? alg := match algs with
                  | [a] => lz_digest_algorithm a
                  | _ => raise KeyError "digestAlgorithms"
                  end in
      let? content_type := content_type in
      let? _ := (if String.eqb content_type expected then Ok tt
                 else raise ParseError "SignedData.contentInfo contains another type") in
      let? content := content in
      let? value := lo_value content in
      let? certs := certs in
      let? certificates := lz_certificates certs in
      Ok (mkSdata alg content_type (lo_octets content) certificates, value)
  end.

Definition lz_signers (r : lz_sd) : res (list lz_si) := match r with LzSD _ _ _ _ _ s => s end.
Definition lz_crls (r : lz_sd) : res nat := match r with LzSD _ _ _ _ c _ => c end.

(** [accuracy_to_python], helpers.py:8-19. *)
Definition lz_accuracy_to_python (a : option lz_accuracy) : res Z :=
  match a with
  | None => Ok 0
  | Some y =>
      let? s := ly_seconds y in
      let? d1 := accuracy_add 0 s 1000000 in
      let? ms := ly_millis y in
      let? d2 := accuracy_add d1 ms 1000 in
      let? us := ly_micros y in
      accuracy_add d2 us 1
  end.

(** [CertificateName(data["tsa"])], certificates.py:273-280. *)
Definition lz_authority (t : lz_tsa) : res unit :=
  match t with
  | LzTsaAbsent => Ok tt
  | LzTsaDirectory n => let? _ := n in Ok tt
  | LzTsaOther _ => raise NotImplementedError "CertificateNames of this type not supported"
  end.

(** [TSTInfo(content)._parse], structures.py:665-680. *)
Definition lz_tst_info (v : lz_value) : res tst_info :=
  match v with
  | LVTst t =>
      let? version := lt_version t in
      if negb (String.eqb version "v1") then
        raise AuthenticodeParseError "TSTInfo.version must be v1" else
      let? policy := lt_policy t in
      let? hash_alg := lt_hash_alg t in
      let? alg := lz_digest_algorithm hash_alg in
      let? hashed_message := lt_hashed_message t in
      let? serial := lt_serial t in
      let? gen_time := lt_gen_time t in
      let? acc := lt_accuracy t in
      let? accuracy := lz_accuracy_to_python acc in
      let? tsa := lt_tsa t in
      let? _ := lz_authority tsa in
      Ok (mkTst policy alg hashed_message serial gen_time accuracy)
  | _ => raise TypeError "object is not subscriptable"
  end.

(** [RFC3161SignedData._parse], structures.py:701-714. *)
Definition lz_rsd (r : lz_sd) : res rsd :=
  let? p := lz_signed_data "tst_info" r in
  let? l := lz_signers r in
  let? signers := map_res lz_rfc3161_signer l in
  let? tst := lz_tst_info (snd p) in
  match signers with
  | [s] => Ok (mkRsd (fst p) tst s)
  | _ => raise AuthenticodeParseError "RFC3161 SignedData.signerInfos must contain exactly 1 signer"
  end.

(** [cls(content)] of a ContentInfo: subscripting content that is not a SignedData raises. *)
Definition lz_content_info (c : lz_content_of) : res lz_sd :=
  match c with
  | LzSigned s => Ok s
  | LzOther true => raise KeyError "digest_algorithms"
  | LzOther false => raise TypeError "object is not subscriptable"
  end.

(** ** Authenticode *)

(** [SpcInfo(content)._parse], structures.py:358-373. *)
Definition lz_spc_info (v : lz_value) : res spc_info :=
  match v with
  | LVSpc s =>
      let? typ := lp_type s in
      if negb (String.eqb typ "microsoft_spc_pe_image_data") then
        raise AuthenticodeParseError "SpcInfo does not contain SpcPeImageData" else
      let? value := lp_value s in
      match value with
      | None => raise TypeError "object is not subscriptable"
      | Some image =>
          let? _ := lm_flags image in
          let? _ := lm_file image in
          let? digest_alg := lp_digest_alg s in
          let? alg := lz_digest_algorithm digest_alg in
          let? digest := lp_digest s in
          Ok (mkSpc alg digest)
      end
  | _ => raise TypeError "object is not subscriptable"
  end.

(** The statement type, structures.py:203-213. *)
Definition lz_statement_types (auth : list lz_attr) : res unit :=
  match lz_values lz_statement_type auth with
  | None => Ok tt
  | Some [a] => let? _ := a in Ok tt
  | Some _ => raise AuthenticodeParseError "Only one SpcStatementType expected"
  end.

(** The opus info, structures.py:217-233. *)
Definition lz_opus_infos (auth : list lz_attr) : res unit :=
  match lz_values lz_opus_info auth with
  | None => Ok tt
  | Some [o] =>
      let? _ := lu_program_name o in
      let? _ := lu_more_info o in
      let? _ := lu_publisher_info o in
      Ok tt
  | Some _ => raise AuthenticodeParseError "Only one SpcSpOpusInfo expected"
  end.

(** One nested signature or timestamp token, structures.py:241-251 and 268-276: [m] is the
    message when it is not a SignedData. *)
Definition lz_sub {A} (m : string) (sub : lz_sd -> res A) (c : lz_ci) : res A :=
  match c with
  | LzCI content_type content =>
      let? t := content_type in
      if negb (String.eqb t "signed_data") then raise AuthenticodeParseError m
      else
        let? x := content in
        let? s := lz_content_info x in
        sub s
  end.

(** [AuthenticodeSignerInfo._parse], structures.py:200-276. *)
Definition lz_asi (depth : nat) (sub : lz_sd -> res asd) (r : lz_si) : res asi :=
  let? p := lz_signer false (Some spc_type) r in
  let auth := fst (snd p) in
  let unauth := snd (snd p) in
  let? cs := lz_countersignature unauth in
  let? plain := match cs with
                | None => Ok None
                | Some c => let? k := lz_countersigner depth c in Ok (Some (CSPlain k))
                end in
  let? _ := lz_statement_types auth in
  let? _ := lz_opus_infos auth in
  let? nested :=
    match lz_values lz_nested unauth with
    | None => Ok []
    | Some l => map_res (lz_sub "Nested signature is not a SignedData structure" sub) l
    end in
  let tokens := lz_values lz_token unauth in
  if present (lz_values lz_counter_signature unauth) && present tokens then
    raise AuthenticodeParseError "Countersignature and RFC-3161 timestamp present" else
  let? countersigner :=
    match tokens with
    | None => Ok plain
    | Some [c] =>
        let? t := lz_sub "RFC-3161 Timestamp does not contain SignedData structure" lz_rsd c in
        Ok (Some (CSToken t))
    | Some _ => raise AuthenticodeParseError "Only one RFC-3161 timestamp expected"
    end in
  Ok (ASI (fst p) countersigner nested).

(** [AuthenticodeSignedData._parse], structures.py:408-425. *)
Fixpoint lz_asd (depth : nat) (pe : bool) (r : lz_sd) : res asd :=
  match depth with
  | O => recursion_error
  | S d =>
      let? p := lz_signed_data spc_type r in
      let? l := lz_signers r in
      let? signers := map_res (lz_asi d (lz_asd d pe)) l in
      let? spc := lz_spc_info (snd p) in
      match signers with
      | [s] =>
          let? crls := lz_crls r in
          match crls with
          | O => Ok (ASD (fst p) spc s pe)
          | S _ => raise AuthenticodeParseError "SignedData.crls is present, but that is unexpected."
          end
      | _ => raise AuthenticodeParseError "SignedData.signerInfos must contain exactly 1 signer"
      end
  end.

(** [SignedData.from_envelope], signeddata.py:85-97. *)
Definition lz_from_envelope (load : lz_loader) (depth : nat) (pe : bool) (b : bytes) : res asd :=
  let? c := load b in
  match c with
  | LzCI content_type content =>
      let? t := content_type in
      let? _ := (if String.eqb t "signed_data" then Ok tt
                 else raise ParseError "ContentInfo does not contain SignedData") in
      let? x := content in
      let? s := lz_content_info x in
      lz_asd depth pe s
  end.
