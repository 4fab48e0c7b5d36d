(** Certificate trust lists from octets: signify/asn1/ctl.py and
    signify/authenticode/authroot.py:93-110, 157-175, 259-296 on top of the decoder of
    ModelDer.v and ModelDecode.v.  Fields are decoded when they are read, in the order of the
    code.  No proofs in this file. *)
From Verif Require Import Base Monad ModelX509 ModelContext ModelPkcs7 ModelLazy ModelCtl ModelDer ModelSpc ModelDecode.

(** SubjectAttributeType, ctl.py:67-81. *)
Definition subject_attribute_types : dict string :=
  [("1.3.6.1.4.1.311.10.11.9", "microsoft_ctl_enhkey_usage");
   ("1.3.6.1.4.1.311.10.11.11", "microsoft_ctl_friendly_name");
   ("1.3.6.1.4.1.311.10.11.20", "microsoft_ctl_key_identifier");
   ("1.3.6.1.4.1.311.10.11.29", "microsoft_ctl_subject_name_md5_hash");
   ("1.3.6.1.4.1.311.10.11.83", "microsoft_ctl_root_program_cert_policies");
   ("1.3.6.1.4.1.311.10.11.98", "microsoft_ctl_auth_root_sha256_hash");
   ("1.3.6.1.4.1.311.10.11.104", "microsoft_ctl_disallowed_filetime");
   ("1.3.6.1.4.1.311.10.11.105", "microsoft_ctl_root_program_chain_policies");
   ("1.3.6.1.4.1.311.10.11.122", "microsoft_ctl_disallowed_enhkey_usage");
   ("1.3.6.1.4.1.311.10.11.126", "microsoft_ctl_not_before_filetime");
   ("1.3.6.1.4.1.311.10.11.127", "microsoft_ctl_not_before_enhkey_usage")].

(** CTLString, ctl.py:105-109: UTF-16, little endian, without trailing NULs. *)
Fixpoint swap_octets (b : bytes) : bytes :=
  match b with
  | x :: y :: b' => y :: x :: swap_octets b'
  | _ => b
  end.
Fixpoint rstrip_nul (u : ustr) : ustr :=
  match u with
  | [] => []
  | c :: u' =>
      match rstrip_nul u' with
      | [] => if N.eqb c 0 then [] else [c]
      | r => c :: r
      end
  end.
Definition ctl_string (b : bytes) : res ustr :=
  let? u := utf16 None (swap_octets b) in Ok (rstrip_nul u).

(** [.native] of an ExtKeyUsageSyntax: the names of its identifiers. *)
Definition purposes (a : asn) (tg : tagging) (t : tlv) : res (list string) :=
  let? l := items_of a tg t in map_res (read_oid key_purposes aObjectIdentifier Untagged) l.
(** [ExtKeyUsageSyntax.load(child.contents)], ctl.py:96-97: a value inside the OCTET STRING. *)
Definition usages_in (b : bytes) : res (list string) :=
  let? (t, _) := parse_tlv b in purposes ExtKeyUsageSyntax Untagged t.

(** SubjectAttribute, ctl.py:137-166, with SetOfSpecificOctetString.parse, ctl.py:84-102: the
    octets of each value are read as the type that belongs to the attribute type, which for
    those that are not in [_oid_specs] is OctetString.  FILETIMEs are converted by
    [subject_attr] of ModelContext.v.  Simplified: whether all values of an attribute have the
    right tag is found out together with their conversion (both errors are ValueErrors). *)
Definition read_ctl_attr (t : tlv) : res ctl_attr :=
  let? b := contents_of SubjectAttribute Untagged t in
  let kids := children SubjectAttribute b in
  let? typ := read SubjectAttribute kids "type" (read_oid subject_attribute_types) in
  let? vals := read SubjectAttribute kids "values"
                 (fun a tg t => let? l := items_of a tg t in map_res (contents_of aOctetString Untagged) l) in
  if String.eqb typ "microsoft_ctl_enhkey_usage" then let? v := map_res usages_in vals in Ok (AtEnhkeyUsage v)
  else if String.eqb typ "microsoft_ctl_friendly_name" then let? v := map_res ctl_string vals in Ok (AtFriendlyName v)
  else if String.eqb typ "microsoft_ctl_key_identifier" then Ok (AtKeyIdentifier vals)
  else if String.eqb typ "microsoft_ctl_subject_name_md5_hash" then Ok (AtSubjectNameMd5 vals)
  else if String.eqb typ "microsoft_ctl_auth_root_sha256_hash" then Ok (AtAuthRootSha256 vals)
  else if String.eqb typ "microsoft_ctl_disallowed_filetime" then Ok (AtDisallowedFiletime vals)
  else if String.eqb typ "microsoft_ctl_root_program_chain_policies" then
    let? v := map_res usages_in vals in Ok (AtChainPolicies v)
  else if String.eqb typ "microsoft_ctl_disallowed_enhkey_usage" then
    let? v := map_res usages_in vals in Ok (AtDisallowedEnhkeyUsage v)
  else if String.eqb typ "microsoft_ctl_not_before_filetime" then Ok (AtNotBeforeFiletime vals)
  else if String.eqb typ "microsoft_ctl_not_before_enhkey_usage" then
    let? v := map_res usages_in vals in Ok (AtNotBeforeEnhkeyUsage v)
  else Ok (AtOther typ (length vals)).

(** The dict comprehension of [CertificateTrustSubject._parse], authroot.py:265-268. *)
Fixpoint der_attrs (s : ctl_subject) (l : list tlv) : res ctl_subject :=
  match l with
  | [] => Ok s
  | t :: l' =>
      let? a := read_ctl_attr t in
      let? s' := subject_attr s a in
      der_attrs s' l'
  end.

(** [CertificateTrustSubject._parse], authroot.py:263-296. *)
Definition der_subject (t : tlv) : res ctl_subject :=
  let? b := contents_of TrustedSubject Untagged t in
  let kids := children TrustedSubject b in
  let? id := read TrustedSubject kids "subject_identifier" contents_of in
  let? o := read_field TrustedSubject kids "subject_attributes" items_of in
  der_attrs (mkSubject id None None [] [] [] None None None None None)
            (match o with Some l => l | None => [] end).

(** The loop of authroot.py:104-109. *)
Fixpoint der_subjects (d : dict ctl_subject) (l : list tlv) : res (dict ctl_subject) :=
  match l with
  | [] => Ok d
  | t :: l' => let? s := der_subject t in der_subjects (dict_set (hex (ts_identifier s)) s d) l'
  end.

(** [CertificateTrustList._parse] after the SignedData part, authroot.py:96-110, on the
    contents of the list. *)
Definition der_list (alg : string) (certs : list cert) (contents : bytes) : res trust_list :=
  let kids := children CertificateTrustList contents in
  let? usage := read CertificateTrustList kids "subject_usage" purposes in
  let? identifier := read_field CertificateTrustList kids "list_identifier" contents_of in
  let? sequence := read_field CertificateTrustList kids "sequence_number" read_int in
  let? this_update := read CertificateTrustList kids "ctl_this_update" read_time in
  let? next_update := read_field CertificateTrustList kids "ctl_next_update" read_time in
  let? algid := read CertificateTrustList kids "subject_algorithm" (algid_ok digest_algorithms) in
  let? subject_alg := lz_digest_algorithm algid in
  let? o := read_field CertificateTrustList kids "trusted_subjects" items_of in
  let? d := der_subjects [] (match o with Some l => l | None => [] end) in
  Ok (mkTrustList alg certs usage identifier sequence this_update next_update (mkCtl subject_alg d)).

(** [self._real_content] and [self.content], signeddata.py:125-131, with the types that
    ctl.py:240-244 adds: the contents of the CertificateTrustList. *)
Definition der_list_content (sd_contents : bytes) : res (option bytes) :=
  let kids := children SignedData sd_contents in
  let? version := read SignedData kids "version"
                    (fun a tg t => let? b := contents_of a tg t in Ok (version_native 0 b)) in
  let? encap := read SignedData kids "encap_content_info" contents_of in
  if String.eqb version "v1" then
    let? o := read_field ContentInfo (children ContentInfo encap) "content" (fun _ tg t => unwrap tg t) in
    match o with
    | None => Ok None
    | Some u => let? b := contents_of CertificateTrustList Untagged u in Ok (Some b)
    end
  else
    let? o := read_field EncapsulatedContentInfo (children EncapsulatedContentInfo encap) "content" contents_of in
    match o with
    | None => Ok None
    | Some octets =>
        let? (u, _) := parse_tlv octets in
        let? b := contents_of CertificateTrustList Untagged u in Ok (Some b)
    end.

(** [CertificateTrustList.__init__], signeddata.py:73-84, with [SignedData._parse],
    signeddata.py:99-147, on the contents of the SignedData. *)
Definition der_trust_list (contents : bytes) : res trust_list :=
  match read_sd (S (length contents)) contents with
  | LzSD algs content_type _ certs _ _ =>
      let? algs := algs in
      let? alg := match algs with
                  | [a] => lz_digest_algorithm a
                  | _ => raise KeyError "digestAlgorithms"
                  end in
      let? content_type := content_type in
      let? _ := (if String.eqb content_type "microsoft_ctl" then Ok tt
                 else raise ParseError "SignedData.contentInfo contains another type") in
      let? content := der_list_content contents in
      let? certs := certs in
      let? certificates := lz_certificates certs in
      match content with
      | None => raise TypeError "'NoValue' object is not subscriptable"
      | Some b => der_list alg certificates b
      end
  end.

(** The content of a ContentInfo, which must be a SignedData or absent. *)
Definition der_ci_content (kids : res (dict (option tlv))) : res (option bytes) :=
  let? o := read_field ContentInfo kids "content" (fun _ tg t => unwrap tg t) in
  match o with
  | None => Ok None
  | Some u => let? b := contents_of SignedData Untagged u in Ok (Some b)
  end.

(** [CertificateTrustList.from_stl_file], authroot.py:157-175 ([other] is the error for
    another content), and [SignedData.from_envelope], signeddata.py:86-97. *)
Definition der_open_list (other : exc_class) (data : bytes) : res trust_list :=
  let? (t, _) := parse_tlv data in
  let? c := contents_of ContentInfo Untagged t in
  let kids := children ContentInfo c in
  let? typ := read ContentInfo kids "content_type" (read_oid content_types) in
  if negb (String.eqb typ "signed_data") then raise other "ContentInfo does not contain SignedData"
  else
    let? o := der_ci_content kids in
    match o with
    | None => raise TypeError "'NoValue' object is not subscriptable"
    | Some b => der_trust_list b
    end.
Definition der_from_stl_file (data : bytes) : res trust_list :=
  der_open_list CertificateTrustListParseError data.
Definition der_list_from_envelope (data : bytes) : res trust_list := der_open_list ParseError data.
