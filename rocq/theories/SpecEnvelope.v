(** What the octets of a signature say: CMS (RFC 5652), Authenticode and the Time-Stamp Protocol
    (RFC 3161), as relations between values and what ModelPkcs7.v takes for decoded. *)
From Verif Require Import Base ModelX509 ModelPkcs7 ModelCtl ModelDer ModelSpc ModelDecode SpecPrim SpecTime SpecBer SpecStl SpecRead.

(** ** Declarations

    Parts whose type depends on an object identifier, and parts that are not read, are [AAny]. *)

Definition CmsAttribute := ASeq [field "type" (APrim 6); field "values" (ASetOf AAny)].
Definition CmsIssuerSerial := ASeq [field "issuer" X509Name; field "serial_number" (APrim 2)].
Definition CmsSid :=
  AChoice [("issuer_and_serial_number", (CmsIssuerSerial, Untagged)); ("subject_key_identifier", (APrim 4, Implicit 0))].
Definition CmsSigner :=
  ASeq [field "version" AAny; field "sid" CmsSid; field "digest_algorithm" X509Algorithm;
        field_with "signed_attrs" (ASetOf AAny) (Implicit 0) Optional;
        field "signature_algorithm" X509Algorithm; field "signature" (APrim 4);
        field_with "unsigned_attrs" (ASetOf AAny) (Implicit 1) Optional].
Definition CmsContentInfo := ASeq [field "content_type" (APrim 6); field_with "content" AAny (Explicit 0) Optional].
Definition CmsSignedData :=
  ASeq [field "version" (APrim 2); field "digest_algorithms" (ASetOf X509Algorithm);
        field "encap_content_info" CmsContentInfo;
        field_with "certificates" (ASetOf AAny) (Implicit 0) Optional;
        field_with "crls" (ASetOf AAny) (Implicit 1) Optional;
        field "signer_infos" (ASetOf AAny)].

Definition MsImage :=
  ASeq [field_with "flags" (APrim 3) Untagged Default; field_with "file" MsLink (Explicit 0) Optional].
Definition MsContent :=
  ASeq [field "data" (ASeq [field "type" (APrim 6); field_with "value" AAny Untagged Optional]);
        field "message_digest" (ASeq [field "digest_algorithm" X509Algorithm; field "digest" (APrim 4)])].
Definition MsOpus :=
  ASeq [field_with "program_name" MsText (Explicit 0) Optional; field_with "more_info" MsLink (Explicit 1) Optional;
        field_with "publisher_info" MsLink (Explicit 2) Optional].

Definition TspAccuracy :=
  ASeq [field_with "seconds" (APrim 2) Untagged Optional; field_with "millis" (APrim 2) (Implicit 0) Optional;
        field_with "micros" (APrim 2) (Implicit 1) Optional].
Definition TspName :=
  AChoice [("other_name", (AAny, Implicit 0)); ("rfc822_name", (AAny, Implicit 1)); ("dns_name", (AAny, Implicit 2));
           ("x400_address", (AAny, Implicit 3)); ("directory_name", (X509Name, Explicit 4));
           ("edi_party_name", (AAny, Implicit 5)); ("uniform_resource_identifier", (AAny, Implicit 6));
           ("ip_address", (AAny, Implicit 7)); ("registered_id", (AAny, Implicit 8))].
Definition TspInfo :=
  ASeq [field "version" (APrim 2); field "policy" (APrim 6);
        field "message_imprint" (ASeq [field "hash_algorithm" X509Algorithm; field "hashed_message" (APrim 4)]);
        field "serial_number" (APrim 2); field "gen_time" (APrim 24);
        field_with "accuracy" TspAccuracy Untagged Optional; field_with "ordering" (APrim 1) Untagged Default;
        field_with "nonce" (APrim 2) Untagged Optional; field_with "tsa" TspName (Explicit 0) Optional;
        field_with "extensions" AAny (Implicit 1) Optional].

(** [t] is a value [v] of the type [a]. *)
Definition is_a (a : asn) (t : tlv) (v : aval) : Prop := spells true a Untagged v t.
(** The octets begin with such a value. *)
Definition holds_a (a : asn) (b : bytes) (v : aval) : Prop := written true a v b.

(** ** Texts that can be read: UTF-16 (big endian) and ASCII *)

Definition big16 (z : Z) : bytes := [byte_of_Z (z / 256); byte_of_Z (z mod 256)].
Definition big_point (c : N) : bytes :=
  let z := Z.of_N c in
  if z <? 65536 then big16 z
  else big16 (55296 + (z - 65536) / 1024) ++ big16 (56320 + (z - 65536) mod 1024).
Definition utf16_be (u : ustr) : bytes := flat_map big_point u.
Definition ascii_octets (b : bytes) : Prop := Forall (fun x => Z_of_byte x < 128) b.
Definition text_ok (v : aval) : Prop :=
  (exists u, v = VChoice "unicode" (VPrim (utf16_be u)) /\ Forall scalar u) \/
  (exists b, v = VChoice "ascii" (VPrim b) /\ ascii_octets b).
Definition link_ok (v : aval) : Prop :=
  (exists b, v = VChoice "url" (VPrim b) /\ ascii_octets b) \/
  (exists c d, v = VChoice "moniker" (VSeq [Some (VPrim c); Some (VPrim d)])) \/
  (exists x, v = VChoice "file" x /\ text_ok x).
Definition ok_if_present (P : aval -> Prop) (o : option aval) : Prop := match o with Some v => P v | None => True end.

(** ** Contents *)

(** A bit string: an octet counts the unused bits of the last of the octets that follow. *)
Definition bits_ok (v : aval) : Prop :=
  exists unused l, v = VPrim (unused :: l) /\ Z_of_byte unused < 8 /\ (l = [] -> unused = x00).
Definition image_ok (t : tlv) : Prop :=
  exists flags file, is_a MsImage t (VSeq [flags; file]) /\
  ok_if_present bits_ok flags /\ ok_if_present link_ok file.
Definition spc_says (v : aval) (r : raw_spc) : Prop :=
  exists typ value alg,
  v = VSeq [Some (VSeq [Some (VPrim typ); value]); Some (VSeq [Some alg; Some (VPrim (rp_digest r))])] /\
  rp_type r = called spc_attribute_types typ /\ alg_means alg (rp_digest_alg r) /\
  match value with
  | None => rp_value r = false
  | Some x => rp_value r = true /\
      exists t, x = VAny t /\ (oid_text typ = "1.3.6.1.4.1.311.2.1.15" -> image_ok t)
  end.
Definition accuracy_says (v : aval) (a : option Z * option Z * option Z) : Prop :=
  exists s ms us, v = VSeq [s; ms; us] /\
  maybe integer_means s (fst (fst a)) /\ maybe integer_means ms (snd (fst a)) /\ maybe integer_means us (snd a).
Definition tsa_says (o : option aval) (t : raw_tsa) : Prop :=
  match t with
  | TsaAbsent => o = None
  | TsaDirectory n => exists v, o = Some (VChoice "directory_name" v) /\ name_means v n
  | TsaOther k => k <> "directory_name" /\ exists v, o = Some (VChoice k v)
  end.
Definition tst_says (v : aval) (r : raw_tst) : Prop :=
  exists version policy alg serial time accuracy ordering nonce tsa extensions,
  v = VSeq [Some (VPrim version); Some (VPrim policy); Some (VSeq [Some alg; Some (VPrim (rt_hashed_message r))]);
            Some (VPrim serial); Some (VPrim time); accuracy; ordering; nonce; tsa; extensions] /\
  (rt_version r = "v1" <-> signed_integer version = 1) /\ rt_policy r = oid_text policy /\ alg_means alg (rt_hash_alg r) /\
  rt_serial r = signed_integer serial /\ general_text time (rt_gen_time r) /\
  maybe accuracy_says accuracy (rt_accuracy r) /\ tsa_says tsa (rt_tsa r).

(** The content of the type [typ]: in version 1 a value, above an OCTET STRING that contains it.
    The octets of the content are those of the value without its tag and length, and those of the
    OCTET STRING. *)
Definition octet_string (t : tlv) : Prop := universal t 4 /\ t_cons t = false.
Inductive content_says (version : bytes) (typ : string) : option aval -> raw_content -> Prop :=
| ContentAbsent : content_says version typ None (mkRawContent [] RVNone)
| ContentSpc1 t v r :
    signed_integer version = 1 -> typ = "1.3.6.1.4.1.311.2.1.4" -> is_a MsContent t v -> spc_says v r ->
    content_says version typ (Some (VAny t)) (mkRawContent (t_contents t) (RVSpc r))
| ContentOther1 t :
    signed_integer version = 1 -> typ <> "1.3.6.1.4.1.311.2.1.4" ->
    content_says version typ (Some (VAny t)) (mkRawContent (t_contents t) RVNone)
| ContentSpc t v r :
    signed_integer version <> 1 -> typ = "1.3.6.1.4.1.311.2.1.4" -> octet_string t ->
    holds_a MsContent (t_contents t) v -> spc_says v r ->
    content_says version typ (Some (VAny t)) (mkRawContent (t_contents t) (RVSpc r))
| ContentTst t v r :
    signed_integer version <> 1 -> typ = "1.2.840.113549.1.9.16.1.4" -> octet_string t ->
    holds_a TspInfo (t_contents t) v -> tst_says v r ->
    content_says version typ (Some (VAny t)) (mkRawContent (t_contents t) (RVTst r))
| ContentOther t v :
    signed_integer version <> 1 -> typ <> "1.3.6.1.4.1.311.2.1.4" -> typ <> "1.2.840.113549.1.9.16.1.4" -> octet_string t ->
    holds_a AAny (t_contents t) v ->
    content_says version typ (Some (VAny t)) (mkRawContent (t_contents t) RVNone).

(** One of the certificates: an X.509 certificate, or another form with a tag from 0 to 3. *)
Inductive choice_says (t : tlv) : raw_choice -> Prop :=
| ChoiceX509 v c :
    is_a X509 t v -> cert_means v c -> c_der c = tlv_dump t -> c_id c = identity (tlv_dump t) ->
    choice_says t (ChoiceCertificate c)
| ChoiceForeign k : t_class t = 2 -> 0 <= t_tag t <= 3 -> choice_says t (ChoiceOther k).

(** A file with a trust list and such certificates. *)
Definition holds_trust_list : bytes -> algid -> list raw_choice -> raw_list -> Prop := holds_list (Forall2 choice_says).

Definition opus_ok (t : tlv) : Prop :=
  exists name info publisher, is_a MsOpus t (VSeq [name; info; publisher]) /\
  ok_if_present text_ok name /\ ok_if_present link_ok info /\ ok_if_present link_ok publisher.
Definition sid_says (v : aval) (s : raw_sid) : Prop :=
  match s with
  | SidIssuerSerial issuer serial =>
      exists v1 b, v = VChoice "issuer_and_serial_number" (VSeq [Some v1; Some (VPrim b)]) /\
      name_means v1 issuer /\ serial = signed_integer b
  | SidKeyIdentifier k => v = VChoice "subject_key_identifier" (VPrim k)
  end.
(** The values of an optional set. *)
Definition members (o : option aval) (ts : list tlv) : Prop :=
  match o with
  | None => ts = []
  | Some v => v = VList (map VAny ts)
  end.

(** ** Attributes, signers and signed data *)

Definition attribute_oids : list string :=
  ["1.2.840.113549.1.9.3"; "1.2.840.113549.1.9.4"; "1.2.840.113549.1.9.5"; "1.2.840.113549.1.9.6";
   "1.3.6.1.4.1.311.2.1.11"; "1.3.6.1.4.1.311.2.1.12"; "1.3.6.1.4.1.311.2.4.1"; "1.3.6.1.4.1.311.3.3.1"].
Inductive attr_says : tlv -> raw_attr -> Prop :=
| AttrSays t oid ts a :
    is_a CmsAttribute t (VSeq [Some (VPrim oid); Some (VList (map VAny ts))]) -> values_say (oid_text oid) ts a -> attr_says t a
with values_say : string -> list tlv -> raw_attr -> Prop :=
| SaysContentType ts l :
    Forall2 (fun t s => exists b, is_a (APrim 6) t (VPrim b) /\ s = called content_types b) ts l ->
    values_say "1.2.840.113549.1.9.3" ts (AContentType l)
| SaysMessageDigest ts l :
    Forall2 (fun t b => is_a (APrim 4) t (VPrim b)) ts l -> values_say "1.2.840.113549.1.9.4" ts (AMessageDigest l)
| SaysSigningTime ts l :
    Forall2 (fun t z => exists v, is_a X509Time t v /\ time_means v z) ts l ->
    values_say "1.2.840.113549.1.9.5" ts (ASigningTime l)
| SaysCounterSignature ts l : Forall2 signer_says ts l -> values_say "1.2.840.113549.1.9.6" ts (ACounterSignature l)
| SaysStatementType ts :
    Forall (fun t => exists v, is_a (ASeqOf (APrim 6)) t v) ts -> values_say "1.3.6.1.4.1.311.2.1.11" ts (AStatementType (length ts))
| SaysOpusInfo ts : Forall opus_ok ts -> values_say "1.3.6.1.4.1.311.2.1.12" ts (AOpusInfo (length ts))
| SaysNested ts l : Forall2 ci_says ts l -> values_say "1.3.6.1.4.1.311.2.4.1" ts (ANestedSignature l)
| SaysToken ts l : Forall2 ci_says ts l -> values_say "1.3.6.1.4.1.311.3.3.1" ts (ATimeStampToken l)
| SaysOther typ name ts : ~ In typ attribute_oids -> values_say typ ts (AOther name (length ts))
(** What is signed are the encoded attributes, one after the other. *)
with signer_says : tlv -> raw_si -> Prop :=
| SignerSays t version vsid valg vsigned vunsigned salg params signature sid alg ts1 signed ts2 unsigned :
    is_a CmsSigner t (VSeq [version; Some vsid; Some valg; vsigned; Some (VSeq [Some (VPrim salg); params]);
                            Some (VPrim signature); vunsigned]) ->
    sid_says vsid sid -> alg_means valg alg ->
    members vsigned ts1 -> Forall2 attr_says ts1 signed ->
    members vunsigned ts2 -> Forall2 attr_says ts2 unsigned ->
    signer_says t (RawSI sid alg signed (concat (map tlv_dump ts1)) (called signature_algorithms salg) signature unsigned)
with ci_says : tlv -> raw_ci -> Prop :=
| CiSigned t oid u s :
    is_a CmsContentInfo t (VSeq [Some (VPrim oid); Some (VAny u)]) -> oid_text oid = "1.2.840.113549.1.7.2" -> sd_says u s ->
    ci_says t (RawSigned s)
| CiEmpty t oid :
    is_a CmsContentInfo t (VSeq [Some (VPrim oid); None]) -> ci_says t (RawOther (called content_types oid) false)
| CiOther t oid v sub :
    is_a CmsContentInfo t (VSeq [Some (VPrim oid); Some v]) -> oid_text oid <> "1.2.840.113549.1.7.2" ->
    (sub = true <-> oid_text oid <> "1.2.840.113549.1.7.1") ->
    ci_says t (RawOther (called content_types oid) sub)
with sd_says : tlv -> raw_sd -> Prop :=
| SdSays t version valgs typ o vcerts vcrls ts algs content ts1 certs ts2 signers :
    is_a CmsSignedData t (VSeq [Some (VPrim version); Some (VList valgs); Some (VSeq [Some (VPrim typ); o]); vcerts; vcrls;
                                Some (VList (map VAny ts))]) ->
    Forall2 alg_means valgs algs -> content_says version (oid_text typ) o content ->
    members vcerts ts1 -> Forall2 choice_says ts1 certs -> members vcrls ts2 ->
    Forall2 signer_says ts signers ->
    sd_says t (RawSD algs (called content_types typ) content certs (length ts2) signers).

(** The octets are a signature that says [r]; something else may follow. *)
Definition says (b : bytes) (r : raw_ci) : Prop := exists t, holds_a AAny b (VAny t) /\ ci_says t r.

(** All these declarations. *)
Definition envelope_types : list asn :=
  [CmsAttribute; CmsIssuerSerial; CmsSid; CmsSigner; CmsContentInfo; CmsSignedData; MsText; MsMoniker; MsLink; MsImage; MsContent;
   MsOpus; TspAccuracy; TspName; TspInfo; X509; X509Time; X509Name; X509Algorithm].
