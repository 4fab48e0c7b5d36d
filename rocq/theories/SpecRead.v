(** What the octets of a certificate say: X.509 (RFC 5280, 4.1), as relations between decoded
    values and certificates.  What is not read ([AAny]) may be anything. *)
From Verif Require Import Base ModelX509 ModelDer ModelSpc ModelDecode SpecPrim SpecBer SpecStl.

(** ** Declarations *)

Definition X509Algorithm :=
  ASeq [field "algorithm" (APrim 6); field_with "parameters" AAny Untagged Optional].
Definition X509Attribute := ASeq [field "type" (APrim 6); field "value" AAny].
Definition X509Name := ASeqOf (ASetOf X509Attribute).
Definition X509Time := AChoice [("utc_time", (APrim 23, Untagged)); ("general_time", (APrim 24, Untagged))].
Definition X509Validity := ASeq [field "not_before" X509Time; field "not_after" X509Time].
Definition X509Key := ASeq [field "algorithm" X509Algorithm; field "public_key" AAny].
Definition X509Extension :=
  ASeq [field "extn_id" (APrim 6); field_with "critical" (APrim 1) Untagged Default; field "extn_value" (APrim 4)].
Definition X509Body :=
  ASeq [field_with "version" (APrim 2) (Explicit 0) Default;
        field "serial_number" (APrim 2);
        field "signature" AAny;
        field "issuer" X509Name;
        field "validity" X509Validity;
        field "subject" X509Name;
        field "subject_public_key_info" X509Key;
        field_with "issuer_unique_id" AAny (Implicit 1) Optional;
        field_with "subject_unique_id" AAny (Implicit 2) Optional;
        field_with "extensions" (ASeqOf X509Extension) (Explicit 3) Optional].
Definition X509 :=
  ASeq [field "tbs_certificate" X509Body; field "signature_algorithm" X509Algorithm; field "signature_value" (APrim 3)].

Definition MsText := AChoice [("unicode", (APrim 30, Implicit 0)); ("ascii", (APrim 22, Implicit 1))].
Definition MsMoniker := ASeq [field "class_id" (APrim 4); field "serialized_data" (APrim 4)].
Definition MsLink :=
  AChoice [("url", (APrim 22, Implicit 0)); ("moniker", (MsMoniker, Implicit 1)); ("file", (MsText, Explicit 2))].
Definition MsPicture :=
  ASeq [field_with "image_link" MsLink (Explicit 0) Optional; field_with "bitmap" (APrim 4) (Implicit 1) Optional;
        field_with "metafile" (APrim 4) (Implicit 2) Optional; field_with "enhanced_metafile" (APrim 4) (Implicit 3) Optional;
        field_with "gif_file" (APrim 4) (Implicit 4) Optional].
Definition MsAgency :=
  ASeq [field_with "policy_information" MsLink (Explicit 0) Required; field_with "policy_display_text" MsText (Explicit 1) Optional;
        field_with "logo_image" MsPicture (Implicit 2) Optional; field_with "logo_link" MsLink (Explicit 3) Optional].

(** ** Meaning *)

Definition universal (t : tlv) (tag : Z) : Prop := t_class t = 0 /\ t_tag t = tag.

(** The value of an attribute of a name: a unique identifier is a BIT STRING (after the number
    of unused bits), everything else a text. *)
Definition value_means (oid : string) (t : tlv) (v : nval) : Prop :=
  t_class t = 0 /\ t_cons t = false /\
  (oid = "2.5.4.45" /\ t_tag t = 3 /\ v = VBytes (zskip 1 (t_contents t)) \/
   oid <> "2.5.4.45" /\ exists s, string_text (t_tag t) (t_contents t) s /\ v = VStr s).
Definition ava_means (v : aval) (x : ava) : Prop :=
  exists oid t, v = VSeq [Some (VPrim oid); Some (VAny t)] /\ a_oid x = oid_text oid /\ value_means (oid_text oid) t (a_val x).
Definition rdn_means (v : aval) (x : rdn) : Prop :=
  exists l, v = VList l /\ Forall2 ava_means l (r_first x :: r_rest x).
Definition name_means (v : aval) (x : name) : Prop := exists l, v = VList l /\ Forall2 rdn_means l x.

Definition validity_means (v : aval) (first last : datetime) : Prop :=
  exists v1 v2, v = VSeq [Some v1; Some v2] /\ time_means v1 first /\ time_means v2 last.

(** The parameters of a key: absent or NULL, the name of a curve, or a structure. *)
Definition parameters_mean (o : option aval) (p : pkparams) : Prop :=
  match o with
  | None => p = PNone
  | Some v =>
      exists t, v = VAny t /\
      (universal t 5 /\ p = PNone \/ universal t 6 /\ p = PStr (oid_text (t_contents t)) \/
       ~ universal t 5 /\ ~ universal t 6 /\ p = PDict (as_string (latin1 (tlv_dump t))))
  end.
Definition key_means (v : aval) (k : spki) : Prop :=
  exists alg params t,
  v = VSeq [Some (VSeq [Some (VPrim alg); params]); Some (VAny t)] /\
  k_alg k = called key_algorithms alg /\ parameters_mean params (k_params k) /\
  universal t 3 /\ t_cons t = false /\ k_bits k = tlv_dump t.

(** Texts and links whose characters can be read. *)
Definition legible_text (v : aval) : Prop :=
  exists b u, v = VChoice "unicode" (VPrim b) /\ string_text 30 b u \/ v = VChoice "ascii" (VPrim b) /\ string_text 22 b u.
Definition legible_link (v : aval) : Prop :=
  (exists b u, v = VChoice "url" (VPrim b) /\ string_text 22 b u) \/
  (exists c d, v = VChoice "moniker" (VSeq [Some (VPrim c); Some (VPrim d)])) \/
  (exists x, v = VChoice "file" x /\ legible_text x).
Definition if_given (P : aval -> Prop) (o : option aval) : Prop := match o with Some v => P v | None => True end.
Definition legible_picture (v : aval) : Prop := exists link pictures, v = VSeq (link :: pictures) /\ if_given legible_link link.
(** The octets hold information about an agency. *)
Definition agency_in (b : bytes) : Prop :=
  exists info text image link, written true MsAgency (VSeq [Some info; text; image; link]) b /\
  legible_link info /\ if_given legible_text text /\ if_given legible_picture image /\ if_given legible_link link.
(** The octets hold financial criteria: at most two BOOLEANs. *)
Definition financial_in (b : bytes) : Prop :=
  exists l, (length l <= 2)%nat /\ written true (ASeqOf (APrim 1)) (VList l) b.

(** The usages of an extension, if it is an extended key usage.  The other two extensions whose
    types are known must be of these types. *)
Definition extension_means (v : aval) (o : option (list string)) : Prop :=
  exists oid critical b, v = VSeq [Some (VPrim oid); critical; Some (VPrim b)] /\
  (oid_text oid = "2.5.29.37" /\ (exists us, o = Some us /\ purposes_in b us) \/ oid_text oid <> "2.5.29.37" /\ o = None) /\
  (oid_text oid = "1.3.6.1.4.1.311.2.1.10" -> agency_in b) /\ (oid_text oid = "1.3.6.1.4.1.311.2.1.27" -> financial_in b).
(** The last one counts. *)
Definition last_of {A} (l : list (option A)) (o : option A) : Prop :=
  match o with
  | None => Forall (fun x => x = None) l
  | Some y => exists l1 l2, l = l1 ++ Some y :: l2 /\ Forall (fun x => x = None) l2
  end.
Definition usages_mean (o : option aval) (us : option (list string)) : Prop :=
  match o with
  | None => us = None
  | Some v => exists l xs, v = VList l /\ Forall2 extension_means l xs /\ last_of xs us
  end.

Definition cert_means (v : aval) (c : cert) : Prop :=
  exists version serial signature issuer validity subject key u1 u2 extensions alg params value,
  v = VSeq [Some (VSeq [version; Some (VPrim serial); signature; Some issuer; Some validity; Some subject; Some key;
                        u1; u2; extensions]);
            Some (VSeq [Some (VPrim alg); params]); Some (VPrim value)] /\
  c_serial c = signed_integer serial /\ name_means issuer (c_issuer c) /\
  validity_means validity (c_valid_from c) (c_valid_to c) /\ name_means subject (c_subject c) /\
  key_means key (c_key c) /\ usages_mean extensions (c_eku c).

(** ** Names of object identifiers on which the library decides, as they are registered *)

Definition registered : list (dict string * (string * string)) :=
  map (pair content_types)
    [("data", "1.2.840.113549.1.7.1"); ("signed_data", "1.2.840.113549.1.7.2"); ("tst_info", "1.2.840.113549.1.9.16.1.4");
     ("microsoft_spc_indirect_data_content", "1.3.6.1.4.1.311.2.1.4"); ("microsoft_ctl", "1.3.6.1.4.1.311.10.1")] ++
  map (pair attribute_types)
    [("content_type", "1.2.840.113549.1.9.3"); ("message_digest", "1.2.840.113549.1.9.4");
     ("signing_time", "1.2.840.113549.1.9.5"); ("counter_signature", "1.2.840.113549.1.9.6");
     ("microsoft_nested_signature", "1.3.6.1.4.1.311.2.4.1"); ("microsoft_time_stamp_token", "1.3.6.1.4.1.311.3.3.1");
     ("microsoft_spc_statement_type", "1.3.6.1.4.1.311.2.1.11"); ("microsoft_spc_sp_opus_info", "1.3.6.1.4.1.311.2.1.12")] ++
  map (pair spc_attribute_types) [("microsoft_spc_pe_image_data", "1.3.6.1.4.1.311.2.1.15")] ++
  map (pair digest_algorithms)
    [("md5", "1.2.840.113549.2.5"); ("sha1", "1.3.14.3.2.26"); ("sha224", "2.16.840.1.101.3.4.2.4");
     ("sha256", "2.16.840.1.101.3.4.2.1"); ("sha384", "2.16.840.1.101.3.4.2.2"); ("sha512", "2.16.840.1.101.3.4.2.3")] ++
  map (pair key_algorithms) [("rsa", "1.2.840.113549.1.1.1"); ("dsa", "1.2.840.10040.4.1"); ("ec", "1.2.840.10045.2.1")] ++
  map (pair extension_types)
    [("extended_key_usage", "2.5.29.37"); ("microsoft_spc_sp_agency_info", "1.3.6.1.4.1.311.2.1.10");
     ("microsoft_spc_financial_criteria", "1.3.6.1.4.1.311.2.1.27")] ++
  map (pair key_purposes)
    [("any_extended_key_usage", "2.5.29.37.0"); ("server_auth", "1.3.6.1.5.5.7.3.1"); ("client_auth", "1.3.6.1.5.5.7.3.2");
     ("code_signing", "1.3.6.1.5.5.7.3.3"); ("email_protection", "1.3.6.1.5.5.7.3.4"); ("time_stamping", "1.3.6.1.5.5.7.3.8");
     ("ocsp_signing", "1.3.6.1.5.5.7.3.9"); ("microsoft_trust_list_signing", "1.3.6.1.4.1.311.10.3.1");
     ("microsoft_lifetime_signing", "1.3.6.1.4.1.311.10.3.13")].
