(** What the octets of a certificate trust list say. *)
From Verif Require Import Base Monad ModelX509 ModelContext ModelPkcs7 ModelLazy ModelCtl ModelDer ModelSpc ModelDecode SpecPrim SpecTime SpecBer SpecPkcs7.

(** ** Text: UTF-16, little endian *)

Definition unit16 (z : Z) : bytes := [byte_of_Z (z mod 256); byte_of_Z (z / 256)].
(** One code point. *)
Definition point16 (c : N) : bytes :=
  let z := Z.of_N c in
  if z <? 65536 then unit16 z
  else unit16 (55296 + (z - 65536) / 1024) ++ unit16 (56320 + (z - 65536) mod 1024).
Definition utf16_le (u : ustr) : bytes := flat_map point16 u.
(** Code points that are not surrogates. *)
Definition scalar (c : N) : Prop := (c < 55296 \/ 57344 <= c < 1114112)%N.
(** [u] is written in [b], followed by any number of NULs. *)
Definition text_in (b : bytes) (u : ustr) : Prop :=
  Forall scalar u /\ (forall u', u <> u' ++ [0%N]) /\ exists n, b = utf16_le (u ++ repeat 0%N n).

(** ** Attributes *)

(** The octets hold a list of key purposes. *)
Definition purposes_in (b : bytes) (us : list string) : Prop :=
  exists l, written true ExtKeyUsageSyntax (VList (map VPrim l)) b /\ us = map (called key_purposes) l.

(** The attribute of the type [oid] with the values [vs] (the octets of OCTET STRINGs). *)
Definition ctl_oids : list string :=
  map (fun s => ("1.3.6.1.4.1.311.10.11." ++ s)%string) ["9"; "11"; "20"; "29"; "98"; "104"; "105"; "122"; "126"; "127"].
Inductive attr_means (oid : bytes) (vs : list bytes) : ctl_attr -> Prop :=
| MeansEnhkeyUsage us :
    oid_text oid = "1.3.6.1.4.1.311.10.11.9" -> Forall2 purposes_in vs us -> attr_means oid vs (AtEnhkeyUsage us)
| MeansFriendlyName us :
    oid_text oid = "1.3.6.1.4.1.311.10.11.11" -> Forall2 text_in vs us -> attr_means oid vs (AtFriendlyName us)
| MeansKeyIdentifier : oid_text oid = "1.3.6.1.4.1.311.10.11.20" -> attr_means oid vs (AtKeyIdentifier vs)
| MeansSubjectNameMd5 : oid_text oid = "1.3.6.1.4.1.311.10.11.29" -> attr_means oid vs (AtSubjectNameMd5 vs)
| MeansAuthRootSha256 : oid_text oid = "1.3.6.1.4.1.311.10.11.98" -> attr_means oid vs (AtAuthRootSha256 vs)
| MeansDisallowedFiletime : oid_text oid = "1.3.6.1.4.1.311.10.11.104" -> attr_means oid vs (AtDisallowedFiletime vs)
| MeansChainPolicies us :
    oid_text oid = "1.3.6.1.4.1.311.10.11.105" -> Forall2 purposes_in vs us -> attr_means oid vs (AtChainPolicies us)
| MeansDisallowedEnhkeyUsage us :
    oid_text oid = "1.3.6.1.4.1.311.10.11.122" -> Forall2 purposes_in vs us -> attr_means oid vs (AtDisallowedEnhkeyUsage us)
| MeansNotBeforeFiletime : oid_text oid = "1.3.6.1.4.1.311.10.11.126" -> attr_means oid vs (AtNotBeforeFiletime vs)
| MeansNotBeforeEnhkeyUsage us :
    oid_text oid = "1.3.6.1.4.1.311.10.11.127" -> Forall2 purposes_in vs us -> attr_means oid vs (AtNotBeforeEnhkeyUsage us)
| MeansOther s : ~ In (oid_text oid) ctl_oids -> attr_means oid vs (AtOther s (length vs)).

(** ** Entries and lists *)

Definition sole_attr (v : aval) (a : ctl_attr) : Prop :=
  exists oid vs, v = VSeq [Some (VPrim oid); Some (VList (map VPrim vs))] /\ attr_means oid vs a.
Definition entry_means (v : aval) (r : raw_subject) : Prop :=
  exists o, v = VSeq [Some (VPrim (rs_identifier r)); o] /\
  match o with
  | None => rs_attributes r = []
  | Some x => exists l, x = VList l /\ Forall2 sole_attr l (rs_attributes r)
  end.
Definition entries_mean (o : option aval) (rs : list raw_subject) : Prop :=
  match o with
  | None => rs = []
  | Some x => exists l, x = VList l /\ Forall2 entry_means l rs
  end.
(** A value that Python takes for false: NULL, the number 0, FALSE, and whatever else is empty. *)
Definition no_value (t : tlv) : Prop :=
  t_class t = 0 /\
  (t_tag t = 5 \/ ((t_tag t = 1 \/ t_tag t = 2) /\ Forall (eq x00) (t_contents t)) \/
   (t_tag t <> 1 /\ t_tag t <> 2 /\ t_contents t = [])).
(** An algorithm: the only field after the name are the parameters. *)
Definition alg_means (v : aval) (a : algid) : Prop :=
  exists oid o, v = VSeq [Some (VPrim oid); o] /\ alg_name a = called digest_algorithms oid /\
  match o with
  | None => alg_has_params a = false
  | Some x => exists t, x = VAny t /\ (alg_has_params a = false <-> no_value t)
  end.
Definition time_means (v : aval) (t : datetime) : Prop := exists n b, v = VChoice n (VPrim b) /\ time_text n b t.
Definition maybe {A} (P : aval -> A -> Prop) (o : option aval) (x : option A) : Prop :=
  match o, x with
  | None, None => True
  | Some v, Some y => P v y
  | _, _ => False
  end.
Definition octets_mean (v : aval) (b : bytes) : Prop := v = VPrim b.
Definition integer_means (v : aval) (z : Z) : Prop := exists b, v = VPrim b /\ z = signed_integer b.

Definition list_means (v : aval) (r : raw_list) : Prop :=
  exists version usages identifier sequence this next alg subjects extensions,
  v = VSeq [version; Some (VList (map VPrim usages)); identifier; sequence; Some this; next; Some alg; subjects; extensions] /\
  rl_usage r = map (called key_purposes) usages /\
  maybe octets_mean identifier (rl_identifier r) /\
  maybe integer_means sequence (rl_sequence r) /\
  time_means this (rl_this_update r) /\
  maybe time_means next (rl_next_update r) /\
  alg_means alg (rl_algorithm r) /\
  entries_mean subjects (rl_subjects r).

(** ** Files *)

(** A SignedData in a ContentInfo whose content is of the type [body]: the list itself in
    version 1, an OCTET STRING that contains it above. *)
Definition StlSignedData (body : asn) :=
  ASeq [field "version" aInteger; field "digest_algorithms" (ASetOf AlgorithmIdentifier);
        field "encap_content_info"
          (ASeq [field "content_type" aObjectIdentifier; field_with "content" body (Explicit 0) Optional]);
        field_with "certificates" (ASetOf AAny) (Implicit 0) Optional;
        field_with "crls" (ASetOf AAny) (Implicit 1) Optional;
        field "signer_infos" (ASetOf AAny)].
Definition StlFile (body : asn) :=
  ASeq [field "content_type" aObjectIdentifier; field_with "content" (StlSignedData body) (Explicit 0) Optional].

(** The certificates in the file, where [means] tells what the members of a set mean. *)
Definition certificates_mean (means : list tlv -> list raw_choice -> Prop) (o : option aval) (cs : list raw_choice) : Prop :=
  match o with
  | None => cs = []
  | Some x => exists ts, x = VList (map VAny ts) /\ means ts cs
  end.

(** [data] is a file with the version, the digest algorithm, the content and the certificates. *)
Definition stl_file (means : list tlv -> list raw_choice -> Prop) (data : bytes) (body : asn) (version : Z) (alg : algid) (content : aval) (cs : list raw_choice) : Prop :=
  exists o b x typ certs crls signers,
  written true (StlFile body)
    (VSeq [Some (VPrim o);
           Some (VSeq [Some (VPrim b); Some (VList [x]); Some (VSeq [Some (VPrim typ); Some content]); certs; crls; signers])])
    data /\
  oid_text o = "1.2.840.113549.1.7.2" /\ oid_text typ = "1.3.6.1.4.1.311.10.1" /\
  signed_integer b = version /\ alg_means x alg /\ certificates_mean means certs cs.

(** The file holds the list [r]. *)
Definition holds_list (means : list tlv -> list raw_choice -> Prop) (data : bytes) (alg : algid) (cs : list raw_choice) (r : raw_list) : Prop :=
  (exists v, stl_file means data CertificateTrustList 1 alg v cs /\ list_means v r) \/
  (exists version b v, version <> 1 /\ stl_file means data aOctetString version alg (VPrim b) cs /\
     written true CertificateTrustList v b /\ list_means v r).
