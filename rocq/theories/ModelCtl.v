(** Model of loading a certificate trust list, signify/authenticode/authroot.py:93-175.
    The entries themselves are in ModelContext.v.  No proofs in this file. *)
From Verif Require Import Base Monad ModelX509 ModelContext ModelPkcs7.

(** asn1/ctl.py CertificateTrustList, lines 218-248: what asn1crypto makes of the content.
    Optional fields are None when absent, except for the
    subjects, whose absence is the same as an empty list (asn1crypto's NoValue iterates over
    nothing).  The extensions are not read. *)
Record raw_list := mkRawList {
  rl_usage : list string;
  rl_identifier : option bytes;
  rl_sequence : option Z;
  rl_this_update : datetime;
  rl_next_update : option datetime;
  rl_algorithm : algid;
  rl_subjects : list raw_subject
}.

(** A loaded ContentInfo: a SignedData with its digest algorithms, content type, content and
    certificates, or something else.  The content is of the type above exactly if the
    content type is "microsoft_ctl" (asn1/ctl.py:240-244), and None if it is absent.
    Simplified: decoded completely when it is loaded, as in ModelPkcs7.v. *)
Inductive raw_stl : Type :=
| StlSigned (digest_algs : list algid) (content_type : string) (content : option raw_list) (certs : list raw_choice)
| StlOther (content_type : string).

(** CertificateTrustList, authroot.py:84-91, 104-109 and the inherited attributes of
    signeddata.py:63-68 that are set by its [_parse]. *)
Record trust_list := mkTrustList {
  tl_digest_alg : string;
  tl_certificates : list cert;
  tl_usage : list string;
  tl_identifier : option bytes;
  tl_sequence : option Z;
  tl_this_update : datetime;
  tl_next_update : option datetime;
  tl_ctl : ctl
}.

(** [CertificateTrustList._parse], authroot.py:93-110, with [SignedData._parse],
    signeddata.py:99-147 ([_signerinfo_class] is None: no signer infos are parsed).  The
    errors of an absent content are those of subscripting NoValue. *)
Definition parse_trust_list (algs : list algid) (content_type : string) (content : option raw_list)
  (certs : list raw_choice) : res trust_list :=
  let? alg := match algs with
              | [a] => get_digest_algorithm a
              | _ => raise KeyError "digestAlgorithms"
              end in
  let? _ := (if String.eqb content_type "microsoft_ctl" then Ok tt
             else raise ParseError "SignedData.contentInfo contains another type") in
  match content with
  | None => raise TypeError "'NoValue' object is not subscriptable"
  | Some c =>
      let? t := parse_ctl (rl_algorithm c) (rl_subjects c) in
      Ok (mkTrustList alg (the_certificates certs) (rl_usage c) (rl_identifier c) (rl_sequence c)
            (rl_this_update c) (rl_next_update c) t)
  end.

(** [CertificateTrustList.from_stl_file], authroot.py:161-175; [data] is the contents of the
    file. *)
Definition from_stl_file (load : bytes -> res raw_stl) (data : bytes) : res trust_list :=
  let? ci := load data in
  match ci with
  | StlOther _ => raise CertificateTrustListParseError "ContentInfo does not contain SignedData"
  | StlSigned algs content_type content certs => parse_trust_list algs content_type content certs
  end.

(** [SignedData.from_envelope], signeddata.py:86-97, inherited. *)
Definition list_from_envelope (load : bytes -> res raw_stl) (data : bytes) : res trust_list :=
  let? ci := load data in
  match ci with
  | StlOther _ => raise ParseError "ContentInfo does not contain SignedData"
  | StlSigned algs content_type content certs => parse_trust_list algs content_type content certs
  end.

(** [CertificateTrustList.subjects], authroot.py:112-116. *)
Definition subjects (t : ctl) : list ctl_subject := map snd (ctl_subjects t).
