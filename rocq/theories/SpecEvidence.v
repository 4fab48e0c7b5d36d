(** What must be found in the octets of a verified file and of the files of the trusted directory,
    stated with the specifications of their parts: the table (SpecSigned.v), the encodings
    (SpecAccepted.v, SpecRead.v) and the text files (SpecPem.v). *)
From Verif Require Import Base ModelFile ModelPE SpecPE ModelX509 SpecX509 ModelContext SpecContext ModelPkcs7 ModelAuthenticode ModelDer ModelDecode
  SpecAuthenticode SpecSignedPE SpecPem SpecRead SpecEnvelope SpecOctets SpecAccepted SpecSigned.

(** The octets begin with the encoding of this certificate. *)
Definition encoded_certificate (b : bytes) (c : cert) : Prop :=
  exists t v, holds_a AAny b (VAny t) /\ is_a X509 t v /\ cert_means v c /\ c_der c = tlv_dump t.
(** One of the files is a text with a block of it; some of the files may be unreadable. *)
Definition in_directory (files : list (res bytes)) (c : cert) : Prop :=
  exists t ls d, In (Ok t) files /\ text_of ls t /\ block_of ls d /\ encoded_certificate d c.

(** The table of the file has an entry with the encoding of the signature [a], or of one that it is
    nested in. *)
Definition in_file (data : bytes) (a : asd) : Prop :=
  exists addr lim es last e top l,
    table_at data addr lim /\ entries_at data lim addr es last /\ In e es /\
    ce_revision e = 0x200 /\ ce_type e = 2 /\
    encoded_signature true (ce_certificate e) top /\ unfolds top l /\ In a l.

(** The certificates from which chains are built. *)
Definition at_hand (files : list (res bytes)) (a : asd) (c : cert) : Prop :=
  In c (sd_certificates (asd_data a)) \/ in_directory files c.

(** The time that was given, or the one that a countersignature states. *)
Definition possible_time (v : vargs) (a : asd) (t : option datetime) : Prop :=
  t = kw_timestamp (va_kwargs v) \/ exists c, considered a v c /\ t = counter_stated_time c.

(** [chain] ends in the directory, and is what the validator found for a certificate [c] that the
    signer names and whose key verifies the signature; it was given the certificates of the
    directory as trust anchors and no others, the purpose of code signing, and one of
    these times.  The trust list, if there is one, admits the chain at one of them, or now if it is none. *)
Definition chain_evidence (E : env) (v : vargs) (files : list (res bytes)) (list_of : option ctl) (a : asd) (chain : list cert) : Prop :=
  let given := va_kwargs v in
  exists c anchors others time,
    at_hand files a c /\ named (asi_info (asd_signer a)) c /\
    signs E (v_allow_legacy (kw_opts given)) (asi_info (asd_signer a)) c /\
    Forall (in_directory files) anchors /\ Forall (at_hand files a) others /\
    possible_time v a time /\
    e_validate E anchors time (kw_opts given) c others
      (match kw_key_usages given with Some l => l | None => [] end) ["code_signing"] (kw_optional_eku given) = Ok (map c_id chain) /\
    Forall (at_hand files a) chain /\
    (exists root rest d, chain = root :: rest /\ in_directory files d /\ cert_eqb root d = true) /\
    (forall tl, list_of = Some tl -> exists t, possible_time v a t /\
       ctl_accepts E tl chain (match t with Some x => x | None => e_now E end) ["code_signing"]).

(** The hash of the image is in the content, which is signed, and there are such chains. *)
Definition evidence (E : env) (data : bytes) (v : vargs) (files : list (res bytes)) (list_of : option ctl)
  (a : asd) (chains : list (list cert)) : Prop :=
  in_file data a /\ algorithms_agree a /\ authentihash_of E data (digest_of a) (sp_digest (asd_spc a)) /\
  content_matches E (asd_data a) (asi_info (asd_signer a)) /\
  chains <> [] /\ Forall (chain_evidence E v files list_of a) chains.
