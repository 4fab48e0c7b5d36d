(** Property C60: certificate trust lists mean what their entries say. *)
From Verif Require Import Base Bytes Monad ModelFile ModelX509 SpecX509 ModelContext SpecContext ProofsContext2 ModelPkcs7
  SpecPkcs7 ProofsPkcs7
  ModelCtl SpecCtl ProofsCtl2 PropertiesX509 PropertiesContext.

(** An entry is read iff all attributes are well-formed, and then every field is the first
    value of the last attribute of its type. *)
Theorem C60_entry :
  forall r s, parse_subject r = Ok s <-> Forall well_formed (rs_attributes r) /\ reads r s.
Proof. exact c60_entry. Qed.
Print Assumptions C60_entry.

(** The decision of an entry in terms of its attributes. *)
Theorem C60_decision :
  forall r s pre ee t requested, parse_subject r = Ok s ->
  (subject_verify_trust s (pre ++ [ee]) t requested = Ok true <-> allows r (c_valid_from ee) t requested).
Proof. exact c60_decision. Qed.
Print Assumptions C60_decision.

(** A list is read iff its algorithm is an accepted one and all entries are well-formed. *)
Theorem C60_readable :
  forall a l, (exists t, parse_ctl a l = Ok t) <->
  (exists n, get_digest_algorithm a = Ok n) /\ Forall (fun r => Forall well_formed (rs_attributes r)) l.
Proof. exact c60_readable. Qed.
Print Assumptions C60_readable.

(** The subjects of the list: for every identifier, the last entry with it. *)
Theorem C60_subjects :
  forall a l t, parse_ctl a l = Ok t ->
  NoDup (map ts_identifier (subjects t)) /\
  forall s, In s (subjects t) <-> exists r, last_entry l (rs_identifier r) r /\ reads r s.
Proof. exact c60_subjects. Qed.
Print Assumptions C60_subjects.

(** A list accepts a chain iff the last entry for the digest of the root allows it. *)
Theorem C60_trust :
  forall E a l t x c root rest w,
  parse_ctl a l = Ok t -> nth_error (w_contexts w) x = Some c -> reusable c ->
  (ctl_verify_trust E t (root :: rest) x w = (w, Ok true) <->
   In (alg_name a) ["sha1"; "sha256"] /\
   exists r, last_entry l (list_identifier E (alg_name a) root) r /\
     allows r (c_valid_from (last rest root)) (asked_time E c) (asked_usages c)).
Proof. intros E a l t x c root rest w H Hc R. exact (c60_trust E a l t x c root rest w H Hc (reusable_stable _ R)). Qed.
Print Assumptions C60_trust.

(** Which files are read, and what is read of them. *)
Theorem C60_file :
  forall load data t, from_stl_file load data = Ok t <->
  exists a c certs, load data = Ok (StlSigned [a] "microsoft_ctl" (Some c) certs) /\
    get_digest_algorithm a = Ok (tl_digest_alg t) /\ certificates_of certs (tl_certificates t) /\
    tl_usage t = rl_usage c /\ tl_identifier t = rl_identifier c /\ tl_sequence t = rl_sequence c /\
    tl_this_update t = rl_this_update c /\ tl_next_update t = rl_next_update c /\
    parse_ctl (rl_algorithm c) (rl_subjects c) = Ok (tl_ctl t).
Proof.
  intros load data t. rewrite c60_file. split; intros (a & c & certs & H1 & H2 & H3 & H4); exists a, c, certs;
    (split; [exact H1|split; [exact H2|split; [now apply certificates_ok|exact H4]]]).
Qed.
Print Assumptions C60_file.

(** Not a SignedData: an error of its own kind, unlike in [from_envelope]. *)
Theorem C60_not_signed_data :
  forall load data ty, load data = Ok (StlOther ty) ->
  (exists e, from_stl_file load data = Err e /\ e_class e = CertificateTrustListParseError) /\
  (exists e, list_from_envelope load data = Err e /\ e_class e = ParseError).
Proof.
  intros load data ty H. unfold from_stl_file, list_from_envelope. rewrite H. split; eexists; (split; [reflexivity|reflexivity]).
Qed.
Print Assumptions C60_not_signed_data.

(** A list with two entries for ex_root; the second one counts.  It has two attributes of the
    type of usages, of which the second one counts, and the first value of each. *)
Definition ex_list : raw_list :=
  mkRawList ["microsoft_root_list_signer"] (Some [x01]) (Some 7) 100 None (mkAlgid "sha1" false)
    [ex_entry ex_int []; ex_entry ex_root [AtDisallowedFiletime [Z_to_le 8 0]];
     ex_entry ex_root [AtEnhkeyUsage [["time_stamping"]]; AtEnhkeyUsage [["code_signing"; "server_auth"]; ["x"]];
                       AtDisallowedFiletime [Z_to_le 8 20000; []]; AtNotBeforeFiletime [[]];
                       AtNotBeforeEnhkeyUsage [["server_auth"]]; AtKeyIdentifier [[x02]]; AtOther "1.2.3" 1]].
Definition ex_stl (content_type : string) (content : option raw_list) (data : bytes) : res raw_stl :=
  match data with
  | [] => Ok (StlOther "data")
  | _ => Ok (StlSigned [mkAlgid "sha256" false] content_type content [ChoiceOther "v2_attr_cert"; ChoiceCertificate ex_leaf])
  end.
Example C60_run :
  match from_stl_file (ex_stl "microsoft_ctl" (Some ex_list)) [x30] with
  | Ok t =>
      tl_certificates t = [ex_leaf] /\ length (subjects (tl_ctl t)) = 2%nat /\
      let w time us := mkWorld [] [mkContext [] (Some time) None (Some (mkUsages false us)) false ex_opts] ex_file in
      let run time us := ctl_verify_trust ex_env (tl_ctl t) [ex_root; ex_leaf] 0 (w time us) in
      run 1999 ["code_signing"] = (w 1999 ["code_signing"], Ok true) /\
      is_ok (snd (run 2000 ["code_signing"])) = false /\
      is_ok (snd (run 1999 ["time_stamping"])) = false /\
      is_ok (snd (run 1999 ["server_auth"])) = false
  | Err _ => False
  end /\
  is_ok (from_stl_file (ex_stl "data" None) [x30]) = false /\
  is_ok (from_stl_file (ex_stl "microsoft_ctl" None) [x30]) = false /\
  is_ok (from_stl_file (ex_stl "microsoft_ctl" (Some ex_list)) []) = false /\
  is_ok (parse_subject (mkRawSubject [] [AtDisallowedFiletime [Z_to_le 8 20000; [x00]]])) = false /\
  is_ok (parse_subject (mkRawSubject [] [AtOther "1.2.3" 0])) = false.
Proof. vm_compute. repeat split. Qed.
