(** Property C89: exactly which octets are opened as certificate trust lists, and what a file that
    is verified with such a list has to show. *)
From Verif Require Import Base Bytes Monad ModelFile ModelX509 ModelContext SpecContext ModelPkcs7 ModelLazy ModelCtl ModelAuthenticode ModelLazyFile ModelDer ModelSpc ModelDecode
  ModelStl ModelPem SpecX509 SpecPkcs7 ProofsPkcs7 SpecCtl SpecStl SpecAuthenticode SpecSignedPE SpecDer SpecPem SpecRead SpecEnvelope SpecAccepted SpecEvidence SpecTrustList
  ProofsContext2 ProofsTrustList PropertiesFingerprint PropertiesX509 PropertiesAuthenticode PropertiesSignedPE PropertiesContext PropertiesCtl
  ExampleDer PropertiesEnvelope PropertiesStl PropertiesPem PropertiesEvidence.

(** The octets that are opened: those of a list with acceptable algorithms and well-formed attributes. *)
Theorem C89_opened :
  forall data,
  (exists t, der_from_stl_file data = Ok t) <->
  exists alg cs r, encoded_list data alg cs r /\
    (forall n, In n [alg; rl_algorithm r] ->
       In (alg_name n) ["md5"; "sha1"; "sha256"; "sha384"; "sha512"] /\ alg_has_params n = false) /\
    Forall (fun e => Forall well_formed (rs_attributes e)) (rl_subjects r).
Proof. exact list_exact. Qed.
Print Assumptions C89_opened.

(** What is then read of them. *)
Theorem C89_read :
  forall data alg cs r t, encoded_list data alg cs r -> der_from_stl_file data = Ok t ->
  tl_digest_alg t = alg_name alg /\ certificates_of cs (tl_certificates t) /\
  tl_usage t = rl_usage r /\ tl_identifier t = rl_identifier r /\ tl_sequence t = rl_sequence r /\
  tl_this_update t = rl_this_update r /\ tl_next_update t = rl_next_update r /\
  ctl_algorithm (tl_ctl t) = alg_name (rl_algorithm r) /\
  NoDup (map ts_identifier (subjects (tl_ctl t))) /\
  forall s, In s (subjects (tl_ctl t)) <-> exists e, last_entry (rl_subjects r) (rs_identifier e) e /\ reads e s.
Proof. intros data alg cs r t L H. rewrite certificates_ok. exact (list_read _ _ _ _ _ L H). Qed.
Print Assumptions C89_read.

(** The octets of a list that is opened do not mean another one. *)
Theorem C89_one :
  forall data alg cs r alg' cs' r' t,
  encoded_list data alg cs r -> encoded_list data alg' cs' r' -> der_from_stl_file data = Ok t ->
  alg_name alg = alg_name alg' /\ the_certificates cs = the_certificates cs' /\
  rl_usage r = rl_usage r' /\ rl_identifier r = rl_identifier r' /\ rl_sequence r = rl_sequence r' /\
  rl_this_update r = rl_this_update r' /\ rl_next_update r = rl_next_update r' /\
  alg_name (rl_algorithm r) = alg_name (rl_algorithm r') /\
  forall s, (exists e, last_entry (rl_subjects r) (rs_identifier e) e /\ reads e s) <->
            (exists e, last_entry (rl_subjects r') (rs_identifier e) e /\ reads e s).
Proof.
  intros data alg cs r alg' cs' r' t L L' H.
  destruct (list_read _ _ _ _ _ L H) as (P1 & P2 & P3 & P4 & P5 & P6 & P7 & P8 & _ & P9).
  destruct (list_read _ _ _ _ _ L' H) as (Q1 & Q2 & Q3 & Q4 & Q5 & Q6 & Q7 & Q8 & _ & Q9).
  repeat (split; [congruence|]). intros s. rewrite <- P9. apply Q9.
Qed.
Print Assumptions C89_one.

(** The decision on a chain, from the octets: the last entry for the root allows it. *)
Theorem C89_trust :
  forall E data alg cs r t x c root rest w,
  encoded_list data alg cs r -> der_from_stl_file data = Ok t ->
  nth_error (w_contexts w) x = Some c -> reusable c ->
  (ctl_verify_trust E (tl_ctl t) (root :: rest) x w = (w, Ok true) <->
   In (alg_name (rl_algorithm r)) ["sha1"; "sha256"] /\
   exists e, last_entry (rl_subjects r) (list_identifier E (alg_name (rl_algorithm r)) root) e /\
     allows e (c_valid_from (last rest root)) (asked_time E c) (asked_usages c)).
Proof.
  intros E data alg cs r t x c root rest w L H Hc R.
  exact (C60_trust E _ _ _ x c root rest w (list_parsed _ _ _ _ _ L H) Hc R).
Qed.
Print Assumptions C89_trust.

(** A file that is verified with a directory and a list that was opened from octets: there is the
    evidence of C88, and the list that these octets encode has an entry for the root of every
    chain, the last one of which allows code signing at a time that was given or stated (or now). *)
Theorem C89_evidence :
  forall E depth fuel mode ign v w out ts files stl t alg cs r,
  lz_verify_result der_loader E depth fuel mode None ign v w = Ok out ->
  va_context v = None -> va_cs_context v = None -> nth_error (w_stores w) (va_trusted v) = Some ts ->
  s_items ts = [] -> s_location ts = Some (location_of files) ->
  der_from_stl_file stl = Ok t -> s_ctl ts = Some (tl_ctl t) -> encoded_list stl alg cs r ->
  In (alg_name (rl_algorithm r)) ["sha1"; "sha256"] /\
  forall a chains, In (a, chains) out ->
    evidence E (f_bytes (w_file w)) v files (Some (tl_ctl t)) a chains /\
    Forall (fun chain => exists root rest e time, chain = root :: rest /\
      last_entry (rl_subjects r) (list_identifier E (alg_name (rl_algorithm r)) root) e /\
      possible_time v a time /\
      allows e (c_valid_from (last rest root)) (match time with Some x => x | None => e_now E end) ["code_signing"]) chains.
Proof. exact listed_evidence. Qed.
Print Assumptions C89_evidence.

(** So nothing is verified with a list without entries. *)
Theorem C89_none :
  forall E depth fuel mode ign v w ts files stl t alg cs r,
  va_context v = None -> va_cs_context v = None -> nth_error (w_stores w) (va_trusted v) = Some ts ->
  s_items ts = [] -> s_location ts = Some (location_of files) ->
  der_from_stl_file stl = Ok t -> s_ctl ts = Some (tl_ctl t) -> encoded_list stl alg cs r -> rl_subjects r = [] ->
  exists e, lz_verify_result der_loader E depth fuel mode None ign v w = Err e.
Proof. exact nothing_listed. Qed.
Print Assumptions C89_none.

(** ** Examples *)

(** Something that is no set of signers, and octets after the list; an element with the tag of
    certificates in the place of the signers, and no signers. *)
Definition t_file (version : byte) (content : bytes) (rest : list bytes) : bytes :=
  e_seq [e_oid o_signed;
         enc xa0 [e_seq ([e_int version; e_set [e_alg o_sha256]; e_seq [e_oid o_ctl; enc xa0 [content]]] ++ rest)]].
Definition t_list : bytes := e_list o_sha1 e_entries.
Example C89_run :
  map (fun d => is_ok (der_from_stl_file d))
    [e_stl_v1; e_stl_v3; t_file x01 t_list [e_int x05] ++ [x00]; t_file x03 (e_octets t_list) [enc xa0 [e_cert]; enc xa1 [[x00]]; enc xa0 []];
     t_file x01 t_list [enc xa0 [e_cert]; enc xa0 []]] = [true; true; true; true; true] /\
  map (fun d => is_ok (der_from_stl_file d))
    [t_file x01 t_list []; t_file x01 t_list [enc xa0 []]; t_file x01 t_list [enc xa0 []; enc xa1 []];
     t_file x01 (e_octets t_list) [e_set []]; t_file x03 t_list [e_set []]] = [false; false; false; false; false].
Proof. vm_compute. split; reflexivity. Qed.
Lemma t_encoded data us :
  match der_from_stl_file data with Ok t => tl_usage t = us | Err _ => False end -> exists alg cs r, encoded_list data alg cs r /\ rl_usage r = us.
Proof.
  intros Q. pose proof (proj1 (C89_opened data)) as K. destruct (der_from_stl_file data) as [t|] eqn:H; [|contradiction Q].
  destruct (K (ex_intro _ t eq_refl)) as (alg & cs & r & L & _). exists alg, cs, r. split; [exact L|].
  destruct (C89_read _ _ _ _ _ L H) as (_ & _ & U & _). congruence.
Qed.
Example C89_encoded : exists alg cs r, encoded_list (t_file x01 t_list [e_int x05] ++ [x00]) alg cs r /\ rl_usage r = ["code_signing"].
Proof. apply t_encoded. vm_compute. reflexivity. Qed.

(** A file is verified with a list that has an entry for its root, and not with a list in which
    the last entry for it forbids code signing. *)
Definition t_me : bytes := match the_certificates ex_choices with c :: _ => list_identifier e_env "sha1" c | [] => [] end.
Definition t_store (entries : list bytes) : store :=
  mkStore [] true (match der_from_stl_file (e_stl entries) with Ok t => Some (tl_ctl t) | Err _ => None end)
    (Some (location_of [Ok (e_block e_cert2 ++ e_block e_cert)])) false.
Definition t_forbid : bytes := e_entry t_me [e_ctl_attr x7f [e_usages ["2b06010505070303"]]; e_ctl_attr x7e [Z_to_le 8 0]].
Example C89_verified :
  d_run (t_store [t_forbid; e_entry t_me []]) = true /\
  d_run (t_store [e_entry (x00 :: t_me) []]) = false /\ d_run (t_store []) = false /\ d_run (t_store [e_entry t_me []; t_forbid]) = false.
Proof. vm_compute. repeat split. Qed.
