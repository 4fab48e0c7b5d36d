(** Properties C17-C24 and C55: SignedPEFile.iter_signed_datas, verify and explain_verify. *)
From Verif Require Import Base Bytes Monad ModelFile ModelFingerprint SpecFingerprint ModelPE SpecPE ModelX509 SpecX509
  ModelContext SpecContext ModelPkcs7 ModelAuthenticode SpecAuthenticode SpecSignedPE
  ProofsSignedPE ProofsSignedPE2 ProofsSignedPE3 PropertiesFingerprint
  PropertiesX509 PropertiesContext PropertiesPE PropertiesPkcs7 PropertiesAuthenticode.

(** *** Concrete data *)

(** A signature by ex_leaf with the given algorithm and digest of the file, and nested ones. *)
Definition ex_raw (alg : string) (digest : bytes) (nested : list raw_sd) : raw_sd :=
  RawSD [mkAlgid alg false] spc_type
    (mkRawContent ex_content (RVSpc (mkRawSpc "microsoft_spc_pe_image_data" true (mkAlgid alg false) digest)))
    (map ChoiceCertificate ex_certs) 0
    [RawSI (SidIssuerSerial ex_int_name 4) (mkAlgid alg false)
       (ex_attrs spc_type (e_hash ex_env alg ex_content)) [x01] "rsa" (encode_attributes [x01])
       (match nested with [] => [] | _ => [ANestedSignature (map RawSigned nested)] end)].

(** A file with entries of the given types, revisions and contents. *)
Definition ex_image (es : list cert_entry) : file :=
  mkFile (ex_pe 240 (zlen (enc_table es)) (str "0123456789abcdef" ++ enc_table es ++ str "trailing")) 7.
Definition ex_blobs : list cert_entry :=
  [mkEntry 0x200 2 (str "A"); mkEntry 0x200 1 (str "12345678"); mkEntry 0x200 2 (str "B")].
(** The digest of such a file. *)
Definition ex_hash (alg : string) (f : file) : bytes :=
  match snd (omit_sections f) with
  | Ok (Some secs) => e_hash ex_env alg (kept (map snd secs) (f_bytes f))
  | _ => []
  end.
(** What the entries are parsed to. *)
Definition ex_loader (a b : raw_sd) : loader := fun data =>
  if bytes_eqb data (str "A") then Ok (RawSigned a)
  else if bytes_eqb data (str "B") then Ok (RawSigned b)
  else raise ValueError "Error parsing".
Definition ex_pair : file := ex_image ex_blobs.
(** The same with another byte of code. *)
Definition ex_tampered : file :=
  mkFile (ztake 230 (f_bytes ex_pair) ++ [x21] ++ zskip 231 (f_bytes ex_pair)) 0.
(** sha256 with a nested sha1 with a nested sha384, then sha512. *)
Definition ex_tree : loader :=
  ex_loader (ex_raw "sha256" (ex_hash "sha256" ex_pair)
               [ex_raw "sha1" (ex_hash "sha1" ex_pair) [ex_raw "sha384" [] []]; ex_raw "md5" [] []])
            (ex_raw "sha512" [] []).
Definition ex_worldf (f : file) : world := mkWorld [ex_trusted] [] f.

(** *** C17 *)

(** The iteration over a file terminates.  It yields what is found in the certificate table at
    the wanted paths, parents first and in the order of the table, each once; it ends at the
    first entry that is not readable, or with the table. *)
Theorem C17_enumeration :
  forall load depth inc f,
  exists es tail n l x,
    terminates_with (fun k => cert_table k f) (es, tail) /\
    terminates_with (fun k => iterate load depth inc false k f) (l, x) /\
    (n <= length es)%nat /\ Forall (readable_entry load depth) (firstn n es) /\
    ends load depth es tail n x /\
    enumerates (in_table load depth es) (wanted_paths load depth es n inc) l.
Proof. exact c17. Qed.
Print Assumptions C17_enumeration.

(** The order and the paths determine the list. *)
Theorem C17_determined :
  forall look wanted l l', enumerates look wanted l -> enumerates look wanted l' -> l = l'.
Proof. exact enumerates_unique. Qed.
Print Assumptions C17_determined.

(** Without the nested ones, it yields those of the paths of length 1, in the same order. *)
Theorem C17_top_level :
  forall load depth f fuel l l' x x',
  iterate load depth true false fuel f = Some (l, x) -> iterate load depth false false fuel f = Some (l', x') ->
  x' = x /\
  exists es tail n ps,
    terminates_with (fun k => cert_table k f) (es, tail) /\
    ForallOrdPairs earlier ps /\ (forall p, In p ps <-> wanted_paths load depth es n true p) /\
    Forall2 (fun p a => in_table load depth es p = Some a) ps l /\
    l' = map snd (filter (fun pa => length (fst pa) =? 1)%nat (combine ps l)).
Proof. exact c17_top. Qed.
Print Assumptions C17_top_level.

Example C17_run :
  let show r := option_map (fun lx => (map digest_of (fst lx), snd lx)) r in
  show (iterate ex_tree 9 true false 9 ex_pair) = Some (["sha256"; "sha1"; "sha384"; "md5"; "sha512"], None) /\
  show (iterate ex_tree 9 false false 9 ex_pair) = Some (["sha256"; "sha512"], None) /\
  option_map digest_of (in_table ex_tree 9 ex_blobs [0; 0; 0]%nat) = Some "sha384" /\
  in_table ex_tree 9 ex_blobs [1]%nat = None.
Proof. vm_compute. repeat split. Qed.

(** *** C18 *)

Theorem C18_ignored_errors :
  forall load depth inc f fuel l x,
  iterate load depth inc true fuel f = Some (l, x) <->
  exists y, iterate load depth inc false fuel f = Some (l, y) /\
    ((y = None /\ x = None) \/
     (exists e, y = Some e /\ issubclass (e_class e) SignedPEParseError = true /\ x = None) \/
     (exists e, y = Some e /\ issubclass (e_class e) SignedPEParseError = false /\ x = Some e)).
Proof. exact c18. Qed.
Print Assumptions C18_ignored_errors.

(** An unknown revision is ignored, an entry that cannot be parsed is not. *)
Definition ex_revision : file := ex_image [mkEntry 0x200 2 (str "B"); mkEntry 0x100 2 (str "B")].
Definition ex_garbage : file := ex_image [mkEntry 0x200 2 (str "B"); mkEntry 0x200 2 (str "C")].
Example C18_run :
  let show r := option_map (fun lx => (map digest_of (fst lx), snd lx)) r in
  show (iterate ex_tree 9 true false 9 ex_revision)
  = Some (["sha512"], Some (mkExn SignedPEParseError "Unknown certificate revision")) /\
  show (iterate ex_tree 9 true true 9 ex_revision) = Some (["sha512"], None) /\
  show (iterate ex_tree 9 true false 9 ex_garbage) = Some (["sha512"], Some (mkExn ValueError "Error parsing")) /\
  show (iterate ex_tree 9 true true 9 ex_garbage) = Some (["sha512"], Some (mkExn ValueError "Error parsing")).
Proof. vm_compute. repeat split. Qed.

(** *** C19, C20: several signatures *)

(** The verdicts are those of verifying the chosen signatures one after the other. *)
Theorem C19_modes :
  forall load E depth mode expected ign v w l,
  terminates_with (fun k => iterate load depth true ign k (w_file w)) (l, None) -> l <> [] -> known_names E expected ->
  exists sel hash, chosen mode l sel /\ due_hashes E (f_bytes (w_file w)) expected sel hash /\
    exists N, forall fuel, (N <= fuel)%nat -> exists p,
    let vs := tried E v hash sel (at_position p w) in
    let ok := exists out, verify_result load E depth fuel mode expected ign v w = Ok out in
    (conjunctive mode -> (ok <-> Forall succeeds vs)) /\
    (~ conjunctive mode -> Forall (fun r => ~ interrupts r) vs -> (ok <-> Exists succeeds vs)).
Proof. exact c19. Qed.
Print Assumptions C19_modes.

(** With contexts that can be shared, such as the default ones, they are those of verifying
    each of them alone. *)
Theorem C19_modes_alone :
  forall load E depth mode expected ign v w l,
  terminates_with (fun k => iterate load depth true ign k (w_file w)) (l, None) -> l <> [] -> known_names E expected ->
  shareable w v l -> (forall a, In a l -> usable w v a) ->
  (forall a c, In a l -> considered a v c -> distinct_contexts v) ->
  exists sel hash, chosen mode l sel /\ due_hashes E (f_bytes (w_file w)) expected sel hash /\
    exists N, forall fuel, (N <= fuel)%nat ->
    let vs := alone E v hash sel w in
    let ok := exists out, verify_result load E depth fuel mode expected ign v w = Ok out in
    (conjunctive mode -> (ok <-> Forall succeeds vs)) /\
    (~ conjunctive mode -> Forall (fun r => ~ interrupts r) vs -> (ok <-> Exists succeeds vs)).
Proof. exact c19_alone. Qed.
Print Assumptions C19_modes_alone.

Theorem C20_outcome :
  forall load E depth mode expected ign v w l,
  terminates_with (fun k => iterate load depth true ign k (w_file w)) (l, None) -> l <> [] -> known_names E expected ->
  exists sel hash, chosen mode l sel /\ due_hashes E (f_bytes (w_file w)) expected sel hash /\
    exists N, forall fuel, (N <= fuel)%nat ->
    exists p b, (b = true <-> conjunctive mode) /\
      outcome (tried E v hash sel (at_position p w)) b (verify_result load E depth fuel mode expected ign v w).
Proof. exact c20. Qed.
Print Assumptions C20_outcome.

Theorem C20_outcome_alone :
  forall load E depth mode expected ign v w l,
  terminates_with (fun k => iterate load depth true ign k (w_file w)) (l, None) -> l <> [] -> known_names E expected ->
  shareable w v l -> (forall a, In a l -> usable w v a) ->
  (forall a c, In a l -> considered a v c -> distinct_contexts v) ->
  exists sel hash, chosen mode l sel /\ due_hashes E (f_bytes (w_file w)) expected sel hash /\
    exists N, forall fuel, (N <= fuel)%nat ->
    exists b, (b = true <-> conjunctive mode) /\
      outcome (alone E v hash sel w) b (verify_result load E depth fuel mode expected ign v w).
Proof. exact c20_alone. Qed.
Print Assumptions C20_outcome_alone.

(** All combinations of a good and a bad signature. *)
Definition ex_try (load : loader) (mode : string) : res (list (string * list (list cert))) :=
  match verify_result load ex_venv 9 400 mode None true (ex_v None None "strict") (ex_worldf ex_pair) with
  | Ok out => Ok (map (fun ac => (digest_of (fst ac), snd ac)) out)
  | Err e => Err e
  end.
Definition ex_of (a : string) (good_a : bool) (b : string) (good_b : bool) : loader :=
  let digest alg (good : bool) := if good then ex_hash alg ex_pair else [x00] in
  ex_loader (ex_raw a (digest a good_a) []) (ex_raw b (digest b good_b) []).
Definition ex_chain : list (list cert) := [[ex_root; ex_int; ex_leaf]].
Definition ex_invalid : exn := mkExn AuthenticodeInvalidDigestError "The expected hash does not match the digest in SpcInfo".

Example C19_run :
  let two a b := ex_of "sha1" a "sha256" b in
  ex_try (two true true) "all" = Ok [("sha1", ex_chain); ("sha256", ex_chain)] /\
  ex_try (two true true) "any" = Ok [("sha1", ex_chain)] /\
  ex_try (two true true) "first" = Ok [("sha1", ex_chain)] /\
  ex_try (two true true) "best" = Ok [("sha256", ex_chain)] /\
  ex_try (two true false) "all" = Err ex_invalid /\
  ex_try (two true false) "any" = Ok [("sha1", ex_chain)] /\
  ex_try (two true false) "first" = Ok [("sha1", ex_chain)] /\
  ex_try (two true false) "best" = Err ex_invalid /\
  ex_try (two false true) "all" = Err ex_invalid /\
  ex_try (two false true) "any" = Ok [("sha256", ex_chain)] /\
  ex_try (two false true) "first" = Err ex_invalid /\
  ex_try (two false true) "best" = Ok [("sha256", ex_chain)] /\
  ex_try (two false true) "unknown" = Ok [("sha256", ex_chain)] /\
  ex_try (two false false) "any" = Err ex_invalid /\
  (* two with the best algorithm *)
  ex_try (ex_of "sha256" false "sha256" true) "best" = Ok [("sha256", ex_chain)].
Proof. vm_compute. repeat split. Qed.

(** The hypotheses hold for these files and default arguments. *)
Lemma iterate_done load depth inc ign fuel f r :
  iterate load depth inc ign fuel f = Some r -> terminates_with (fun k => iterate load depth inc ign k f) r.
Proof. intros H. exists fuel. intros m Hm. eapply iterate_mono; eassumption. Qed.
Lemma default_usable f a :
  asi_cs (asd_signer a) = None -> usable (ex_worldf f) (ex_v None None "strict") a.
Proof.
  intros H. split.
  - do 2 eexists. split; [exists ex_trusted; repeat split|]. repeat constructor; discriminate.
  - intros c [Hc _]. congruence.
Qed.
Example C19_applies :
  exists l, terminates_with (fun k => iterate (ex_of "sha1" true "sha256" false) 9 true true k (w_file (ex_worldf ex_pair))) (l, None) /\
    length l = 2%nat /\ known_names ex_venv None /\
    shareable (ex_worldf ex_pair) (ex_v None None "strict") l /\
    (forall a, In a l -> usable (ex_worldf ex_pair) (ex_v None None "strict") a) /\
    (forall a c, In a l -> considered a (ex_v None None "strict") c -> distinct_contexts (ex_v None None "strict")).
Proof.
  eexists. split; [eapply iterate_done with (fuel := 9%nat); vm_compute; reflexivity|]. split; [reflexivity|].
  split; [discriminate|]. split; [split; discriminate|]. split.
  - intros a [<-|[<-|[]]]; now apply default_usable.
  - intros a c _ _ x y H. discriminate H.
Qed.

(** *** C21: unsigned files *)

(** If the iteration yields nothing, it ends with an error, and that error or
    AuthenticodeNotSignedError is raised, whatever the other arguments; the dict is untouched. *)
Theorem C21_nothing_found :
  forall load E depth mode expected ign v w x,
  terminates_with (fun k => iterate load depth true false k (w_file w)) ([], x) ->
  exists e, x = Some e /\ exists r N, forall fuel, (N <= fuel)%nat ->
    verify_result load E depth fuel mode expected ign v w = Err r /\
    dict_after load E depth fuel mode expected ign v w = expected /\
    (if ign && issubclass (e_class e) SignedPEParseError then e_class r = AuthenticodeNotSignedError else r = e).
Proof. exact unsigned. Qed.
Print Assumptions C21_nothing_found.

(** In particular for files without an entry of type 2: no PE file, no table, other entries. *)
Theorem C21_no_signature :
  forall load E depth mode expected (ign : bool) v w es tail,
  terminates_with (fun k => cert_table k (w_file w)) (es, tail) -> (forall c, In c es -> ce_type c <> 2) ->
  exists r N, e_class r = (if ign then AuthenticodeNotSignedError else SignedPEParseError) /\
    forall fuel, (N <= fuel)%nat -> verify_result load E depth fuel mode expected ign v w = Err r.
Proof. exact unsigned_file. Qed.
Print Assumptions C21_no_signature.

(** Whatever an error of the iteration comes after, it is raised. *)
Theorem C21_iteration_error :
  forall load E depth mode expected ign v w l e,
  terminates_with (fun k => iterate load depth true ign k (w_file w)) (l, Some e) ->
  exists N, forall fuel, (N <= fuel)%nat ->
    verify_result load E depth fuel mode expected ign v w = Err e /\
    dict_after load E depth fuel mode expected ign v w = expected.
Proof. exact iteration_error. Qed.
Print Assumptions C21_iteration_error.

(** The full statement is that AuthenticodeNotSignedError is raised also when there are only
    entries that cannot be parsed, if parse errors are to be ignored.  Only SignedPEParseError
    is ignored, so this is false. *)
Theorem C21_refuted :
  exists load E depth mode expected v w e fuel,
    iterate load depth true false fuel (w_file w) = Some ([], Some e) /\
    issubclass (e_class e) ParseError = true /\
    verify_result load E depth fuel mode expected true v w = Err e /\ e_class e <> AuthenticodeNotSignedError.
Proof.
  exists (ex_loader (RawSD [ex_sha256] "data" (mkRawContent [] RVNone) [] 0 []) (ex_raw "sha256" [] [])), ex_venv, 9%nat, "any",
    None, (ex_v None None "strict"), (ex_worldf ex_pair).
  eexists. exists 9%nat. split; [vm_compute; reflexivity|]. split; [reflexivity|].
  split; [vm_compute; reflexivity|discriminate].
Qed.
Print Assumptions C21_refuted.

Example C21_run :
  let run f ign := verify_result ex_tree ex_venv 9 100 "any" None ign (ex_v None None "strict") (ex_worldf f) in
  let types := ex_image [mkEntry 0x200 1 (str "12345678")] in
  (exists m, run ex_file false = raise SignedPEParseError m) /\ (exists m, run ex_file true = raise AuthenticodeNotSignedError m) /\
  (exists m, run types false = raise SignedPEParseError m) /\ (exists m, run types true = raise AuthenticodeNotSignedError m) /\
  run ex_garbage true = raise ValueError "Error parsing".
Proof. vm_compute. repeat split; eexists; reflexivity. Qed.

(** *** C22: the hashes *)

(** Which hashes the signatures are compared with, for supplied names of hash functions (see
    also [C20_outcome], where the verdicts are those with exactly these hashes). *)
Theorem C22_compared_partial :
  forall load E depth fuel mode expected ign v w out,
  known_names E expected -> verify_result load E depth fuel mode expected ign v w = Ok out ->
  out <> [] /\ Forall (fun ac => due E (f_bytes (w_file w)) expected (digest_of (fst ac)) (sp_digest (asd_spc (fst ac)))) out.
Proof. exact c22. Qed.
Print Assumptions C22_compared_partial.

(** The full statement is for every dict.  It is false: a name that is not an attribute of
    hashlib makes every verification of a signed file fail with AttributeError. *)
Theorem C22_unknown_name :
  forall load E depth mode d ign v w l k h,
  terminates_with (fun n => iterate load depth true ign n (w_file w)) (l, None) -> l <> [] ->
  In (k, h) d -> e_hashlib_has E k = false ->
  exists e N, e_class e = AttributeError /\ forall fuel, (N <= fuel)%nat ->
    verify_result load E depth fuel mode (Some d) ign v w = Err e.
Proof. exact unknown_name. Qed.
Print Assumptions C22_unknown_name.

Definition ex_named (names : list string) : env :=
  {| e_hash := e_hash ex_venv; e_load_key := e_load_key ex_venv; e_rsa_verify := e_rsa_verify ex_venv;
     e_dsa_verify := e_dsa_verify ex_venv; e_ecdsa_verify := e_ecdsa_verify ex_venv; e_now := e_now ex_venv;
     e_mk_validation := e_mk_validation ex_venv; e_validate := e_validate ex_venv;
     e_hashlib_has := fun n => str_mem n names |}.
Definition ex_library : env := ex_named ["md5"; "sha1"; "sha256"; "sha384"; "sha512"].
Definition ex_one (f : file) : loader := let s := ex_raw "sha256" (ex_hash "sha256" f) [] in ex_loader s s.
Definition ex_given (d : option (dict bytes)) (f : file) : world * option (dict bytes) * res (list (asd * list (list cert))) :=
  pe_open_verify (ex_one f) ex_library 9 400 "any" d true (ex_v None None "strict") (ex_worldf f).

Theorem C22_refuted :
  exists load E depth fuel mode d v w out k,
    verify_result load E depth fuel mode (Some d) true v w = Ok out /\
    exists e, verify_result load E depth fuel mode (Some (d ++ [(k, [])])) true v w = Err e /\
      e_class e = AttributeError.
Proof.
  exists (ex_one ex_pair), ex_library, 9%nat, 400%nat, "any", [("sha1", [])], (ex_v None None "strict"), (ex_worldf ex_pair).
  eexists. exists "SHA-256". split; [vm_compute; reflexivity|]. eexists. split; [vm_compute; reflexivity|reflexivity].
Qed.
Print Assumptions C22_refuted.

Example C22_run :
  (* computed, supplied, and supplied wrongly *)
  is_ok (snd (ex_given None ex_pair)) = true /\
  is_ok (snd (ex_given (Some [("sha256", ex_hash "sha256" ex_pair)]) ex_pair)) = true /\
  snd (ex_given (Some [("sha256", [x00])]) ex_pair) = Err ex_invalid /\
  is_ok (snd (ex_given (Some [("sha1", [x00])]) ex_pair)) = true.
Proof. vm_compute. repeat split. Qed.

(** *** C23: the dict passed as expected_hashes *)

(** It is not left unchanged, so reusing it makes the verification of another file fail that
    succeeds with a fresh dict. *)
Theorem C23_refuted :
  exists load1 load2 E depth fuel mode v w1 w2 out1 out2 d e,
    verify_result load1 E depth fuel mode (Some []) true v w1 = Ok out1 /\
    dict_after load1 E depth fuel mode (Some []) true v w1 = Some d /\
    verify_result load2 E depth fuel mode (Some []) true v w2 = Ok out2 /\
    verify_result load2 E depth fuel mode (Some d) true v w2 = Err e /\
    e_class e = AuthenticodeInvalidDigestError /\ d <> [].
Proof.
  exists (ex_one ex_pair), (ex_one ex_tampered), ex_library, 9%nat, 400%nat, "any", (ex_v None None "strict"),
    (ex_worldf ex_pair), (ex_worldf ex_tampered). do 4 eexists.
  split; [vm_compute; reflexivity|]. split; [vm_compute; reflexivity|]. split; [vm_compute; reflexivity|].
  split; [vm_compute; reflexivity|]. split; [reflexivity|discriminate].
Qed.
Print Assumptions C23_refuted.

(** No entry is changed, and only hashes of the file are added; none if all algorithms that
    a signature can have are supplied. *)
Theorem C23_unchanged_partial :
  forall load E depth mode d ign v w fuel,
  (forall k h, In (k, h) d -> e_hashlib_has E k = true) ->
  exists d1, dict_after load E depth fuel mode (Some d) ign v w = Some d1 /\
    (forall alg h, dict_get alg d = Some h -> dict_get alg d1 = Some h) /\
    (forall alg h, dict_get alg d = None -> dict_get alg d1 = Some h -> authentihash_of E (f_bytes (w_file w)) alg h) /\
    ((forall alg, In alg accepted_digest_algorithms -> dict_get alg d <> None) -> d1 = d).
Proof. exact c23. Qed.
Print Assumptions C23_unchanged_partial.

Example C23_run :
  let keys d := option_map (map fst) (snd (fst (ex_given d ex_pair))) in
  keys None = None /\ keys (Some []) = Some ["sha256"] /\ keys (Some [("sha1", [])]) = Some ["sha1"; "sha256"] /\
  keys (Some (map (fun a => (a, [])) accepted_digest_algorithms)) = Some accepted_digest_algorithms.
Proof. vm_compute. repeat split. Qed.

(** *** C24: explain_verify *)

Theorem C24_explained :
  forall load E depth fuel flen mode expected ign v w,
  explains (snd (pe_verify load E depth fuel flen mode expected ign v w))
           (snd (pe_explain_verify load E depth fuel flen mode expected ign v w)) /\
  fst (pe_explain_verify load E depth fuel flen mode expected ign v w) =
  fst (pe_verify load E depth fuel flen mode expected ign v w).
Proof.
  intros. unfold pe_explain_verify. destruct (pe_verify load E depth fuel flen mode expected ign v w) as [[w' d] r].
  split; [apply explains_call|reflexivity].
Qed.
Print Assumptions C24_explained.

(** The same for AuthenticodeSignedData.explain_verify. *)
Theorem C24_explained_signature :
  forall E fuel a expected v w,
  explains (snd (asd_verify E fuel a expected v w)) (snd (asd_explain_verify E fuel a expected v w)) /\
  fst (asd_explain_verify E fuel a expected v w) = fst (asd_verify E fuel a expected v w).
Proof.
  intros. unfold asd_explain_verify. destruct (asd_verify E fuel a expected v w) as [w' r].
  split; [apply explains_call|reflexivity].
Qed.
Print Assumptions C24_explained_signature.

(** The explanation is determined; OK stands for returning, and there is one for every Exception. *)
Theorem C24_determined :
  (forall A (r : res A) x y, explains r x -> explains r y -> x = y) /\
  (forall A (r : res A), explains r (Ok (OK, None)) <-> exists a, r = Ok a) /\
  (forall A (e : exn), issubclass (e_class e) Exception_ = true <->
     exists s, @explains A (Err e) (Ok (s, Some e)) /\ s <> OK).
Proof. exact c24_determined. Qed.
Print Assumptions C24_determined.

Example C24_run :
  let call k := @result_call unit (raise k "") in
  let says k s := call k = Ok (s, Some (mkExn k "")) in
  says SignedPEParseError NOT_SIGNED /\ says AuthenticodeParseError PARSE_ERROR /\
  says AuthenticodeInvalidDigestError INVALID_DIGEST /\ says AuthenticodeVerificationError VERIFY_ERROR /\
  says CTLCertificateVerificationError CERTIFICATE_ERROR /\ says CertificateTrustListParseError UNKNOWN_ERROR /\
  says KeyError UNKNOWN_ERROR /\ call (ExtBaseException "KeyboardInterrupt") = raise (ExtBaseException "KeyboardInterrupt") "" /\
  snd (pe_explain_verify ex_tree ex_venv 9 400 (file_len ex_pair) "all" None true (ex_v None None "strict") (ex_worldf ex_pair))
  = Ok (INVALID_DIGEST, Some ex_invalid).
Proof. vm_compute. repeat split. Qed.

(** *** C55: end to end *)

(** If verify returns with default contexts and no supplied hashes, its result is not empty, and
    each signature in it is in the certificate table of the file, has the hash of the file,
    and is signed by a certificate with the returned chains, that end in the trusted store.
    [fuel] and the libraries are arbitrary. *)
Theorem C55_sound :
  forall load E depth fuel mode ign v w out ts,
  verify_result load E depth fuel mode None ign v w = Ok out ->
  va_context v = None -> va_cs_context v = None -> nth_error (w_stores w) (va_trusted v) = Some ts ->
  out <> [] /\ exists es tail,
    terminates_with (fun k => cert_table k (w_file w)) (es, tail) /\
    Forall (sound_pair load E depth w v ts es) out.
Proof.
  intros load E depth fuel mode ign v w out ts. unfold verify_result.
  destruct (pe_open_verify load E depth fuel mode None ign v w) as [[w' d'] r] eqn:H. cbn [snd]. intros ->.
  eapply c55. exact H.
Qed.
Print Assumptions C55_sound.

(** It returns for a signed file, and not when a byte of the code is changed, when the root is not
    in the store, or when the store is not trusted. *)
Example C55_run :
  let run f s := verify_result (ex_one ex_pair) ex_library 9 400 "any" None true (ex_v None None "strict") (mkWorld [s] [] f) in
  (exists a, run ex_pair ex_trusted = Ok [(a, ex_chain)]) /\
  run ex_tampered ex_trusted = Err ex_invalid /\
  is_ok (run ex_pair (mkStore [ex_int] true None None false)) = false /\
  is_ok (run ex_pair (mkStore [ex_root] false None None false)) = false.
Proof. vm_compute. split; [eexists; reflexivity|]. repeat split. Qed.
