(** Properties C37-C39, C48-C50, C52, C54: names, certificates, signature checks, times. *)
From Verif Require Import Base Bytes ModelX509 SpecX509 ProofsX509 ProofsX509b.

(** *** Concrete data *)
Definition ex_ava (oid v : string) : ava := mkAva oid (VStr (ustr_of v)).
Definition ex_rdn (oid v : string) : rdn := mkRdn (ex_ava oid v) [].
Definition ex_ca : name := [ex_rdn "2.5.4.6" "NL"; ex_rdn "2.5.4.3" "Root, ""CA"" #1 "].
Definition ex_leaf_name : name := [ex_rdn "2.5.4.6" "NL"; ex_rdn "2.5.4.3" "#Leaf"; ex_rdn "1.2.3" ""].
Definition ex_key : spki := mkSpki "rsa" PNone [x01; x02].
Definition ex_cert : cert := mkCert 1 [x30] ex_ca 42 ex_leaf_name ex_key 0 100 (Some ["code_signing"]).
(** the same certificate, issued again later with other extensions *)
Definition ex_cert2 : cert := mkCert 2 [x31] ex_ca 42 ex_leaf_name ex_key 50 200 None.
(** a subject with an x500UniqueIdentifier, whose native value is a byte string *)
Definition ex_uid_name : name := [mkRdn (mkAva "2.5.4.45" (VBytes [x05])) []].
Definition ex_uid_cert : cert := mkCert 3 [x32] ex_ca 7 ex_uid_name ex_key 0 100 None.

(** A library that accepts a signature iff it equals the data, and in the raw mode iff it
    equals the hash; hashing prepends the length of the name of the algorithm. *)
Definition ex_env : env :=
  {| e_hash := fun n b => byte_of_Z (Z.of_nat (String.length n)) :: b;
     e_load_key := fun k => if String.eqb (k_alg k) "bad" then raise ValueError "key" else Ok (k_alg k);
     e_rsa_verify := fun _ s d _ => if bytes_eqb s d then Ok tt else raise (ExtException "SignatureError") "";
     e_dsa_verify := fun _ s d _ => if bytes_eqb s d then Ok tt else raise (ExtException "SignatureError") "";
     e_ecdsa_verify := fun _ s d _ => if bytes_eqb s d then Ok tt else raise (ExtException "SignatureError") "";
     e_now := 1000;
     e_mk_validation := fun _ _ _ _ _ => Ok tt;
     e_validate := fun _ _ _ _ _ _ _ _ => raise (ExtException "PathBuildingError") "";
     e_hashlib_has := fun s => str_mem s accepted_digest_algorithms |}.

Lemma ex_dotted s : forallb dotted_char (list_ascii_of_string s) = true -> dotted s.
Proof. intros H. apply Forall_forall. now apply forallb_forall. Qed.
Ltac wf_name_tac := unfold wf_name, all_avas; cbn [map];
  repeat (constructor; [repeat (constructor; [apply ex_dotted; reflexivity|]); constructor|]); constructor.

(** *** C37 *)

Theorem C37_equivalence_and_hash :
  forall a b c : cert, forall pyhash : hashable -> Z,
  cert_eqb a a = true /\
  cert_eqb a b = cert_eqb b a /\
  (cert_eqb a b = true -> cert_eqb b c = true -> cert_eqb a c = true) /\
  (cert_eqb a b = true -> cert_hash pyhash a = cert_hash pyhash b) /\
  (cert_eqb a b = true <-> same_identity a b).
Proof.
  intros a b c h. split; [apply cert_eqb_refl|]. split; [apply cert_eqb_sym|].
  split; [apply cert_eqb_trans|]. split; [apply cert_hash_compat|apply cert_eqb_identity].
Qed.
Print Assumptions C37_equivalence_and_hash.

Theorem C37_names :
  forall a b c : name, forall pyhash : hashable -> Z,
  name_eqb a a = true /\
  (name_eqb a b = true -> name_eqb b a = true) /\
  (name_eqb a b = true -> name_eqb b c = true -> name_eqb a c = true) /\
  (name_eqb a b = true -> name_hash pyhash a = name_hash pyhash b).
Proof.
  intros a b c h. rewrite !name_eqb_rdns. split; [reflexivity|]. split; [congruence|].
  split; [congruence|]. intros H. apply name_hash_compat. now apply name_eqb_rdns.
Qed.
Print Assumptions C37_names.

(** Equality ignores validity, extensions and encoding, but not the serial number. *)
Example C37_run :
  cert_eqb ex_cert ex_cert2 = true /\ c_valid_to ex_cert <> c_valid_to ex_cert2 /\
  cert_eqb ex_cert (mkCert 1 [x30] ex_ca 43 ex_leaf_name ex_key 0 100 None) = false /\
  is_ok (cert_hash (fun _ => 5) ex_cert) = true.
Proof. vm_compute. repeat split. discriminate. Qed.
(** Hashing fails (for both of two equal certificates) for unhashable parameters. *)
Example C37_unhashable :
  cert_hash (fun _ => 5) (mkCert 1 [] ex_ca 1 ex_ca (mkSpki "dsa" (PDict "p,q,g") []) 0 0 None)
  = raise TypeError "unhashable type".
Proof. reflexivity. Qed.

(** *** C38 *)

(** The full statement is
    [forall a b, wf_name a -> wf_name b -> name_eqb a b = true -> all_avas a = all_avas b]. *)
Theorem C38_refuted :
  exists a b, wf_name a /\ wf_name b /\ name_eqb a b = true /\ all_avas a <> all_avas b.
Proof.
  exists [mkRdn (ex_ava "2.5.4.3" "Microsoft") []].
  exists [mkRdn (ex_ava "2.5.4.3" "Microsoft") [ex_ava "2.5.4.11" "not really"]].
  split; [wf_name_tac|]. split; [wf_name_tac|]. split; [reflexivity|]. discriminate.
Qed.
Print Assumptions C38_refuted.

(** What holds: the first attribute of every RDN agrees, in type and value and order. *)
Theorem C38_first_attributes_partial :
  forall a b, wf_name a -> wf_name b ->
  (name_eqb a b = true <-> map r_first a = map r_first b).
Proof. exact name_eqb_partial. Qed.
Print Assumptions C38_first_attributes_partial.

(** So that the statement is true of names whose RDNs have a single attribute. *)
Theorem C38_single_valued_partial :
  forall a b, wf_name a -> wf_name b -> single_valued a -> single_valued b ->
  (name_eqb a b = true <-> all_avas a = all_avas b).
Proof. exact name_eqb_single. Qed.
Print Assumptions C38_single_valued_partial.

Example C38_hypotheses : wf_name ex_leaf_name /\ single_valued ex_leaf_name /\ wf_name ex_uid_name.
Proof.
  split; [wf_name_tac|]. split; [repeat constructor|wf_name_tac].
Qed.

(** *** C39 *)

(** Reading [dn] back gives the components, whatever characters the values contain. *)
Theorem C39_read_back :
  forall n s, wf_name n -> dn n = Ok s ->
  exists c, rdns n = map (fun tv => (fst tv, VStr (snd tv))) c /\
            read_dn s = map (fun tv => Some (ustr_of (fst tv), snd tv)) c.
Proof. exact dn_read. Qed.
Print Assumptions C39_read_back.

Theorem C39_unambiguous :
  forall a b s, wf_name a -> wf_name b -> dn a = Ok s -> dn b = Ok s ->
  rdns a = rdns b /\ map r_first a = map r_first b.
Proof.
  intros a b s Ha Hb Da Db. pose proof (dn_injective a b s Ha Hb Da Db) as H.
  split; [exact H|]. now apply rdns_first.
Qed.
Print Assumptions C39_unambiguous.

(** [dn] is defined exactly for names with string values only. *)
Theorem C39_defined :
  forall n, (exists s, dn n = Ok s) <->
  Forall (fun r => exists u, a_val (r_first r) = VStr u) n.
Proof. exact dn_total. Qed.
Print Assumptions C39_defined.

Example C39_run :
  dn ex_ca = Ok (ustr_of "CN=Root\, \""CA\"" #1\ , C=NL") /\
  read_dn (ustr_of "CN=Root\, \""CA\"" #1\ , C=NL") =
    [Some (ustr_of "CN", ustr_of "Root, ""CA"" #1 "); Some (ustr_of "C", ustr_of "NL")] /\
  dn ex_leaf_name = Ok (ustr_of "1.2.3=, CN=\#Leaf, C=NL").
Proof. vm_compute. repeat split. Qed.
(** Two names that would be confused without escaping. *)
Example C39_confusable :
  dn [ex_rdn "2.5.4.3" "a, O=b"] <> dn [ex_rdn "2.5.4.10" "b"; ex_rdn "2.5.4.3" "a"].
Proof. vm_compute. discriminate. Qed.

(** *** C48 *)

Theorem C48_accurate :
  forall c, zlen c = 8 -> le_to_Z c < 10 * year_2170_us ->
  exists us, filetime_native c = Ok (Some us) /\ within_us 1 us (le_to_Z c).
Proof. exact filetime_accurate. Qed.
Print Assumptions C48_accurate.

Theorem C48_monotone :
  forall c d a b, zlen c = 8 -> zlen d = 8 -> le_to_Z c <= le_to_Z d ->
  filetime_native c = Ok (Some a) -> filetime_native d = Ok (Some b) -> a <= b.
Proof. exact filetime_mono. Qed.
Print Assumptions C48_monotone.

(** Other outcomes: only for contents of the wrong size or (to within 100 microseconds)
    after the year 9999. *)
Theorem C48_failures :
  forall c e, filetime_native c = Err e ->
  (zlen c <> 8 /\ e_class e = StructError) \/
  (zlen c = 8 /\ e_class e = OverflowError /\ 10 * datetime_max_us < le_to_Z c + 1000).
Proof. exact filetime_fail. Qed.
Print Assumptions C48_failures.

(** 2021-01-01 00:00:00.1234567 is read one tick resolution off; the bound of one
    microsecond is attained, and one further binade breaks it. *)
Example C48_run :
  filetime_native (Z_to_le 8 132539328001234567) = Ok (Some 13253932800123456) /\
  filetime_native (Z_to_le 8 (10 * 2 ^ 53 + 10)) = Ok (Some (2 ^ 53)) /\
  filetime_native (Z_to_le 8 (10 * 2 ^ 54 + 20)) = Ok (Some (2 ^ 54)) /\
  filetime_native [] = Ok None.
Proof. vm_compute. repeat split. Qed.

(** *** C49 *)

(** The full statement is
    [forall us c, 0 <= us <= datetime_max_us -> filetime_set true us = Ok c ->
     filetime_native c = Ok (Some us)]; it fails for every whole second after the epoch. *)
Theorem C49_refuted :
  (exists us c t, 0 <= us <= datetime_max_us /\ filetime_set true us = Ok c /\
     filetime_native c = Ok (Some t) /\ t <> us) /\
  (forall s, 0 < s <= 300000000000 ->
     filetime_set true (s * 1000000) = Ok (Z_to_le 8 (100 * s)) /\
     filetime_native (Z_to_le 8 (100 * s)) = Ok (Some (10 * s)) /\ 10 * s <> s * 1000000).
Proof.
  split.
  - exists 1000000, (Z_to_le 8 100), 10. vm_compute. repeat split; discriminate.
  - intros s Hs. destruct (filetime_set_whole s Hs) as [A B]. split; [exact A|].
    split; [exact B|lia].
Qed.
Print Assumptions C49_refuted.

(** What holds: the epoch survives, naive datetimes are rejected, and reading the value that
    [set] should have stored (ten ticks per microsecond) is exact up to 2^53 microseconds. *)
Theorem C49_partial :
  (exists c, filetime_set true 0 = Ok c /\ filetime_native c = Ok (Some 0)) /\
  (forall us, exists m, filetime_set false us = raise ValueError m) /\
  (forall us, 0 <= us < 2 ^ 53 -> filetime_native (Z_to_le 8 (10 * us)) = Ok (Some us)).
Proof.
  split; [exists (Z_to_le 8 0); exact filetime_epoch|].
  split; [intros us; eexists; reflexivity|exact filetime_exact].
Qed.
Print Assumptions C49_partial.

(** *** C50 *)

Theorem C50_accepts_iff :
  forall E c sg data alg legacy,
  verify_signature E c sg data alg legacy = Ok tt <->
  scheme_accepts E (c_key c) sg data alg \/
  (legacy = true /\ legacy_accepts E (c_key c) sg data alg).
Proof. exact verify_signature_ok. Qed.
Print Assumptions C50_accepts_iff.

(** Without [allow_legacy], or for keys that are not RSA, only the own scheme counts. *)
Theorem C50_legacy_is_opt_in :
  forall E c sg data alg legacy,
  (legacy = false \/ e_load_key E (c_key c) <> Ok "rsa") ->
  verify_signature E c sg data alg legacy = Ok tt ->
  scheme_accepts E (c_key c) sg data alg.
Proof.
  intros E c sg data alg legacy H V. apply verify_signature_ok in V.
  destruct V as [V|[V1 [V2 _]]]; [exact V|]. destruct H; congruence.
Qed.
Print Assumptions C50_legacy_is_opt_in.

(** The last clause of C50, "a rejected signature is a CertificateVerificationError", fails
    for certificates whose subject cannot be formatted: the message of the exception
    contains the certificate, and formatting it raises TypeError. *)
Theorem C50_refuted :
  exists E c sg data alg e,
  (exists a, e_load_key E (c_key c) = Ok a) /\
  verify_signature E c sg data alg false = Err e /\
  issubclass (e_class e) VerificationError = false.
Proof.
  exists ex_env, ex_uid_cert, [x01], [x02], "sha256". eexists.
  split; [eexists; reflexivity|]. split; [vm_compute; reflexivity|reflexivity].
Qed.
Print Assumptions C50_refuted.

Theorem C50_rejection_class_partial :
  forall E c sg data alg legacy e,
  (exists s, dn (c_subject c) = Ok s) ->
  (exists a, e_load_key E (c_key c) = Ok a) ->
  (forall sg data alg, no_interrupt (e_rsa_verify E (c_key c) sg data alg)) ->
  no_interrupt (e_dsa_verify E (c_key c) sg data alg) ->
  no_interrupt (e_ecdsa_verify E (c_key c) sg data alg) ->
  verify_signature E c sg data alg legacy = Err e ->
  e_class e = CertificateVerificationError.
Proof. exact verify_signature_err. Qed.
Print Assumptions C50_rejection_class_partial.

(** Equal certificates accept the same signatures. *)
Theorem C50_respects_equality :
  forall E a b sg data alg legacy,
  cert_eqb a b = true ->
  verify_signature E a sg data alg legacy = Ok tt <->
  verify_signature E b sg data alg legacy = Ok tt.
Proof. exact verify_signature_identity. Qed.
Print Assumptions C50_respects_equality.

Example C50_run :
  verify_signature ex_env ex_cert [x07] [x07] "sha1" false = Ok tt /\
  verify_signature ex_env ex_cert [x04; x07] [x07] "sha1" true = Ok tt /\
  verify_signature ex_env ex_cert [x04; x07] [x07] "sha1" false
    = raise CertificateVerificationError "Invalid signature" /\
  (exists s, dn (c_subject ex_cert) = Ok s) /\
  (forall k sg d a, no_interrupt (e_rsa_verify ex_env k sg d a)).
Proof.
  split; [reflexivity|]. split; [reflexivity|]. split; [reflexivity|].
  split; [eexists; vm_compute; reflexivity|].
  intros k sg d a e. cbn. destruct (bytes_eqb sg d); [discriminate|]. intros H; injection H as <-. reflexivity.
Qed.

(** *** C52 *)

Theorem C52_accepted_algorithms :
  forall a n, get_digest_algorithm a = Ok n <->
  alg_name a = n /\ In n ["md5"; "sha1"; "sha256"; "sha384"; "sha512"] /\ alg_has_params a = false.
Proof. exact get_digest_algorithm_ok. Qed.
Print Assumptions C52_accepted_algorithms.

Theorem C52_rejected_with_ParseError :
  forall a e, get_digest_algorithm a = Err e -> e_class e = ParseError.
Proof. exact get_digest_algorithm_err. Qed.
Print Assumptions C52_rejected_with_ParseError.

(** The ranking of mode 'best'. *)
Theorem C52_ranking :
  map (fun n => str_index n accepted_digest_algorithms)
      ["md5"; "sha1"; "sha256"; "sha384"; "sha512"]
  = [Some 0; Some 1; Some 2; Some 3; Some 4].
Proof. reflexivity. Qed.
Print Assumptions C52_ranking.

Example C52_run :
  get_digest_algorithm (mkAlgid "sha256" false) = Ok "sha256" /\
  is_ok (get_digest_algorithm (mkAlgid "sha256" true)) = false /\
  is_ok (get_digest_algorithm (mkAlgid "sha224" false)) = false.
Proof. repeat split. Qed.

(** *** C54 *)

(** Exact, for non-negative fields, up to the largest timedelta (10^9 days), beyond which
    OverflowError is raised; an absent accuracy is zero. *)
Theorem C54_accuracy :
  (forall s ms us, 0 <= opt0 s -> 0 <= opt0 ms -> 0 <= opt0 us ->
    let total := opt0 s * 1000000 + opt0 ms * 1000 + opt0 us in
    accuracy_to_python (Some (s, ms, us)) =
    if total <? 1000000000 * 86400000000 then Ok total
    else raise OverflowError "days out of range") /\
  accuracy_to_python None = Ok 0.
Proof. split; [exact accuracy_to_python_spec|reflexivity]. Qed.
Print Assumptions C54_accuracy.

Example C54_run :
  accuracy_to_python (Some (Some 2, None, Some 7)) = Ok 2000007 /\
  accuracy_to_python (Some (Some 0, Some 500, None)) = Ok 500000 /\
  is_ok (accuracy_to_python (Some (Some 100000000000000, None, None))) = false.
Proof. vm_compute. repeat split. Qed.
