(** The repository's own tests, run in the model on the files of /repo/tests/test_data: the
    octets are decoded by [der_loader] (ModelDecode.v) and the external libraries are those of
    ExampleEnv.v.  The certificates shipped with Windows that the tests trust are not part of
    the repository: here the issuing certificates that the files carry are trusted instead.

    [Check (eq_refl _ <: _)] has the kernel evaluate a test while this file is compiled
    without storing the (long) computation; the Examples are stored. *)
From Verif Require Import Base Monad ModelFile ModelFingerprint ModelPE ModelX509 ModelContext ModelPkcs7 ModelLazy
  ModelAuthenticode ModelLazyFile ModelDer ModelSpc ModelDecode ExampleData ExampleEnv.

Definition outcome {A} (r : res A) : option exc_class := match r with Ok _ => None | Err e => Some (e_class e) end.
Definition trusting (roots : list cert) (b : bytes) : world :=
  mkWorld [mkStore roots true None None false] [] (mkFile b 0).
Definition with_timestamp (t : option datetime) : vargs :=
  mkVargs None None 0 (mkKwargs t None true default_opts true) "strict".
(** [SignedPEFile(f).verify(multi_verify_mode=mode, expected_hashes=hashes)] at the moment [now]: the
    number of verified signatures or the class of the exception. *)
Definition run_verify (now : Z) (mode : string) (hashes : option (dict bytes)) (timestamp : option datetime)
  (roots : list cert) (b : bytes) : option nat * option exc_class :=
  match snd (lz_pe_open_verify der_loader (run_env now) 50 60 mode hashes true (with_timestamp timestamp)
               (trusting roots b)) with
  | Ok l => (Some (length l), None)
  | Err e => (None, Some (e_class e))
  end.
(** [list(SignedPEFile(f).iter_signed_datas(ignore_parse_errors=ignore))] *)
Definition run_iter (ignore : bool) (b : bytes) : list asd * option exn :=
  match lz_iter_signed_datas der_loader 50 true ignore 20 (zlen b) (mkFile b 0) with
  | Some (_, r) => r
  | None => ([], Some out_of_fuel)
  end.
(** Every certificate of the signatures and tokens in the file with one of the serial numbers. *)
Definition carried (b : bytes) (serials : list Z) : list cert :=
  filter (fun c => existsb (Z.eqb (c_serial c)) serials)
    (flat_map (fun a => sd_certificates (asd_data a)
                          ++ match asd_signer a with
                             | ASI _ (Some (CSToken t)) _ => sd_certificates (r_data t)
                             | _ => []
                             end) (fst (run_iter true b))).
(** The kernel's evaluation of a call is the given outcome. *)
Notation "x ==> v" := (@eq_refl (option nat * option exc_class) v <: x = v) (at level 80).
Definition midnight (y m d : Z) : Z := days_from_civil y m d * 86400000000.

(** [AuthenticodeFingerprinter(f)] with the hashers of test_entire_blobs. *)
Definition run_fingerprint (generic authenticode : list string) (b : bytes)
  : option (res (dict (dict bytes))) :=
  let st := add_hashers (fp_new [] (mkFile b 0) default_block) generic None "generic" in
  match add_authenticode_hashers st authenticode with
  | (st', Ok _) => option_map snd (hashes run_hash 100 st')
  | (_, Err e) => Some (Err e)
  end.

Definition simple : bytes := unhex_lines simple_hex.
Definition t2A6E : bytes := unhex_lines t2A6E_hex.
Definition pciide : bytes := unhex_lines pciide_hex.
Definition kdbazis : bytes := unhex_lines kdbazis_hex.
Definition sigcheck : bytes := unhex_lines sigcheck_hex.
Definition whois : bytes := unhex_lines whois_hex.
(** [data[i] = v] *)
Definition patch (i : Z) (v : byte) (b : bytes) : bytes := ztake i b ++ [v] ++ zskip (i + 1) b.
Definition today : Z := midnight 2025 1 1.

(** ** test_fingerprinter.py *)

(** test_entire_blobs: the values of the .res files. *)
Example simple_blob :
  run_fingerprint ["md5"; "sha1"; "sha256"; "sha512"] ["md5"; "sha1"; "sha256"] simple
  = Some (Ok [("generic",
      [("md5", unhex "489b02745027cb62e9b0d7e0c1ef4944");
       ("sha1", unhex "26b49e7b07de3f92b31f124a3e6186af6f07162b");
       ("sha256", unhex "d55a298fa768131555667035ef60d47634418e24ffeddbd4f341c188e4cb5fe4");
       ("sha512", unhex "460568655c4a5de0ae12b9b0001851b93d9edd3f5b0b33457d7fcf5e4814b9cf40717609f75e5941586a37aba425c44140262c122bb624e722d7d12ddb2c2c2e")])]).
Proof. vm_compute. reflexivity. Qed.
Definition t2A6E_res : dict (dict bytes) :=
  [("generic",
    [("md5", unhex "8102aef50b9c7456f62cdbeefa5fa9de");
     ("sha1", unhex "e6bfe33c591fd024aac97d5734250fb72e3cf6b6");
     ("sha256", unhex "1488f56b62c37c789875dd3725103cdc3e17a6216aaba47d4543f3593f5040d5");
     ("sha512", unhex "b6970a0f2d97f24ee8253d1caf2d68739d5ea7fb8d747d1e98a5ee28b2662b490f6655aded6b77a6fd3190ef7ea60d3899239ce326b80c4a065c866b1078aae9")]);
   ("authentihash",
    [("md5", unhex "a3cb9249ade31cc840fbb044093811e4");
     ("sha1", unhex "1417aaae3b687fe9e4363756fd28c976498c62e7");
     ("sha256", unhex "52d5aec0f309024229db6a9ec4f596e786cdeb1c321e1180891d7f8f25d928c9")])].
Definition pciide_res : dict (dict bytes) :=
  [("generic",
    [("md5", unhex "b5b8b5ef2e5cb34df8dcf8831e3534fa");
     ("sha1", unhex "98cc3b8f38311abfdf577be403ff9f74aa55f745");
     ("sha256", unhex "f2a7cc645b96946cc65bf60e14e70dc09c848d27c7943ce5dea0c01a6b863480");
     ("sha512", unhex "2d04e52a5d4eaaab96be6651b7a06413e03477840f675ee73e243761b21919e5268e772b99e2fcb5b960d789c53ebc1bff83601d272732d44b616553e1746a0f")]);
   ("authentihash",
    [("md5", unhex "7103145d42e81968d1a7371336055b2d");
     ("sha1", unhex "9bd444d58b59cca832bb5fc911f81f6c66b40fcc");
     ("sha256", unhex "5cd3641543e7849664975a1465e6835c91d311dd4468decc38caa63c1fb6d462")])].
Check (@eq_refl (option (res (dict (dict bytes)))) (Some (Ok t2A6E_res))
       <: run_fingerprint ["md5"; "sha1"; "sha256"; "sha512"] ["md5"; "sha1"; "sha256"] t2A6E = Some (Ok t2A6E_res)).
Check (@eq_refl (option (res (dict (dict bytes)))) (Some (Ok pciide_res))
       <: run_fingerprint ["md5"; "sha1"; "sha256"; "sha512"] ["md5"; "sha1"; "sha256"] pciide = Some (Ok pciide_res)).

(** test_reasonable_interval, test_adjustments and test_hash_block. *)
Example reasonable_interval :
  next_interval [[mkRange 0 1000001]] default_block [mkFinger 0 [] ""] = Some (mkRange 0 1000000).
Proof. vm_compute. reflexivity. Qed.
Definition adjusted (r s e : Z) : heap * option exc_class :=
  match consume_all [[mkRange r 20]] [mkFinger 0 [] ""] s e with (h, x) => (h, outcome x) end.
Example adjustments :
  adjusted 10 9 10 = ([[mkRange 10 20]], None)
  /\ snd (adjusted 10 9 11) = Some RuntimeError
  /\ snd (adjusted 10 11 12) = Some RuntimeError
  /\ adjusted 10 10 11 = ([[mkRange 11 20]], None)
  /\ snd (adjusted 11 11 21) = Some RuntimeError
  /\ adjusted 11 11 20 = ([[]], None).
Proof. vm_compute. repeat split. Qed.
Example block_hashed :
  hash_block [[mkRange 0 5]] [mkFinger 0 [mkHasher "seen" []] ""] (list_byte_of_string "12345") 0 5
  = ([mkFinger 0 [mkHasher "seen" (list_byte_of_string "12345")] ""], Ok tt).
Proof. vm_compute. reflexivity. Qed.

(** ** test_signerinfo.py *)

(** [_get_digest_algorithm] of an encoded DigestAlgorithm. *)
Definition run_digest_algorithm (b : bytes) : res string :=
  let? (t, _) := parse_tlv b in
  lz_digest_algorithm (read_algid digest_algorithms AlgorithmIdentifier Untagged t).
(** test_acceptable_oid, test_unknown_oid, test_non_hashlib_oid, test_null_parameters and
    test_non_null_parameters (there an error of asn1crypto's constructor, here the parsed
    structure is rejected). *)
Example digest_algorithms_accepted :
  run_digest_algorithm (unhex "300706052b0e03021a") = Ok "sha1"
  /\ outcome (run_digest_algorithm (unhex "300306012a")) = Some ParseError
  /\ outcome (run_digest_algorithm (unhex "300b06092a864886f70d010903")) = Some ParseError
  /\ run_digest_algorithm (unhex "300906052b0e03021a0500") = Ok "sha1"
  /\ outcome (run_digest_algorithm (unhex "300a06052b0e03021a0101ff")) = Some ParseError.
Proof. vm_compute. repeat split. Qed.

(** ** test_authenticode.py *)

(** test_pciide *)
Definition pciide_roots : list cert := carried pciide [458482885834455929323548; 458198882086554504790027].
Example pciide_decoded : length (fst (run_iter false pciide)) = 1%nat /\ snd (run_iter false pciide) = None.
Proof. vm_compute. split; reflexivity. Qed.
Check (run_verify today "any" None None pciide_roots pciide
       ==> (Some 1%nat, None)).
(** test_modified_pciide_fails *)
Check (run_verify today "any" None None pciide_roots (patch 1024 x03 pciide)
       ==> (None, Some AuthenticodeInvalidDigestError)).
(** test_provide_hash *)
Example pciide_wrong_hash :
  run_verify today "any" (Some [("sha1", list_byte_of_string "asdf")]) None [] pciide
  = (None, Some AuthenticodeInvalidDigestError).
Proof. vm_compute. reflexivity. Qed.

(** test_simple *)
Example simple_not_signed :
  run_verify today "any" None None [] simple = (None, Some AuthenticodeNotSignedError)
  /\ option_map e_class (snd (run_iter false simple)) = Some SignedPEParseError.
Proof. vm_compute. split; reflexivity. Qed.

(** test_2A6E *)
Check (run_verify today "any" None None [] t2A6E
       ==> (None, Some CertificateVerificationError)).

(** test_multiple_signatures_all_valid (the signatures are verified in
    ExampleMultiple.v), with the file's hashes provided. *)
Definition sigcheck_hashes : dict bytes :=
  [("sha1", unhex "dfbdc3905728da39d9f74d857ac1d228a0ac0218");
   ("sha256", unhex "a74a343be2234235f57f21b794fdbd379f246a388f7b17bf21cd1d26ece699ef")].
Definition sigcheck_roots : list cert :=
  carried sigcheck [459013078293037608599601; 458482885834455929323548; 458338238658674090311683; 458244876786598886244354].
Example sigcheck_decoded :
  map (fun a => (sp_digest_alg (asd_spc a), sp_digest (asd_spc a))) (fst (run_iter false sigcheck))
  = [("sha1", unhex "dfbdc3905728da39d9f74d857ac1d228a0ac0218");
     ("sha256", unhex "a74a343be2234235f57f21b794fdbd379f246a388f7b17bf21cd1d26ece699ef")]
  /\ snd (run_iter false sigcheck) = None.
Proof. vm_compute. split; reflexivity. Qed.
(** test_whois_valid_countersignature_rfc3161: the token is decoded and belongs to the signature. *)
Example whois_decoded :
  map (fun a => match asd_signer a with
                | ASI i (Some (CSToken t)) _ =>
                    (sp_digest (asd_spc a), bytes_eqb (ti_message_digest (r_tst t)) (run_hash (ti_hash_alg (r_tst t)) (si_signature i)))
                | _ => ([], false)
                end) (fst (run_iter false whois))
  = [(unhex "000111ef0c96ec458f0be466f95a931becde968a33bf1ce06979357c3355f0f8", true)].
Proof. vm_compute. reflexivity. Qed.
