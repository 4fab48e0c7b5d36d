(** The repository's tests of files with several signatures, run in the model: see ExampleRepo.v. *)
From Verif Require Import Base Monad ModelFile ModelFingerprint ModelPE ModelX509 ModelContext ModelPkcs7 ModelLazy
  ModelAuthenticode ModelLazyFile ModelDer ModelSpc ModelDecode ExampleData ExampleEnv ExampleRepo.

(** test_multiple_signatures_all_valid *)
Check (run_verify today "first" (Some sigcheck_hashes) None sigcheck_roots sigcheck
       ==> (Some 1%nat, None)).
(** test_multiple_signatures_invalid_sha1 *)
Definition sigcheck_sha1_patched : bytes := patch (1024 + 105) xde sigcheck.
Check (run_verify today "all" (Some sigcheck_hashes) None sigcheck_roots sigcheck_sha1_patched
       ==> (None, Some AuthenticodeInvalidDigestError)).
Check (run_verify today "first" (Some sigcheck_hashes) None sigcheck_roots sigcheck_sha1_patched
       ==> (None, Some AuthenticodeInvalidDigestError)).
Check (run_verify today "best" (Some sigcheck_hashes) None sigcheck_roots sigcheck_sha1_patched
       ==> (Some 1%nat, None)).
(** test_multiple_signatures_invalid_sha256 *)
Definition sigcheck_sha256_patched : bytes := patch (1024 + 6927) xa6 sigcheck.
Check (run_verify today "best" (Some sigcheck_hashes) None sigcheck_roots sigcheck_sha256_patched
       ==> (None, Some AuthenticodeInvalidDigestError)).

