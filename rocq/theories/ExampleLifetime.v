(** test_lifetime_signing of the repository, run in the model: see ExampleRepo.v. *)
From Verif Require Import Base Monad ModelFile ModelFingerprint ModelPE ModelX509 ModelContext ModelPkcs7 ModelLazy
  ModelAuthenticode ModelLazyFile ModelDer ModelSpc ModelDecode ExampleData ExampleEnv ExampleRepo.

(** test_lifetime_signing: the signature is countersigned, but its certificate has the usage
    for lifetime signing. *)
Definition kdbazis_roots : list cert :=
  match cert_from_der (unhex_lines kdbazis_crt_hex) with Ok c => [c] | Err _ => [] end
  ++ carried kdbazis [14129007222345747367286704854105834005].
Check (run_verify today "any" None (Some (Aware (midnight 2024 1 1))) kdbazis_roots kdbazis
       ==> (Some 1%nat, None)).
Check (run_verify today "any" None (Some (Aware (midnight 2060 1 1))) kdbazis_roots kdbazis
       ==> (None, Some CertificateVerificationError)).

