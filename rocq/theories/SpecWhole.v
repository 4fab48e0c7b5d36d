(** Statements about whole verifications: which exceptions can leave them, what they leave
    behind, and what changes to a file they notice. *)
From Verif Require Import Base Monad ModelFile ModelFingerprint ModelPE SpecFingerprint SpecPE
  ModelX509 SpecX509 ModelContext SpecContext ModelPkcs7 ModelAuthenticode SpecAuthenticode SpecSignedPE.

(** ** Exceptions *)

(** The exception [e] comes from outside: from the ASN.1 decoder, from loading a key, from
    setting up a validation or from loading a store.  Of those of verifying a signature and of
    validating a chain, only the ones that are no Exception get through. *)
Inductive foreign (load : loader) (E : env) (stores : list store) (e : exn) : Prop :=
| foreign_load b : load b = Err e -> foreign load E stores e
| foreign_key k : e_load_key E k = Err e -> foreign load E stores e
| foreign_rsa k s d h :
    e_rsa_verify E k s d h = Err e -> issubclass (e_class e) Exception_ = false -> foreign load E stores e
| foreign_dsa k s d h :
    e_dsa_verify E k s d h = Err e -> issubclass (e_class e) Exception_ = false -> foreign load E stores e
| foreign_ecdsa k s d h :
    e_ecdsa_verify E k s d h = Err e -> issubclass (e_class e) Exception_ = false -> foreign load E stores e
| foreign_setup ts m o c is : e_mk_validation E ts m o c is = Err e -> foreign load E stores e
| foreign_validate ts m o c is ku eku b :
    e_validate E ts m o c is ku eku b = Err e -> issubclass (e_class e) Exception_ = false ->
    foreign load E stores e
| foreign_store s l cs :
    In s stores -> s_location s = Some l -> In (cs, Some e) l -> foreign load E stores e.

(** The classes that parsing a signature raises by itself. *)
Definition parse_errors : list exc_class :=
  [ParseError; SignerInfoParseError; AuthenticodeParseError;
   KeyError; TypeError; RecursionError; AssertionError; NotImplementedError; OverflowError].
(** The classes that verifying one raises by itself. *)
Definition verify_errors : list exc_class :=
  [AuthenticodeInconsistentDigestAlgorithmError; AuthenticodeInvalidDigestError;
   AuthenticodeCounterSignerError; SignerInfoVerificationError; CertificateVerificationError;
   CTLCertificateVerificationError; CertificateTrustListParseError; KeyError; TypeError; IndexError].

(** References that the arguments and the contexts of a world hold are not dangling. *)
Definition well_formed (w : world) (v : vargs) : Prop :=
  (va_trusted v < length (w_stores w))%nat /\
  (forall x, va_context v = Some x -> (x < length (w_contexts w))%nat) /\
  (forall y, va_cs_context v = Some y -> (y < length (w_contexts w))%nat) /\
  (forall cx r, In cx (w_contexts w) -> In r (x_stores cx) -> (r < length (w_stores w))%nat).
