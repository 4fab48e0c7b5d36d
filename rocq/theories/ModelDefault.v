(** The stores that signify/authenticode/structures.py creates when it is imported, and
    SignedPEFile(f).verify() without arguments.  No proofs in this file. *)
From Verif Require Import Base Monad ModelFile ModelX509 ModelContext ModelPkcs7 ModelLazy ModelCtl ModelAuthenticode ModelLazyFile ModelDer ModelDecode ModelStl ModelPem.

(** [TRUSTED_CERTIFICATE_STORE], structures.py:72-76: the files of the directory that mscerts
    names, and the trust list in the file that it names ([stl] is what reading it gives,
    authroot.py:157-171; [files] as for [location_of]).  An error is one of the import. *)
Definition default_store (stl : res bytes) (files : list (res bytes)) : res store :=
  let? data := stl in
  let? t := der_from_stl_file data in
  Ok (mkStore [] true (Some (tl_ctl t)) (Some (location_of files)) false).

(** The defaults of VerificationContext(), context.py:169-182.  Simplified: None is the empty
    list for CRLs and OCSP responses. *)
Definition default_kwargs : ctx_kwargs :=
  mkKwargs None None true (mkVopts true "soft-fail" false 30 [] []) true.
(** Those of [AuthenticodeSignedData.verify], structures.py:427-436; the store is the first of the
    world. *)
Definition default_args : vargs := mkVargs None None 0 default_kwargs "strict".

(** [SignedPEFile(f).verify()] after the import, signed_pe.py:362-369, with the defaults for the
    mode, the hashes and parse errors; [depth] and [fuel] as in ModelLazyFile.v. *)
Definition default_verify (E : env) (depth fuel : nat) (stl : res bytes) (files : list (res bytes)) (f : file)
  : res (list (asd * list (list cert))) :=
  let? s := default_store stl files in
  snd (lz_pe_open_verify der_loader E depth fuel "any" None true default_args (mkWorld [s] [] f)).
