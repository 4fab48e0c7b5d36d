(** What the decoder of ModelDecode.v must establish for what is read from an envelope. *)
From Verif Require Import Base Monad ModelX509 ModelContext ModelPkcs7 ModelLazy ModelAuthenticode ModelLazyFile ModelDer
  ModelDecode SpecAuthenticode.

(** The decoder with another bound on the nesting. *)
Definition der_loader_with (n : nat) : lz_loader :=
  fun b =>
    let? (t, _) := parse_tlv b in
    let? c := contents_of ModelSpc.ContentInfo Untagged t in
    Ok (read_ci n c).

(** The signature [a] is that of the envelope [b], or nested in it. *)
Definition opened (b : bytes) (a : asd) : Prop :=
  exists depth pe top, lz_from_envelope der_loader depth pe b = Ok top /\ In a (recursive_nested true top).

(** [t] is the timestamp token of [a]. *)
Definition token_of (a : asd) (t : rsd) : Prop := asi_cs (asd_signer a) = Some (CSToken t).

(** [i] is the signer of [a] or of its countersignature. *)
Definition signer_of (a : asd) (i : sinfo) : Prop :=
  i = asi_info (asd_signer a) \/ exists c, asi_cs (asd_signer a) = Some c /\ i = counter_signer c.

(** The result of SignedPEFile(f).verify(...) with a decoder on demand. *)
Definition lz_verify_result (load : lz_loader) (E : env) (depth fuel : nat) (mode : string)
  (expected : option (dict bytes)) (ign : bool) (v : vargs) (w : world) : res (list (asd * list (list cert))) :=
  snd (lz_pe_open_verify load E depth fuel mode expected ign v w).

(** Different octets with the same hash. *)
Definition collides (E : env) (alg alg' : string) (x y : bytes) : Prop :=
  x <> y /\ e_hash E alg x = e_hash E alg' y.

(** A decoder that never fails: what is [foreign] with it does not come from decoding. *)
Definition silent : loader := fun _ => Ok (RawOther "data" false).
