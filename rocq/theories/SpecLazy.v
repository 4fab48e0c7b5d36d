(** What an envelope that is decoded on demand can raise when its parts are read. *)
From Verif Require Import Base ModelX509 ModelPkcs7 ModelLazy.

Section Reads.
  (** The exceptions that reading may raise. *)
  Variable P : exn -> Prop.

  (** Reading gives a value all of whose parts are as [Q] says, or raises such an exception. *)
  Definition reads {A} (Q : A -> Prop) (r : res A) : Prop :=
    match r with Ok a => Q a | Err e => P e end.
  Definition reads_any {A} (r : res A) : Prop := reads (fun _ => True) r.

  Definition reads_alg (a : lz_algid) : Prop := reads_any (la_name a) /\ reads_any (la_params a).
  Definition reads_sid (s : lz_sid) : Prop :=
    match s with LzIssuerSerial i n => reads_any i /\ reads_any n | LzKeyIdentifier => True end.
  Definition reads_image (o : option lz_image) : Prop :=
    match o with Some m => reads_any (lm_flags m) /\ reads_any (lm_file m) | None => True end.
  Definition reads_accuracy (o : option lz_accuracy) : Prop :=
    match o with
    | Some y => reads_any (ly_seconds y) /\ reads_any (ly_millis y) /\ reads_any (ly_micros y)
    | None => True
    end.
  Definition reads_tsa (t : lz_tsa) : Prop :=
    match t with LzTsaDirectory n => reads_any n | _ => True end.
  Definition reads_value (v : lz_value) : Prop :=
    match v with
    | LVSpc s => reads_any (lp_type s) /\ reads reads_image (lp_value s) /\
                 reads reads_alg (lp_digest_alg s) /\ reads_any (lp_digest s)
    | LVTst t => reads_any (lt_version t) /\ reads_any (lt_policy t) /\ reads reads_alg (lt_hash_alg t) /\
                 reads_any (lt_hashed_message t) /\ reads_any (lt_serial t) /\ reads_any (lt_gen_time t) /\
                 reads reads_accuracy (lt_accuracy t) /\ reads reads_tsa (lt_tsa t)
    | LVNone => True
    end.
  Definition reads_cert (c : lz_cert) : Prop :=
    reads_any (lc_signature_algorithm c) /\ reads_any (lc_signature_value c) /\ reads_any (lc_tbs c) /\
    reads_any (lc_version c) /\ reads_any (lc_serial c) /\ reads_any (lc_issuer c) /\
    reads_any (lc_not_before c) /\ reads_any (lc_not_after c) /\ reads_any (lc_subject c) /\
    reads_any (lc_key_algorithm c) /\ reads_any (lc_key_parameters c) /\ reads_any (lc_key_bits c) /\
    reads_any (lc_extensions c).
  Definition reads_choice (c : lz_choice) : Prop :=
    match c with LzCertificate x => reads_cert x | LzOtherChoice _ => True end.
  Definition reads_opus (o : lz_opus) : Prop :=
    reads_any (lu_program_name o) /\ reads_any (lu_more_info o) /\ reads_any (lu_publisher_info o).

  (** [Q] of every element, by recursion on the list. *)
  Definition every_one {A} (Q : A -> Prop) : list A -> Prop :=
    fix all (l : list A) : Prop := match l with [] => True | a :: l' => Q a /\ all l' end.

  Fixpoint reads_attr (a : lz_attr) : Prop :=
    match a with
    | LContentType v => reads (every_one reads_any) v
    | LMessageDigest v => reads (every_one reads_any) v
    | LSigningTime v => reads (every_one reads_any) v
    | LCounterSignature v => reads (every_one reads_si) v
    | LStatementType v => reads (every_one reads_any) v
    | LOpusInfo v => reads (every_one reads_opus) v
    | LNestedSignature v => reads (every_one reads_ci) v
    | LTimeStampToken v => reads (every_one reads_ci) v
    | LOther _ n => reads_any n
    end
  with reads_si (r : lz_si) : Prop :=
    match r with
    | LzSI sid dalg signed _ salg signature unsigned =>
        reads reads_sid sid /\ reads reads_alg dalg /\ reads (every_one (reads reads_attr)) signed /\
        reads_any salg /\ reads_any signature /\ reads (every_one (reads reads_attr)) unsigned
    end
  with reads_ci (c : lz_ci) : Prop :=
    match c with LzCI t x => reads_any t /\ reads reads_content_of x end
  with reads_content_of (x : lz_content_of) : Prop :=
    match x with LzSigned s => reads_sd s | LzOther _ => True end
  with reads_sd (r : lz_sd) : Prop :=
    match r with
    | LzSD algs ct content certs crls signers =>
        reads (every_one reads_alg) algs /\ reads_any ct /\
        reads (fun c => reads reads_value (lo_value c)) content /\
        reads (every_one (reads reads_choice)) certs /\ reads_any crls /\
        reads (every_one reads_si) signers
    end.
End Reads.
