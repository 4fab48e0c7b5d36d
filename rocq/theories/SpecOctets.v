(** What the octets of a signed file say, from its headers to the signatures in it, stated with
    the specifications of its parts: the layout (SpecPE.v), the table (SpecPE.v), the envelopes
    (SpecEnvelope.v) and the signatures (SpecPkcs7.v). *)
From Verif Require Import Base ModelFile ModelPE SpecPE ModelX509 ModelContext ModelPkcs7 ModelLazy ModelAuthenticode ModelLazyFile
  ModelDecode SpecPkcs7 SpecSignedPE SpecDer SpecEnvelope.

(** The file has a certificate table with these entries. *)
Definition tabulates (data : bytes) (es : list cert_entry) : Prop :=
  exists opt size magic addr len,
    SpecPE.usable data opt size magic /\ has_cert_table data opt size magic addr len /\
    Forall encodable es /\ table_encoding es (zslice addr (addr + len) data).

(** The octets are an Authenticode signature that reads as [a]; [depth] levels of signatures within
    each other can be read. *)
Definition holds_signature (depth : nat) (b : bytes) (a : asd) : Prop :=
  exists r, says b (RawSigned r) /\ asd_reads true r a /\ (height_sd r <= depth)%nat.

(** A signature and those nested in it, in order. *)
Inductive unfolds : asd -> list asd -> Prop :=
| unfolds_intro d s i cs nested pe ls :
    Forall2 unfolds nested ls -> unfolds (ASD d s (ASI i cs nested) pe) (ASD d s (ASI i cs nested) pe :: concat ls).

(** The signatures in the entries of the type 2. *)
Inductive entries_hold (depth : nat) : list cert_entry -> list asd -> Prop :=
| entries_none : entries_hold depth [] []
| entries_other c es l : ce_revision c = 0x200 -> ce_type c <> 2 -> entries_hold depth es l -> entries_hold depth (c :: es) l
| entries_signature c es a la l :
    ce_revision c = 0x200 -> ce_type c = 2 -> holds_signature depth (ce_certificate c) a -> unfolds a la ->
    entries_hold depth es l -> entries_hold depth (c :: es) (la ++ l).

(** The file has the signatures [l], and at least one. *)
Definition signed_file (depth : nat) (data : bytes) (l : list asd) : Prop :=
  l <> [] /\ exists es, tabulates data es /\ entries_hold depth es l.

(** The result of a verification of octets, whatever the number of steps allowed for loops, if it is
    large enough. *)
Definition octets_settle (E : env) (depth : nat) (expected : option (dict bytes)) (ign : bool) (v : vargs)
  (mode : string) (w : world) (r : res (list (asd * list (list cert)))) : Prop :=
  exists N, forall fuel, (N <= fuel)%nat -> lz_verify_result der_loader E depth fuel mode expected ign v w = r.
(** The iteration over a file. *)
Definition octets_iterate (depth : nat) (ign : bool) (fuel : nat) (f : file) : option (list asd * option exn) :=
  let (f', flen) := signed_pe_init f in
  option_map snd (lz_iter_signed_datas der_loader depth true ign fuel flen f').
