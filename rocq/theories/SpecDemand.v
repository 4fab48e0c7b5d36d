(** What verification with names that are decoded on demand has to do with verification with names
    that have been decoded. *)
From Verif Require Import Base Monad ModelFile ModelX509 SpecX509 ModelContext SpecContext ModelPkcs7 ModelAuthenticode
  SpecAuthenticode SpecSignedPE SpecComplete SpecExact ModelName SpecName ModelDemand.

(** The names are those of the certificates and of the signers as far as they can be decoded;
    different certificates are different objects. *)
Definition faithful (U : names) : Prop :=
  (forall c, sound (n_issuer U c) -> stands_for (n_issuer U c) (c_issuer c)) /\
  (forall c, sound (n_subject U c) -> stands_for (n_subject U c) (c_subject c)) /\
  (forall i, sound (n_signer U i) -> stands_for (n_signer U i) (si_issuer i)) /\
  (forall c d, n_object U c = n_object U d -> c = d).

(** What cannot be decoded raises exceptions that have nothing to do with signify. *)
Definition raises_foreign (n : lz_name) : Prop :=
  (forall e, n = Err e -> foreign e) /\
  (forall l r e, n = Ok l -> In r l -> fails r e -> foreign e).
Definition foreign_names (U : names) : Prop :=
  (forall c, raises_foreign (n_issuer U c) /\ raises_foreign (n_subject U c)) /\
  (forall i, raises_foreign (n_signer U i)).

(** A certificate of which both names can be decoded. *)
Definition legible (U : names) (c : cert) : Prop := sound (n_issuer U c) /\ sound (n_subject U c).
Definition all_legible (U : names) : Prop := (forall c, legible U c) /\ (forall i, sound (n_signer U i)).

(** The exception of a name that cannot be decoded, when it is compared or shown. *)
Definition undecodable (U : names) (e : exn) : Prop :=
  (exists c, broken (n_issuer U c) e \/ broken (n_subject U c) e \/
             (~ sound (n_subject U c) /\ unprintable (n_subject U c) e)) \/
  (exists i, broken (n_signer U i) e).

(** ** Names that do not matter *)

(** The validator builds chains that begin with a trust root. *)
Definition rooted (E : env) : Prop :=
  forall rs t o c im ku eku b ids, e_validate E rs t o c im ku eku b = Ok ids ->
    exists i ids' d, ids = i :: ids' /\ In d rs /\ c_id d = i.
(** Every certificate in a trusted store is legible, and those that share its asn1crypto object. *)
Definition legible_object (U : names) (c : cert) : Prop := forall d, c_id d = c_id c -> legible U d.
Definition legible_trust (U : names) (w : world) : Prop :=
  forall r s, nth_error (w_stores w) r = Some s -> s_trusted s = true -> Forall (legible_object U) (contents s).
(** The name of the signer can be decoded, and those of the certificates with its serial number. *)
Definition legible_signer (U : names) (i : sinfo) : Prop :=
  sound (n_signer U i) /\ forall c, c_serial c = si_serial i -> legible U c.
Definition signer_of (c : countersigner) : sinfo := match c with CSPlain i => i | CSToken t => r_signer t end.
Definition legible_signature (U : names) (a : asd) : Prop :=
  legible_signer U (asi_info (asd_signer a)) /\
  forall c, asi_cs (asd_signer a) = Some c -> legible_signer U (signer_of c).

(** ** Names that cannot be decoded *)

(** The outcome [r] of a verification of [a] of which the outcome is [same] if all names can be decoded, and
    [alone] if moreover it has no countersignature. *)
Definition outcome_demand {A} (U : names) (v : vargs) (a : asd) (same alone r : res A) : Prop :=
  r = same \/
  (exists e, r = Err e /\ undecodable U e) \/
  (va_mode v = "strict" /\ (exists c, considered a v c) /\ (exists e, undecodable U e) /\
   exists e, r = Err e /\ e_class e = AuthenticodeCounterSignerError) \/
  (permissive (va_mode v) /\ (exists c, considered a v c) /\ (exists e, undecodable U e) /\ r = alone).

(** The signature [a] is vouched for by [P]; or, in a permissive mode, a name cannot be decoded and [P]
    holds of the signature without its countersignature. *)
Definition vouched (U : names) (v : vargs) (a : asd) (P : asd -> Prop) : Prop :=
  P a \/ (permissive (va_mode v) /\ (exists c, considered a v c) /\ (exists e, undecodable U e) /\ P (with_cs None a)).

(** The signatures [l] of a file are accepted as [out]: those that the mode chooses, all of them or one. *)
Definition vouched_file (E : env) (U : names) (w : world) (v : vargs) (expected : option (dict bytes)) (mode : string)
  (l : list asd) (out : list (asd * list (list cert))) : Prop :=
  let for_file a chains := vouched U v a (fun b => authentic_for E w v expected b chains) in
  exists sel, chosen mode l sel /\
  (conjunctive mode -> Forall2 (fun a ac => fst ac = a /\ for_file a (snd ac)) sel out) /\
  (~ conjunctive mode -> exists pre a post chains, sel = pre ++ a :: post /\ out = [(a, chains)] /\ for_file a chains).
