(** Names that can and that cannot be decoded. *)
From Verif Require Import Base ModelX509 ModelName.

(** An RDN whose first attribute can be decoded; nothing is said about the others. *)
Inductive reads : lz_rdn -> ava -> Prop :=
| reads_first o v rest : reads (Ok (mkLzAva (Ok o) (Ok v) :: rest)) (mkAva o v).
(** An RDN whose first attribute cannot. *)
Inductive fails : lz_rdn -> exn -> Prop :=
| fails_set e : fails (Err e) e
| fails_empty m : m = "list index out of range" -> fails (Ok []) (mkExn IndexError m)
| fails_type e v rest : fails (Ok (mkLzAva (Err e) v :: rest)) e
| fails_value o e rest : fails (Ok (mkLzAva (Ok o) (Err e) :: rest)) e.

(** The decoded name of a name, up to the attributes after the first of each RDN. *)
Definition stands_for (n : lz_name) (m : name) : Prop :=
  exists l, n = Ok l /\ Forall2 (fun r q => reads r (r_first q)) l m.
(** A name that cannot be decoded, with the exception: that of the last RDN that cannot; [after]
    are the attributes of the RDNs after that one. *)
Definition broken_before (n : lz_name) (e : exn) (after : list ava) : Prop :=
  (n = Err e /\ after = []) \/
  exists front r back, n = Ok (front ++ r :: back) /\ fails r e /\ Forall2 reads back after.
Definition broken (n : lz_name) (e : exn) : Prop := exists after, broken_before n e after.
Definition sound (n : lz_name) : Prop := exists m, stands_for n m.

(** What printing a name meets: a broken RDN, or octets, with text only after it. *)
Definition is_text (a : ava) : Prop := exists u, a_val a = VStr u.
Definition unprintable (n : lz_name) (e : exn) : Prop :=
  n = Err e \/
  exists front r back after, n = Ok (front ++ r :: back) /\ Forall2 reads back after /\ Forall is_text after /\
    (fails r e \/ exists o b, reads r (mkAva o (VBytes b)) /\ e_class e = TypeError).

(** Equality of names that can be decoded: the same attributes, in order. *)
Definition same_name (a b : lz_name) : Prop :=
  exists m m', stands_for a m /\ stands_for b m' /\ rdns m = rdns m'.
Definition different_names (a b : lz_name) : Prop :=
  exists m m', stands_for a m /\ stands_for b m' /\ rdns m <> rdns m'.

(** Equality of certificates, and where it raises: names are compared before and after the serial number. *)
Definition same_certificate (a b : lz_certobj) : Prop :=
  same_name (lo_issuer a) (lo_issuer b) /\ lo_serial a = lo_serial b /\ same_name (lo_subject a) (lo_subject b) /\
  lo_alg a = lo_alg b /\ lo_params a = lo_params b /\ lo_bits a = lo_bits b.
Definition name_error (a b : lz_name) (e : exn) : Prop := broken a e \/ (sound a /\ broken b e).
Definition comparison_error (a b : lz_certobj) (e : exn) : Prop :=
  name_error (lo_issuer a) (lo_issuer b) e \/
  (same_name (lo_issuer a) (lo_issuer b) /\ lo_serial a = lo_serial b /\ name_error (lo_subject a) (lo_subject b) e).

(** The search for the signer: an issuer and a serial number. *)
Definition by_issuer (n : lz_name) (z : Z) : lz_query := mkLzQuery None (Some z) (Some n) None.

(** A name of which every attribute can be decoded. *)
Definition decoded (x : ava) : lz_ava := mkLzAva (Ok (a_oid x)) (Ok (a_val x)).
Definition wholly (n : lz_name) (m : name) : Prop :=
  n = Ok (map (fun q => Ok (map decoded (r_first q :: r_rest q))) m).
