(** Looking up components of names: vocabulary. *)
From Verif Require Import Base ModelX509 SpecX509.

(** The short labels of attribute types, RFC 4514 section 3, and EMAIL. *)
Definition short_label (oid label : string) : Prop :=
  In (label, oid)
    [("CN", "2.5.4.3"); ("C", "2.5.4.6"); ("L", "2.5.4.7"); ("ST", "2.5.4.8"); ("STREET", "2.5.4.9");
     ("O", "2.5.4.10"); ("OU", "2.5.4.11"); ("DC", "0.9.2342.19200300.100.1.25"); ("EMAIL", "1.2.840.113549.1.9.1")].

(** The names that the decoder has for attribute types are neither short labels nor object
    identifiers of other types. *)
Definition separate_names (native : string -> string) : Prop :=
  forall oid, dotted oid -> (forall o l, short_label o l -> native oid <> l) /\ (dotted (native oid) -> native oid = oid).

(** A type can be given as object identifier, by the name of the decoder, or by its label. *)
Definition denotes (native : string -> string) (t oid : string) : Prop :=
  t = oid \/ t = native oid \/ short_label oid t.

(** The values of the first attributes whose type satisfies [P], the last RDN first. *)
Inductive values_of (P : string -> Prop) : name -> list nval -> Prop :=
| values_nil : values_of P [] []
| values_take n r vs : P (a_oid (r_first r)) -> values_of P n vs -> values_of P (n ++ [r]) (a_val (r_first r) :: vs)
| values_skip n r vs : ~ P (a_oid (r_first r)) -> values_of P n vs -> values_of P (n ++ [r]) vs.
