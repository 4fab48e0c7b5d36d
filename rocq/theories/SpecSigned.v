(** Which octets are a signed file, without a bound on the depth of signatures within signatures:
    the layout of the file and its table (SpecPE.v) and the encodings of signatures
    (SpecAccepted.v). *)
From Verif Require Import Base ModelFile ModelPE SpecPE ModelPkcs7 ModelAuthenticode SpecAccepted SpecOctets.

(** The image has a certificate table, from [addr] to [lim]. *)
Definition table_at (data : bytes) (addr lim : Z) : Prop :=
  exists opt size magic len,
    SpecPE.usable data opt size magic /\ has_cert_table data opt size magic addr len /\ lim = addr + len.

(** The table cannot be read on at [p]: the header of an entry is bad, or its revision is another. *)
Definition unreadable_at (data : bytes) (lim p : Z) : Prop :=
  p < lim /\ (bad_header data lim p \/ exists e, entry_at data lim p e /\ ce_revision e <> 0x200).

(** The entries of this table, one after the other: to its end or, if parse errors are ignored, to
    where it cannot be read on. *)
Definition table_of (ign : bool) (data : bytes) (es : list cert_entry) : Prop :=
  exists addr lim last, table_at data addr lim /\ entries_at data lim addr es last /\
    (lim <= last \/ (ign = true /\ unreadable_at data lim last)).

(** The signatures encoded in the entries of the type 2; all the entries have the revision 2. *)
Inductive entries_signed : list cert_entry -> list asd -> Prop :=
| signed_none : entries_signed [] []
| signed_other c es l : ce_revision c = 0x200 -> ce_type c <> 2 -> entries_signed es l -> entries_signed (c :: es) l
| signed_one c es a la l :
    ce_revision c = 0x200 -> ce_type c = 2 -> encoded_signature true (ce_certificate c) a -> unfolds a la ->
    entries_signed es l -> entries_signed (c :: es) (la ++ l).

(** The file has these signatures, and at least one. *)
Definition signed_octets (ign : bool) (data : bytes) (l : list asd) : Prop :=
  l <> [] /\ exists es, table_of ign data es /\ entries_signed es l.
