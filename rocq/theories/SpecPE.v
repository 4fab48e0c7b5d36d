(** The PE/COFF facts signify relies on, stated on the byte string itself. *)
From Verif Require Import Base ModelFile ModelFingerprint ModelPE SpecFingerprint.

(** Little-endian fields. *)
Definition u16 (data : bytes) (off : Z) : Z := le_to_Z (zslice off (off + 2) data).
Definition u32 (data : bytes) (off : Z) : Z := le_to_Z (zslice off (off + 4) data).

(** [data] is a usable image: MZ and PE signatures, a known magic, and an optional header
    of [size] bytes at [opt] that fits and is large enough to hold the checksum. *)
Definition usable (data : bytes) (opt size magic : Z) : Prop :=
  64 <= zlen data /\
  zslice 0 2 data = list_byte_of_string "MZ" /\
  zslice (u32 data 60) (u32 data 60 + 4) data = [x50; x45; x00; x00] /\
  opt = u32 data 60 + 24 /\
  size = u16 data (opt - 4) /\
  opt + size <= zlen data /\ 68 <= size /\
  magic = u16 data opt /\ (magic = 0x10B \/ magic = 0x20B).

(** Offsets that depend on the magic (PE32 / PE32+). *)
Definition rva_off (magic : Z) : Z := if magic =? 0x10B then 92 else 108.
Definition dir_off (magic : Z) : Z := if magic =? 0x10B then 128 else 144.

(** The image has a certificate table entry in its data directory. *)
Definition has_dir_entry (data : bytes) (opt size magic : Z) : Prop :=
  rva_off magic + 4 <= size /\ dir_off magic + 8 <= size /\ 5 <= u32 data (opt + rva_off magic).

(** ... which describes a certificate table [addr, addr+len). *)
Definition has_cert_table (data : bytes) (opt size magic addr len : Z) : Prop :=
  has_dir_entry data opt size magic /\
  addr = u32 data (opt + dir_off magic) /\ len = u32 data (opt + dir_off magic + 4) /\
  len <> 0 /\ opt + size <= addr /\ addr + len <= zlen data.

(** Is index [i] inside one of the sections? *)
Definition in_section (i : Z) (s : relrange) : bool :=
  (rel_start s <=? i) && (i <? rel_start s + rel_length s).
Definition omitted (secs : list relrange) (i : Z) : bool := existsb (in_section i) secs.

(** The bytes of [data] (whose first byte has index [i]) that are outside the sections. *)
Fixpoint kept_from (i : Z) (secs : list relrange) (data : bytes) : bytes :=
  match data with
  | [] => []
  | b :: data' => if omitted secs i then kept_from (i + 1) secs data'
                  else b :: kept_from (i + 1) secs data'
  end.
Definition kept (secs : list relrange) (data : bytes) : bytes := kept_from 0 secs data.

(** WIN_CERTIFICATE encoding of one entry, without and with padding to 8 bytes. *)
Definition enc_entry (e : cert_entry) : bytes :=
  Z_to_le 4 (8 + zlen (ce_certificate e)) ++ Z_to_le 2 (ce_revision e) ++
  Z_to_le 2 (ce_type e) ++ ce_certificate e.
Definition enc_padded (e : cert_entry) : bytes :=
  enc_entry e ++ repeat x00 (Z.to_nat ((8 - zlen (enc_entry e) mod 8) mod 8)).
Definition enc_table (es : list cert_entry) : bytes := concat (map enc_padded es).

Definition encodable (e : cert_entry) : Prop :=
  0 <= ce_revision e < 65536 /\ 0 <= ce_type e < 65536 /\
  0 < zlen (ce_certificate e) /\ 8 + zlen (ce_certificate e) < 2 ^ 32.


(** [SignedPEFile(f).get_authenticode_omit_sections()] *)
Definition omit_sections (f : file) : file * res (option (dict relrange)) :=
  let (f', flen) := signed_pe_init f in get_authenticode_omit_sections flen f'.

(** A section lies in a file of [len] bytes and is not empty; one lies before another. *)
Definition section_in (len : Z) (s : relrange) : Prop :=
  0 <= rel_start s /\ 0 < rel_length s /\ rel_start s + rel_length s <= len.
Definition before (a b : relrange) : Prop := rel_start a + rel_length a <= rel_start b.

(** How many of the first [n] offsets are omitted. *)
Fixpoint omitted_before (secs : list relrange) (n : nat) : nat :=
  match n with
  | O => O
  | S n' => ((if omitted secs (Z.of_nat n') then 1 else 0) + omitted_before secs n')%nat
  end.

(** [e] is the certificate table entry at offset [p], inside a table ending at [lim]. *)
Definition entry_at (data : bytes) (lim p : Z) (e : cert_entry) : Prop :=
  let len := u32 data p in
  8 < len /\ p + len <= lim /\
  e = mkEntry (u16 data (p + 4)) (u16 data (p + 6)) (zslice (p + 8) (p + len) data).

(** The entries found from offset [p] on, each starting at the first multiple of 8 bytes
    after its predecessor, up to offset [last]. *)
Fixpoint entries_at (data : bytes) (lim p : Z) (es : list cert_entry) (last : Z) : Prop :=
  match es with
  | [] => p = last
  | e :: es' => p < lim /\ entry_at data lim p e /\
                entries_at data lim (p + 8 * ((u32 data p + 7) / 8)) es' last
  end.

(** The header at [p] runs past the table or the file, or declares a length of 8 or less. *)
Definition bad_header (data : bytes) (lim p : Z) : Prop :=
  zlen data < p + 8 \/ u32 data p <= 8 \/ lim < p + u32 data p.

(** Exhausting the generator while other users of the file object act on it before every
    step. *)
Fixpoint walk_interleaved (act : nat -> file -> file) (k fuel : nat) (flen : Z)
    (g : cert_gen) (f : file) : option (list cert_entry * option exn) :=
  match fuel with
  | O => None
  | S fuel' =>
    match cert_table_next flen g (act k f) with
    | (_, Err e) => Some ([], Some e)
    | (_, Ok (_, None)) => Some ([], None)
    | (f', Ok (g', Some e)) =>
      match walk_interleaved act (S k) fuel' flen g' f' with
      | None => None
      | Some (es, x) => Some (e :: es, x)
      end
    end
  end.

(** [list(pe._parse_cert_table())] *)
Definition cert_table (fuel : nat) (f : file) : option (list cert_entry * option exn) :=
  let (f', flen) := signed_pe_init f in
  option_map snd (cert_table_walk fuel flen GStart f').

(** The bytes an entry occupies, header included, without padding. *)
Definition extent (p : Z) (e : cert_entry) : relrange := mkRel p (8 + zlen (ce_certificate e)).

(** The same table encoding, but the last entry may lack its padding. *)
Definition table_encoding (es : list cert_entry) (table : bytes) : Prop :=
  table = enc_table es \/
  exists es' e, es = es' ++ [e] /\ table = enc_table es' ++ enc_entry e.
