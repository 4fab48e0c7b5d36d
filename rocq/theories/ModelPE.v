(** Model of signify/authenticode/signed_pe.py:61-249 and of
    AuthenticodeFingerprinter (signify/fingerprinter.py:272-296). *)
From Verif Require Import Base Monad ModelFile ModelFingerprint.

(** signify/authenticode/signed_pe.py:52 *)
Record relrange := mkRel { rel_start : Z; rel_length : Z }.

(** [self.file.seek(z, os.SEEK_SET)] and [self.file.read(n)] *)
Definition fseek (z : Z) : M file unit := file_seek z.
Definition fread (n : Z) : M file bytes :=
  fun f => let (f', b) := file_read n f in (f', Ok b).

(** [struct.unpack("<H" / "<I", b)[0]]: little endian, [n] = 2 / 4 bytes; any other length
    raises struct.error. *)
Definition unpack (n : Z) (b : bytes) : res Z :=
  if zlen b =? n then Ok (le_to_Z b)
  else raise StructError "unpack requires a buffer of n bytes".

(** [struct.unpack("<II", b)] *)
Definition unpack_II (b : bytes) : res (Z * Z) :=
  if zlen b =? 8 then Ok (le_to_Z (zslice 0 4 b), le_to_Z (zslice 4 8 b))
  else raise StructError "unpack requires a buffer of 8 bytes".

Definition MZ_sig : bytes := list_byte_of_string "MZ".
Definition PE_sig : bytes := [x50; x45; x00; x00].

Definition pe_fail {A} (m : string) : M file A := mraise SignedPEParseError m.

(** signify/authenticode/signed_pe.py:99-214.  [flen] is [self._filelength].  Log messages
    and the numbers in error messages are left out. *)
Definition parse_pe_header_locations (flen : Z) : M file (dict relrange) :=
  fseek 0 ;;
  do mz <- fread 2 ;
  if negb (bytes_eqb mz MZ_sig) then pe_fail "MZ header not found" else
  fseek 60 ;;
  do b <- fread 4 ;
  do pe_offset <- mres (unpack 4 b) ;
  if flen <=? pe_offset then pe_fail "PE header location is beyond file boundaries" else
  fseek pe_offset ;;
  do pe <- fread 4 ;
  if negb (bytes_eqb pe PE_sig) then pe_fail "PE header not found" else
  fseek (pe_offset + 20) ;;
  do b <- fread 2 ;
  do optional_header_size <- mres (unpack 2 b) ;
  let optional_header_offset := pe_offset + 24 in
  if flen <? optional_header_size + optional_header_offset then
    pe_fail "The optional header exceeds the file length" else
  if optional_header_size <? 68 then
    pe_fail "The optional header size is insufficient for authenticode" else
  fseek optional_header_offset ;;
  do b <- fread 2 ;
  do signature <- mres (unpack 2 b) ;
  do bases <- (if signature =? 0x10B then
                 mret (optional_header_offset + 92, optional_header_offset + 128)
               else if signature =? 0x20B then
                 mret (optional_header_offset + 108, optional_header_offset + 144)
               else pe_fail "The PE Optional Header signature is unknown") ;
  let '(rva_base, cert_base) := bases in
  let location := [("checksum", mkRel (optional_header_offset + 64) 4)] in
  if optional_header_offset + optional_header_size <? rva_base + 4 then mret location else
  fseek rva_base ;;
  do b <- fread 4 ;
  do number_of_rva <- mres (unpack 4 b) ;
  if number_of_rva <? 5 then mret location else
  if optional_header_offset + optional_header_size <? cert_base + 8 then mret location else
  let location := dict_set "datadir_certtable" (mkRel cert_base 8) location in
  fseek cert_base ;;
  do b <- fread 8 ;
  do address_size <- mres (unpack_II b) ;
  let '(address, size) := address_size in
  if size =? 0 then mret location else
  if (address <? optional_header_size + optional_header_offset) || (flen <? address + size)
  then mret location
  else mret (dict_set "certtable" (mkRel address size) location).

(** signify/authenticode/signed_pe.py:74-97.  [None] is Python's None. *)
Definition get_authenticode_omit_sections (flen : Z) : M file (option (dict relrange)) :=
  mtry
    (do locations <- parse_pe_header_locations flen ;
     mret (Some (filter
       (fun kv => str_mem (fst kv) ["checksum"; "datadir_certtable"; "certtable"]) locations)))
    (fun e => catches SignedPEParseError e || catches StructError e)
    (fun _ => mret None).

(** signify/authenticode/signed_pe.py:62-72: the object's [_filelength] (and the file after
    the constructor). *)
Definition signed_pe_init (f : file) : file * Z :=
  let f' := file_seek_end f in (f', f_pos f').

(** One entry of the certificate table, signify/authenticode/signed_pe.py:55-58. *)
Record cert_entry := mkEntry { ce_revision : Z; ce_type : Z; ce_certificate : bytes }.

(** A suspended [_parse_cert_table] generator: not started, suspended at the [yield] with
    the position of the next entry already known, or finished. *)
Inductive cert_gen : Type :=
| GStart
| GAt (position certtable_end : Z)
| GDone.

(** The loop body of signify/authenticode/signed_pe.py:227-249 up to the [yield]: the
    entry and the position after it. *)
Definition cert_table_entry (flen position certtable_end : Z) : M file (cert_entry * Z) :=
  if flen <? position + 8 then
    pe_fail "Position of certificate table is beyond length of file" else
  fseek position ;;
  do b <- fread 4 ;
  do len <- mres (unpack 4 b) ;
  do b <- fread 2 ;
  do revision <- mres (unpack 2 b) ;
  do b <- fread 2 ;
  do certificate_type <- mres (unpack 2 b) ;
  if (len <=? 8) || (certtable_end <? position + len) then
    pe_fail "Invalid length in certificate table header" else
  do certificate <- fread (len - 8) ;
  mret (mkEntry revision certificate_type certificate,
        position + (len + (8 - len mod 8) mod 8)).

Definition cert_table_loop (flen position certtable_end : Z) : M file (cert_gen * option cert_entry) :=
  if position <? certtable_end then
    do r <- cert_table_entry flen position certtable_end ;
    mret (GAt (snd r) certtable_end, Some (fst r))
  else mret (GDone, None).

(** [next(generator)] for signify/authenticode/signed_pe.py:216-249.  [None] is
    StopIteration.  A generator that raised is finished. *)
Definition cert_table_next (flen : Z) (g : cert_gen) : M file (cert_gen * option cert_entry) :=
  match g with
  | GDone => mret (GDone, None)
  | GAt position certtable_end => cert_table_loop flen position certtable_end
  | GStart =>
    do locations <- get_authenticode_omit_sections flen ;
    match locations with
    | None => pe_fail "The PE file does not contain a certificate table."
    | Some locs =>
      match dict_get "certtable" locs with
      | None => pe_fail "The PE file does not contain a certificate table."
      | Some ct => cert_table_loop flen (rel_start ct) (rel_start ct + rel_length ct)
      end
    end
  end.

(** Exhausting the generator: the entries, and the exception that ended it, if any.
    [None] = not finished after [fuel] steps. *)
Fixpoint cert_table_walk (fuel : nat) (flen : Z) (g : cert_gen) (f : file)
    : option (file * (list cert_entry * option exn)) :=
  match fuel with
  | O => None
  | S fuel' =>
    match cert_table_next flen g f with
    | (f', Err e) => Some (f', ([], Some e))
    | (f', Ok (_, None)) => Some (f', ([], None))
    | (f', Ok (g', Some e)) =>
      match cert_table_walk fuel' flen g' f' with
      | None => None
      | Some (f'', (es, x)) => Some (f'', (e :: es, x))
      end
    end
  end.

(** [sorted(omit.values())]: tuples are compared lexicographically. *)
Definition rel_leb (a b : relrange) : bool :=
  (rel_start a <? rel_start b) ||
  ((rel_start a =? rel_start b) && (rel_length a <=? rel_length b)).
Fixpoint rel_insert (x : relrange) (l : list relrange) : list relrange :=
  match l with
  | [] => [x]
  | y :: l' => if rel_leb x y then x :: l else y :: rel_insert x l'
  end.
Definition rel_sort (l : list relrange) : list relrange := fold_right rel_insert [] l.

(** signify/fingerprinter.py:288-293 *)
Fixpoint gap_ranges (start : Z) (secs : list relrange) (flen : Z) : list range :=
  match secs with
  | [] => [mkRange start flen]
  | s :: secs' => mkRange start (rel_start s) :: gap_ranges (rel_start s + rel_length s) secs' flen
  end.

(** signify/fingerprinter.py:277-296 *)
Definition add_authenticode_hashers (st : fpst) (hashers : list string) : fpst * res bool :=
  let (f1, flen) := signed_pe_init (fp_file st) in
  match get_authenticode_omit_sections flen f1 with
  | (f2, Err e) => (with_file st f2, Err e)
  | (f2, Ok None) => (with_file st f2, Ok false)
  | (f2, Ok (Some omit)) =>
    let st := with_file st f2 in
    let ranges := gap_ranges 0 (rel_sort (map snd omit)) (fp_len st) in
    let st := with_heap st (fp_heap st ++ [ranges]) in
    (add_hashers st hashers (Some (length (fp_heap st) - 1)%nat) "authentihash", Ok true)
  end.
