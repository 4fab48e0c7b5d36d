(** Reading PEM: [Certificate.from_pems] (certificates.py:166-177) over asn1crypto.pem.unarmor
    and base64.b64decode, which are modelled as they are in asn1crypto 1.5 and CPython 3.
    Simplified: binascii.Error and UnicodeDecodeError are the ValueErrors that they are. *)
From Verif Require Import Base Bytes ModelX509 ModelContext ModelDer ModelDecode.

(** ** base64.b64decode *)

(** The value of a character of the alphabet. *)
Definition sextet (c : byte) : option Z :=
  let z := Z_of_byte c in
  if (65 <=? z) && (z <=? 90) then Some (z - 65)
  else if (97 <=? z) && (z <=? 122) then Some (z - 71)
  else if (48 <=? z) && (z <=? 57) then Some (z + 4)
  else if z =? 43 then Some 62
  else if z =? 47 then Some 63
  else None.
(** binascii.a2b_base64: [pos] characters of a group of four were read, [acc] holds their bits
    that are not in an octet yet, [pads] counts the padding.  Other characters are skipped, and so
    is everything after the padding. *)
Fixpoint a2b_base64 (pos acc pads : Z) (b : bytes) : res bytes :=
  match b with
  | [] => if pos =? 0 then Ok [] else value_error "Incorrect padding"
  | c :: b' =>
      if Z_of_byte c =? 61 then
        if 2 <=? pos then
          if 4 <=? pos + (pads + 1) then Ok [] else a2b_base64 pos acc (pads + 1) b'
        else a2b_base64 pos acc pads b'
      else
        match sextet c with
        | None => a2b_base64 pos acc pads b'
        | Some v =>
            if pos =? 0 then a2b_base64 1 v 0 b'
            else if pos =? 1 then
              let? r := a2b_base64 2 (v mod 16) 0 b' in Ok (byte_of_Z (acc * 4 + v / 16) :: r)
            else if pos =? 2 then
              let? r := a2b_base64 3 (v mod 4) 0 b' in Ok (byte_of_Z (acc * 16 + v / 4) :: r)
            else
              let? r := a2b_base64 0 0 0 b' in Ok (byte_of_Z (acc * 64 + v) :: r)
        end
  end.
Definition b64decode (b : bytes) : res bytes := a2b_base64 0 0 0 b.

(** ** asn1crypto.pem.unarmor *)

(** [splitlines] without the empty lines, which are skipped: [cur] is the line so far. *)
Definition newline (c : byte) : bool := (Z_of_byte c =? 10) || (Z_of_byte c =? 13).
Fixpoint lines_from (cur b : bytes) : list bytes :=
  match b with
  | [] => match cur with [] => [] | _ => [cur] end
  | c :: b' =>
      if newline c then match cur with [] => lines_from [] b' | _ => cur :: lines_from [] b' end
      else lines_from (cur ++ [c]) b'
  end.
Definition lines_of (b : bytes) : list bytes := lines_from [] b.

Fixpoint starts_with (p b : bytes) : bool :=
  match p, b with
  | [], _ => true
  | x :: p', y :: b' => Byte.eqb x y && starts_with p' b'
  | _ :: _, [] => false
  end.
Definition ascii (s : string) : bytes := list_byte_of_string s.
(** [\[A-Z0-9 \]] *)
Definition label_char (c : byte) : bool :=
  let z := Z_of_byte c in ((65 <=? z) && (z <=? 90)) || ((48 <=? z) && (z <=? 57)) || (z =? 32).
(** [\[A-Z0-9 \]+(?: ----|-----)] at the start of [b]; [some] tells whether there was a character. *)
Fixpoint label_match (some : bool) (b : bytes) : bool :=
  (some && (starts_with (ascii " ----") b || starts_with (ascii "-----") b)) ||
  match b with
  | [] => false
  | c :: b' => label_char c && label_match true b'
  end.
(** [^(?:---- |-----)BEGIN (\[A-Z0-9 \]+)(?: ----|-----)] *)
Definition begins (line : bytes) : bool :=
  (starts_with (ascii "---- BEGIN ") line && label_match false (skipn 11 line)) ||
  (starts_with (ascii "-----BEGIN ") line && label_match false (skipn 11 line)).
Definition ends (line : bytes) : bool := starts_with (ascii "-----") line || starts_with (ascii "---- ") line.
Definition has_colon (line : bytes) : bool := existsb (fun c => Z_of_byte c =? 58) line.
Definition is_ascii (line : bytes) : bool := forallb (fun c => Z_of_byte c <? 128) line.

(** The states "trash", "headers" and "body" (with the data so far). *)
Inductive pem_state : Type :=
| Trash
| Headers
| Body (data : bytes).
Definition no_pem : exn := mkExn ValueError "pem_bytes does not appear to contain PEM-encoded data".
(** The generator, run to its end: what it yields and the exception that ends it.  The names of
    the types and the headers are not used. *)
Fixpoint unarmor (st : pem_state) (found : bool) (ls : list bytes) : list bytes * option exn :=
  match ls with
  | [] => ([], if found then None else Some no_pem)
  | line :: ls' =>
      let in_body data :=
        if ends line then
          match b64decode data with
          | Ok d => let (ds, e) := unarmor Trash true ls' in (d :: ds, e)
          | Err e => ([], Some e)
          end
        else unarmor (Body (data ++ line)) found ls' in
      match st with
      | Trash => if begins line then unarmor Headers found ls' else unarmor Trash found ls'
      | Headers =>
          if has_colon line then
            if is_ascii line then unarmor Headers found ls' else ([], Some (mkExn ValueError "codec can't decode"))
          else in_body []
      | Body data => in_body data
      end
  end.

(** ** Certificates *)

Fixpoint yield_certificates (ds : list bytes) (e : option exn) : list cert * option exn :=
  match ds with
  | [] => ([], e)
  | d :: ds' =>
      match cert_from_der d with
      | Ok c => let (cs, x) := yield_certificates ds' e in (c :: cs, x)
      | Err x => ([], Some x)
      end
  end.
(** [Certificate.from_pems], certificates.py:171-177, run to its end. *)
Definition from_pems (b : bytes) : list cert * option exn :=
  let (ds, e) := unarmor Trash false (lines_of b) in yield_certificates ds e.
(** [Certificate.from_pem], certificates.py:166-169; None stands for StopIteration. *)
Definition from_pem (b : bytes) : option (res cert) :=
  match from_pems b with
  | (c :: _, _) => Some (Ok c)
  | ([], Some e) => Some (Err e)
  | ([], None) => None
  end.
(** What loading a location meets (context.py:159-167), from the files in the order of glob, each
    read or not. *)
Definition location_of (files : list (res bytes)) : location :=
  map (fun f => match f with Ok b => from_pems b | Err e => ([], Some e) end) files.
