(** Model of the binary file object ([BinaryIO]) signify is given. *)
From Verif Require Import Base.

(** A seekable binary file: its content and its current position.  Models the behaviour
    of [io.BytesIO] / a file opened with "rb" as used by signify/fingerprinter.py:127-131,
    232-233 and signify/authenticode/signed_pe.py:68-71, 99-249.  Nobody writes to the
    file while a modelled operation runs (theorems about histories change [f_bytes]
    between operations explicitly). *)
Record file := mkFile { f_bytes : bytes; f_pos : Z }.

Definition file_len (f : file) : Z := zlen (f_bytes f).

(** [f.seek(z, os.SEEK_SET)].  A negative offset raises (ValueError for BytesIO; OSError
    for a real file, simplified to ValueError).  Seeking past the end is allowed. *)
Definition file_seek (z : Z) (f : file) : file * res unit :=
  if z <? 0 then (f, raise ValueError "negative seek value")
  else (mkFile (f_bytes f) z, Ok tt).

(** [f.seek(0, os.SEEK_END)] *)
Definition file_seek_end (f : file) : file := mkFile (f_bytes f) (file_len f).

(** [f.read(n)]: at most [n] bytes from the position (all of them if [n < 0]). *)
Definition file_read (n : Z) (f : file) : file * bytes :=
  let rest := zskip (f_pos f) (f_bytes f) in
  let b := if n <? 0 then rest else ztake n rest in
  (mkFile (f_bytes f) (f_pos f + zlen b), b).
