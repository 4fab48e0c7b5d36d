(** Model of the listing of signify/authenticode/structures.py:767-775 and of the text of a
    certificate.  No proofs in this file. *)
From Coq Require Import DecimalString.
From Verif Require Import Base Monad ModelX509 ModelContext ModelDecode.

(** [str] of an int. *)
Definition int_str (z : Z) : string := if z <? 0 then ("-" ++ decimal (- z))%string else decimal z.

(** [str(certificate)], signify/x509/certificates.py:134-138. *)
Definition cert_text (E : env) (c : cert) : res ustr :=
  let? d := dn (c_subject c) in
  Ok (d ++ ustr_of (" (serial:" ++ int_str (c_serial c) ++ ", sha1:" ++ sha1_fingerprint E c ++ ")")%string).

(** [a < b] on datetimes. *)
Definition earlier (a b : datetime) : res bool :=
  match a, b with
  | Aware x, Aware y => Ok (x <? y)
  | Naive x, Naive y => Ok (x <? y)
  | _, _ => raise TypeError "can't compare offset-naive and offset-aware datetimes"
  end.

(** [sorted(..., key=lambda x: x.valid_to)], signify/authenticode/structures.py:773: stable, and
    TypeError when the times cannot be compared.  Simplified: Python sorts by another method,
    which makes other comparisons; as these connect all the elements, there is one that raises
    just if there is one here. *)
Fixpoint expiry_insert (c : cert) (l : list cert) : res (list cert) :=
  match l with
  | [] => Ok [c]
  | d :: l' =>
      let? before := earlier (c_valid_to d) (c_valid_to c) in
      if before then let? l'' := expiry_insert c l' in Ok (d :: l'') else Ok (c :: l)
  end.
Fixpoint expiry_sort (l : list cert) : res (list cert) :=
  match l with
  | [] => Ok []
  | c :: l' => let? l'' := expiry_sort l' in expiry_insert c l''
  end.

(** signify/authenticode/structures.py:768-771 *)
Definition heading : ustr :=
  ustr_of "This is a list of all certificates in the Authenticode trust store, ordered by expiration date".

(** The loop of signify/authenticode/structures.py:772-775 from number [i] on: the lines written
    and how it ended.  [print] writes one argument after the other, so that the last line is cut
    off when the certificate has no text.  [show] is [str] of a datetime. *)
Fixpoint print_certificates (E : env) (show : datetime -> ustr) (i : Z) (l : list cert) : list ustr * res unit :=
  match l with
  | [] => ([], Ok tt)
  | c :: l' =>
      let start := ustr_of (int_str i) ++ ustr_of " " ++ show (c_valid_to c) ++ ustr_of " " in
      match cert_text E c with
      | Err e => ([start], Err e)
      | Ok t => let (lines, r) := print_certificates E show (i + 1) l' in ((start ++ t) :: lines, r)
      end
  end.

(** signify/authenticode/structures.py:767-775, with the store [r] in place of
    TRUSTED_CERTIFICATE_STORE. *)
Definition list_store (E : env) (show : datetime -> ustr) (r : nat) (w : world) : world * (list ustr * res unit) :=
  match store_iter r w with
  | (w', Err e) => (w', ([heading], Err e))
  | (w', Ok l) =>
      (w', match expiry_sort l with
           | Err e => ([heading], Err e)
           | Ok l' => let (lines, res) := print_certificates E show 1 l' in (heading :: lines, res)
           end)
  end.
