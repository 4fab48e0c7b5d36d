(** Common vocabulary of the model: exceptions as values, Python dicts, byte strings. *)
From Coq Require Export Strings.Byte.
From Coq Require Export String Ascii.
From Coq Require Export List ZArith Bool Lia.
From Coq Require Import ZifyBool ZifyNat.
Export ListNotations.
Open Scope string_scope.
Open Scope list_scope.
Open Scope Z_scope.

(** ** Exceptions *)

(** Exception classes: signify/exceptions.py:1-62, plus the Python and library classes
    that the modelled code can raise or let through.  [ExtException s] stands for any
    other subclass of [Exception] raised by a library (asn1crypto, oscrypto,
    certvalidator, ...); [ExtBaseException] for classes that are not subclasses of
    [Exception] (KeyboardInterrupt, SystemExit). *)
Inductive exc_class : Type :=
| BaseException_ | Exception_
| SignifyError | ParseError | SignedPEParseError | SignerInfoParseError
| AuthenticodeParseError
| VerificationError | CertificateVerificationError
| CertificateNotTrustedVerificationError | SignerInfoVerificationError
| AuthenticodeVerificationError | AuthenticodeNotSignedError
| AuthenticodeInconsistentDigestAlgorithmError | AuthenticodeInvalidDigestError
| AuthenticodeCounterSignerError | CertificateTrustListParseError
| CTLCertificateVerificationError
| StructError | RuntimeError | RecursionError | KeyError | ValueError | TypeError
| AttributeError | AssertionError | IndexError | NotImplementedError | OverflowError
| OSError
| ExtException (name : string) | ExtBaseException (name : string).

(** Direct superclass.  signify/exceptions.py:1-62 for the signify classes; the Python
    language reference for the builtin ones (LookupError and ArithmeticError are skipped,
    no modelled code mentions them). *)
Definition exc_parent (c : exc_class) : option exc_class :=
  match c with
  | BaseException_ => None
  | Exception_ => Some BaseException_
  | ExtBaseException _ => Some BaseException_
  | SignifyError => Some Exception_
  | ParseError => Some SignifyError
  | SignedPEParseError => Some ParseError
  | SignerInfoParseError => Some ParseError
  | AuthenticodeParseError => Some ParseError
  | VerificationError => Some SignifyError
  | CertificateVerificationError => Some VerificationError
  | CertificateNotTrustedVerificationError => Some CertificateVerificationError
  | SignerInfoVerificationError => Some VerificationError
  | AuthenticodeVerificationError => Some VerificationError
  | AuthenticodeNotSignedError => Some AuthenticodeVerificationError
  | AuthenticodeInconsistentDigestAlgorithmError => Some AuthenticodeVerificationError
  | AuthenticodeInvalidDigestError => Some AuthenticodeVerificationError
  | AuthenticodeCounterSignerError => Some AuthenticodeVerificationError
  | CertificateTrustListParseError => Some SignifyError
  | CTLCertificateVerificationError => Some CertificateVerificationError
  | RecursionError => Some RuntimeError
  | NotImplementedError => Some RuntimeError
  | StructError | RuntimeError | KeyError | ValueError | TypeError | AttributeError
  | AssertionError | IndexError | OverflowError | OSError | ExtException _ => Some Exception_
  end.

Definition exc_class_eq_dec (a b : exc_class) : {a = b} + {a <> b}.
Proof. decide equality; apply string_dec. Defined.

(** [issubclass c d]: the hierarchy is at most five levels deep. *)
Fixpoint issubclass_fuel (n : nat) (c d : exc_class) : bool :=
  if exc_class_eq_dec c d then true
  else match n with
       | O => false
       | S n' => match exc_parent c with
                 | Some p => issubclass_fuel n' p d
                 | None => false
                 end
       end.
Definition issubclass (c d : exc_class) : bool := issubclass_fuel 6 c d.

(** An exception object: its class and its message.  Messages of exceptions raised by
    signify itself are abbreviated in the model; they are kept so that "which error is
    raised" is observable. *)
Record exn := mkExn { e_class : exc_class; e_msg : string }.

(** [except d:] matches [e]. *)
Definition catches (d : exc_class) (e : exn) : bool := issubclass (e_class e) d.

Inductive res (A : Type) : Type :=
| Ok (a : A)
| Err (e : exn).
Arguments Ok {A} a.
Arguments Err {A} e.

Definition raise {A} (c : exc_class) (m : string) : res A := Err (mkExn c m).

Definition rbind {A B} (x : res A) (f : A -> res B) : res B :=
  match x with Ok a => f a | Err e => Err e end.

Notation "'let?' x := a 'in' b" := (rbind a (fun x => b))
  (at level 200, x pattern, a at level 100, b at level 200, right associativity).

Definition is_ok {A} (r : res A) : bool := match r with Ok _ => true | Err _ => false end.

(** ** Python dicts: insertion-ordered association lists *)

Definition dict (V : Type) := list (string * V).

(** [d[k] = v]: overwrite in place, or append. *)
Fixpoint dict_set {V} (k : string) (v : V) (d : dict V) : dict V :=
  match d with
  | [] => [(k, v)]
  | (k', v') :: d' => if String.eqb k k' then (k, v) :: d' else (k', v') :: dict_set k v d'
  end.

(** [d.get(k)] *)
Fixpoint dict_get {V} (k : string) (d : dict V) : option V :=
  match d with
  | [] => None
  | (k', v') :: d' => if String.eqb k k' then Some v' else dict_get k d'
  end.

Definition dict_mem {V} (k : string) (d : dict V) : bool :=
  match dict_get k d with Some _ => true | None => false end.

(** A dict comprehension / repeated assignment over a list of pairs. *)
Definition dict_of_list {V} (l : list (string * V)) : dict V :=
  fold_left (fun d kv => dict_set (fst kv) (snd kv) d) l [].

(** [d.update(d')] *)
Definition dict_update {V} (d d' : dict V) : dict V :=
  fold_left (fun d kv => dict_set (fst kv) (snd kv) d) d' d.

(** [x in (list of strings)] *)
Definition str_mem (x : string) (l : list string) : bool := existsb (String.eqb x) l.

(** ** Byte strings *)

Definition bytes := list byte.

Definition bytes_eqb (a b : bytes) : bool :=
  if list_eq_dec byte_eq_dec a b then true else false.

Definition zlen {A} (l : list A) : Z := Z.of_nat (length l).

(** [l[z:]] and [l[:z]] for [0 <= z] (written so that huge offsets still compute). *)
Definition zskip {A} (z : Z) (l : list A) : list A :=
  if zlen l <=? z then [] else skipn (Z.to_nat z) l.
Definition ztake {A} (z : Z) (l : list A) : list A :=
  if zlen l <=? z then l else firstn (Z.to_nat z) l.

(** [l[a:b]] for [0 <= a <= b]. *)
Definition zslice {A} (a b : Z) (l : list A) : list A := ztake (b - a) (zskip a l).

Definition Z_of_byte (b : byte) : Z := Z.of_N (Byte.to_N b).
Definition byte_of_Z (z : Z) : byte :=
  match Byte.of_N (Z.to_N (z mod 256)) with Some b => b | None => x00 end.

(** Little-endian unsigned integer of a byte string ([struct.unpack] "<H", "<I", "<Q"). *)
Fixpoint le_to_Z (b : bytes) : Z :=
  match b with
  | [] => 0
  | x :: b' => Z_of_byte x + 256 * le_to_Z b'
  end.

(** Little-endian encoding on [n] bytes ([struct.pack]). *)
Fixpoint Z_to_le (n : nat) (z : Z) : bytes :=
  match n with
  | O => []
  | S n' => byte_of_Z z :: Z_to_le n' (z / 256)
  end.
