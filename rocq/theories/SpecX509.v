(** Specification vocabulary for names, certificates, signatures and times; independent of
    the functions of the model (only its data types are used). *)
From Verif Require Import Base ModelX509.
Open Scope Z_scope.

(** ** Names *)

(** Object identifiers in dotted-decimal notation: digits and dots only. *)
Definition dotted_char (c : ascii) : bool :=
  let n := N_of_ascii c in ((48 <=? n) && (n <=? 57) || (n =? 46))%N.
Definition dotted (s : string) : Prop := Forall (fun c => dotted_char c = true) (list_ascii_of_string s).

(** All attributes of a name, RDN by RDN. *)
Definition all_avas (n : name) : list (list ava) := map (fun r => r_first r :: r_rest r) n.
Definition wf_name (n : name) : Prop := Forall (Forall (fun a => dotted (a_oid a))) (all_avas n).
Definition single_valued (n : name) : Prop := Forall (fun r => r_rest r = []) n.

(** A reader for the textual form: backslash quotes the next character; an unquoted comma
    separates components, and is followed by one space; the first unquoted equal sign of a
    component separates type and value. *)
Fixpoint lex (s : ustr) : list (bool * N) :=
  match s with
  | [] => []
  | c :: s' =>
      if N.eqb c 92
      then match s' with
           | c' :: s'' => (true, c') :: lex s''
           | [] => [(false, c)]
           end
      else (false, c) :: lex s'
  end.

Definition unquoted (c : N) (t : bool * N) : bool := negb (fst t) && N.eqb (snd t) c.

(** Split at every token satisfying p. *)
Fixpoint split_all (p : bool * N -> bool) (l : list (bool * N)) : list (list (bool * N)) :=
  match l with
  | [] => [[]]
  | t :: l' =>
      if p t then [] :: split_all p l'
      else match split_all p l' with
           | x :: xs => (t :: x) :: xs
           | [] => [[t]]
           end
  end.

(** Split at the first token satisfying p. *)
Fixpoint split_first (p : bool * N -> bool) (l : list (bool * N))
  : option (list (bool * N) * list (bool * N)) :=
  match l with
  | [] => None
  | t :: l' =>
      if p t then Some ([], l')
      else match split_first p l' with
           | Some (a, b) => Some (t :: a, b)
           | None => None
           end
  end.

Definition drop_space (l : list (bool * N)) : list (bool * N) :=
  match l with
  | t :: l' => if unquoted 32 t then l' else l
  | [] => []
  end.

Definition read_component (l : list (bool * N)) : option (ustr * ustr) :=
  match split_first (unquoted 61) l with
  | Some (a, b) => Some (map snd a, map snd b)
  | None => None
  end.

Definition read_dn (s : ustr) : list (option (ustr * ustr)) :=
  match s with
  | [] => []
  | _ => match split_all (unquoted 44) (lex s) with
         | [] => []
         | x :: xs => map read_component (x :: map drop_space xs)
         end
  end.

(** ** Certificates *)

(** The fields that identify a certificate, as observable values. *)
Definition same_identity (a b : cert) : Prop :=
  rdns (c_issuer a) = rdns (c_issuer b) /\ c_serial a = c_serial b /\
  rdns (c_subject a) = rdns (c_subject b) /\ c_key a = c_key b.

(** [v] is an ordinary exception (a subclass of Exception). *)
Definition ordinary (e : exn) : Prop := issubclass (e_class e) Exception_ = true.

(** What the key's own signature scheme says. *)
Inductive scheme_accepts (E : env) (k : spki) (sg data : bytes) (alg : string) : Prop :=
| accepts_rsa : e_load_key E k = Ok "rsa" -> e_rsa_verify E k sg data alg = Ok tt ->
                scheme_accepts E k sg data alg
| accepts_dsa : e_load_key E k = Ok "dsa" -> e_dsa_verify E k sg data alg = Ok tt ->
                scheme_accepts E k sg data alg
| accepts_ec : e_load_key E k = Ok "ec" -> e_ecdsa_verify E k sg data alg = Ok tt ->
               scheme_accepts E k sg data alg.

(** The legacy check: an RSA key, the own scheme failed with an ordinary exception, and the
    raw hash value is what was signed. *)
Definition legacy_accepts (E : env) (k : spki) (sg data : bytes) (alg : string) : Prop :=
  e_load_key E k = Ok "rsa" /\
  (exists e, e_rsa_verify E k sg data alg = Err e /\ ordinary e) /\
  e_rsa_verify E k sg (e_hash E alg data) "raw" = Ok tt.

(** All external functions involved raise ordinary exceptions only (no KeyboardInterrupt). *)
Definition no_interrupt {A} (r : res A) : Prop := forall e, r = Err e -> ordinary e.

(** ** Times *)

(** An absent ASN.1 integer counts as zero. *)
Definition opt0 (o : option Z) : Z := match o with Some v => v | None => 0 end.

(** FILETIME: 100-nanosecond ticks since 1601-01-01; [us] is within [err] microseconds of
    [ticks]: compared in ticks. *)
Definition within_us (err : Z) (us ticks : Z) : Prop := Z.abs (10 * us - ticks) <= 10 * err.

(** Microseconds from 1601-01-01 to 2170-01-01: 207823 days. *)
Definition year_2170_us : Z := 207823 * 86400000000.
