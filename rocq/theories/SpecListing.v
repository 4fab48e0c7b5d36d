(** What the listing of a store writes. *)
From Coq Require Import Sorting.Permutation Sorting.Sorted.
From Verif Require Import Base ModelX509.

Definition moment (d : datetime) : Z := match d with Aware z => z | Naive z => z end.
Definition aware (d : datetime) : Prop := match d with Aware _ => True | Naive _ => False end.

(** The times can be compared with each other. *)
Definition of_one_kind (l : list cert) : Prop :=
  Forall (fun c => aware (c_valid_to c)) l \/ Forall (fun c => ~ aware (c_valid_to c)) l.

(** The same certificates in the order of their ends; those with the same end are in the order they had. *)
Definition by_expiry (l l' : list cert) : Prop :=
  Permutation l l' /\
  StronglySorted (fun c d => moment (c_valid_to c) <= moment (c_valid_to d)) l' /\
  forall t, filter (fun c => moment (c_valid_to c) =? t) l' = filter (fun c => moment (c_valid_to c) =? t) l.

(** [digits] is the number in decimals, without superfluous zeros. *)
Definition digit (n : N) : Prop := (48 <= n <= 57)%N.
Definition digits_value (u : ustr) : Z := fold_left (fun v d => 10 * v + (Z.of_N d - 48)) u 0.
Definition decimals (u : ustr) (z : Z) : Prop :=
  exists v, Forall digit v /\ v <> [] /\ (forall w, v = 48%N :: w -> w = []) /\
  ((0 <= z /\ u = v /\ digits_value v = z) \/ (z < 0 /\ u = 45%N :: v /\ digits_value v = - z)).

(** The beginning of the line number [i], and the whole line. *)
Definition line_start (show : datetime -> ustr) (i : Z) (c : cert) (u : ustr) : Prop :=
  exists n, decimals n i /\ u = n ++ ustr_of " " ++ show (c_valid_to c) ++ ustr_of " ".
Definition line (E : env) (show : datetime -> ustr) (i : Z) (c : cert) (u : ustr) : Prop :=
  exists s d n, line_start show i c s /\ dn (c_subject c) = Ok d /\ decimals n (c_serial c) /\
  u = s ++ d ++ ustr_of " (serial:" ++ n ++ ustr_of ", sha1:" ++ ustr_of (hex (e_hash E "sha1" (c_der c))) ++ ustr_of ")".

(** The lines for these certificates, numbered from [i] on. *)
Inductive numbered (E : env) (show : datetime -> ustr) : Z -> list cert -> list ustr -> Prop :=
| numbered_nil i : numbered E show i [] []
| numbered_cons i c l u us : line E show i c u -> numbered E show (i + 1) l us -> numbered E show i (c :: l) (u :: us).
