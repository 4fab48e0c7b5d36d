(** Iterating over the signatures of a file while others use the file. *)
From Verif Require Import Base Monad ModelFile ModelPE ModelX509 ModelContext ModelPkcs7 ModelAuthenticode ModelIter.

(** A for loop over the generator, in which [act k] is done to the file before step [k] (and
    so between any two steps): the objects and the exception that ended the loop. *)
Fixpoint consume (act : nat -> file -> file) (load : loader) (depth : nat) (include_nested ignore_parse_errors : bool)
  (flen : Z) (inner k steps : nat) (s : sd_gen) (f : file) : option (list asd * option exn) :=
  match steps with
  | O => None
  | S steps' =>
      match sd_next load depth include_nested ignore_parse_errors flen inner s (act k f) with
      | None => None
      | Some (_, Err e) => Some ([], Some e)
      | Some (_, Ok (_, None)) => Some ([], None)
      | Some (f', Ok (s', Some a)) =>
          match consume act load depth include_nested ignore_parse_errors flen inner (S k) steps' s' f' with
          | None => None
          | Some (l, x) => Some (a :: l, x)
          end
      end
  end.

(** The first [n] objects only: a loop that is left early. *)
Fixpoint take (act : nat -> file -> file) (load : loader) (depth : nat) (include_nested ignore_parse_errors : bool)
  (flen : Z) (inner k n : nat) (s : sd_gen) (f : file) : option (list asd) :=
  match n with
  | O => Some []
  | S n' =>
      match sd_next load depth include_nested ignore_parse_errors flen inner s (act k f) with
      | Some (f', Ok (s', Some a)) =>
          option_map (cons a) (take act load depth include_nested ignore_parse_errors flen inner (S k) n' s' f')
      | _ => None
      end
  end.
