(** The state-and-exception monad used by the stateful parts of the model: Python code that
    reads and changes a state [S] and returns a value or raises. *)
From Verif Require Import Base.

Definition M (S A : Type) : Type := S -> S * res A.

Definition mret {S A} (a : A) : M S A := fun s => (s, Ok a).
Definition merr {S A} (e : exn) : M S A := fun s => (s, Err e).
Definition mraise {S A} (c : exc_class) (m : string) : M S A := fun s => (s, raise c m).
Definition mbind {S A B} (x : M S A) (f : A -> M S B) : M S B :=
  fun s => match x s with
           | (s', Ok a) => f a s'
           | (s', Err e) => (s', Err e)
           end.
Definition mres {S A} (r : res A) : M S A := fun s => (s, r).

(** [try: x except Exception-matching-p as e: h e] *)
Definition mtry {S A} (x : M S A) (p : exn -> bool) (h : exn -> M S A) : M S A :=
  fun s => match x s with
           | (s', Ok a) => (s', Ok a)
           | (s', Err e) => if p e then h e s' else (s', Err e)
           end.

Notation "'do' x <- a ; b" := (mbind a (fun x => b))
  (at level 200, x pattern, a at level 100, b at level 200, right associativity).
Notation "a ;; b" := (mbind a (fun _ => b)) (at level 100, b at level 200, right associativity).
