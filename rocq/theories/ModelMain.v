(** Model of the command line of signify/fingerprinter.py.  No proofs in this file. *)
From Verif Require Import Base ModelFile ModelFingerprint ModelPE ModelX509.

(** [<] and [<=] on str: by code points. *)
Fixpoint str_ltb (s t : string) : bool :=
  match s, t with
  | _, EmptyString => false
  | EmptyString, String _ _ => true
  | String x s', String y t' =>
      let a := nat_of_ascii x in
      let b := nat_of_ascii y in
      (a <? b)%nat || ((a =? b)%nat && str_ltb s' t')
  end.

(** [sorted(d.items())], signify/fingerprinter.py:312 and 315: the keys of a dict differ, so
    that the values are never compared. *)
Fixpoint item_insert {V} (x : string * V) (l : dict V) : dict V :=
  match l with
  | [] => [x]
  | y :: l' => if str_ltb (fst y) (fst x) then y :: item_insert x l' else x :: l
  end.
Definition sorted_items {V} (d : dict V) : dict V := fold_right item_insert [] d.

(** [f"{k:<10}"], signify/fingerprinter.py:318. *)
Fixpoint spaces (n : nat) : string :=
  match n with O => "" | S n' => String " " (spaces n') end.
Definition padded (k : string) : string := (k ++ spaces (10 - String.length k))%string.

(** The lines for one finger, signify/fingerprinter.py:313-318. *)
Definition print_result (description : string) (result : dict bytes) : list string :=
  ("  " ++ (if String.eqb description "" then "generic" else description) ++ ":")%string ::
  flat_map (fun kv => if String.eqb (fst kv) "_" then []
                      else ["    " ++ padded (fst kv) ++ ": " ++ hex (snd kv)]%string)
           (sorted_items result).

(** The body of the loop over the names, signify/fingerprinter.py:301-318: the lines printed and
    how it ended.  [open] is the file system: the content of a file, or the exception of
    [open("rb")].  [None] = not finished after [fuel] steps. *)
Definition main_file (H : string -> bytes -> bytes) (open : string -> res bytes) (fuel : nat) (filename : string)
  : option (list string * res unit) :=
  let first := (filename ++ ":")%string in
  match open filename with
  | Err e => Some ([first], Err e)
  | Ok data =>
      let st := fp_new [] (mkFile data 0) 1000000 in
      let st := add_hashers st ["md5"; "sha1"; "sha256"; "sha512"] None "generic" in
      match add_authenticode_hashers st ["md5"; "sha1"; "sha256"] with
      | (_, Err e) => Some ([first], Err e)
      | (st, Ok _) =>
          match hashes H fuel st with
          | None => None
          | Some (_, Err e) => Some ([first], Err e)
          | Some (_, Ok results) =>
              Some (first :: flat_map (fun dr => print_result (fst dr) (snd dr)) (sorted_items results), Ok tt)
          end
      end
  end.

(** [main], signify/fingerprinter.py:299-318. *)
Fixpoint main (H : string -> bytes -> bytes) (open : string -> res bytes) (fuel : nat) (filenames : list string)
  : option (list string * res unit) :=
  match filenames with
  | [] => Some ([], Ok tt)
  | filename :: more =>
      match main_file H open fuel filename with
      | None => None
      | Some (lines, Err e) => Some (lines, Err e)
      | Some (lines, Ok _) => option_map (fun lr => (lines ++ fst lr, snd lr)) (main H open fuel more)
      end
  end.
