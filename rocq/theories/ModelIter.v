(** Model of [SignedPEFile.iter_signed_datas] as a generator that is resumed step by step.
    No proofs in this file. *)
From Verif Require Import Base Monad ModelFile ModelPE ModelX509 ModelContext ModelPkcs7 ModelAuthenticode.

(** Where the generator of signed_pe.py:303-325 is suspended: before it asks for the next
    certificate (with the value of [found]), in the [yield from] of line 311 with what
    [recursive_nested] has still to yield, or finished. *)
Inductive sd_gen : Type :=
| SGLoop (g : cert_gen) (found : bool)
| SGNested (g : cert_gen) (pending : list asd)
| SGEnd.

(** From asking for the next certificate to the next [yield] or the end, signed_pe.py:305-322;
    None = not finished after [fuel] certificates. *)
Fixpoint sd_fetch (load : loader) (depth : nat) (include_nested : bool) (flen : Z) (fuel : nat)
  (g : cert_gen) (found : bool) (f : file) : option (file * res (sd_gen * option asd)) :=
  match fuel with
  | O => None
  | S fuel' =>
      match cert_table_next flen g f with
      | (f', Err e) => Some (f', Err e)
      | (f', Ok (_, None)) => Some (f', if found then Ok (SGEnd, None) else Err not_found)
      | (f', Ok (g', Some c)) =>
          if negb (ce_revision c =? 0x200) then
            Some (f', raise SignedPEParseError "Unknown certificate revision")
          else if ce_type c =? 2 then
            match from_envelope load depth true (ce_certificate c) with
            | Err e => Some (f', Err e)
            | Ok a =>
                match recursive_nested include_nested a with
                | b :: pending => Some (f', Ok (SGNested g' pending, Some b))
                | [] => sd_fetch load depth include_nested flen fuel' g' true f'
                end
            end
          else sd_fetch load depth include_nested flen fuel' g' found f'
      end
  end.

(** The except clause, signed_pe.py:323-325: the exception ends the generator. *)
Definition sd_except (ignore_parse_errors : bool) (r : res (sd_gen * option asd)) : res (sd_gen * option asd) :=
  match r with
  | Err e => if catches SignedPEParseError e && ignore_parse_errors then Ok (SGEnd, None) else Err e
  | Ok p => Ok p
  end.

(** [next(generator)]; no object: StopIteration. *)
Definition sd_next (load : loader) (depth : nat) (include_nested ignore_parse_errors : bool) (flen : Z) (fuel : nat)
  (s : sd_gen) (f : file) : option (file * res (sd_gen * option asd)) :=
  let fetch g found :=
    match sd_fetch load depth include_nested flen fuel g found f with
    | Some (f', r) => Some (f', sd_except ignore_parse_errors r)
    | None => None
    end in
  match s with
  | SGLoop g found => fetch g found
  | SGNested g (a :: pending) => Some (f, Ok (SGNested g pending, Some a))
  | SGNested g [] => fetch g true
  | SGEnd => Some (f, Ok (SGEnd, None))
  end.
