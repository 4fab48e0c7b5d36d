(** Model of [SignedPEFile.iter_signed_datas] and [SignedPEFile.verify] over envelopes that
    are decoded on demand: the definitions of ModelAuthenticode.v with [lz_from_envelope] of
    ModelLazy.v.  No proofs in this file. *)
From Verif Require Import Base Monad ModelFile ModelFingerprint ModelPE ModelX509 ModelContext ModelPkcs7 ModelLazy
  ModelAuthenticode.

(** The loop of [iter_signed_datas], signed_pe.py:303-322. *)
Fixpoint lz_iter_loop (load : lz_loader) (depth : nat) (include_nested : bool) (fuel : nat) (flen : Z)
  (g : cert_gen) (found : bool) (f : file) : option (file * (list asd * option exn)) :=
  match fuel with
  | O => None
  | S fuel' =>
      match cert_table_next flen g f with
      | (f', Err e) => Some (f', ([], Some e))
      | (f', Ok (_, None)) => Some (f', ([], if found then None else Some not_found))
      | (f', Ok (g', Some c)) =>
          if negb (ce_revision c =? 0x200) then
            Some (f', ([], Some (mkExn SignedPEParseError "Unknown certificate revision")))
          else if ce_type c =? 2 then
            match lz_from_envelope load depth true (ce_certificate c) with
            | Err e => Some (f', ([], Some e))
            | Ok a =>
                match lz_iter_loop load depth include_nested fuel' flen g' true f' with
                | None => None
                | Some (f'', (l, x)) => Some (f'', (recursive_nested include_nested a ++ l, x))
                end
            end
          else lz_iter_loop load depth include_nested fuel' flen g' found f'
      end
  end.

(** [iter_signed_datas], signed_pe.py:266-325. *)
Definition lz_iter_signed_datas (load : lz_loader) (depth : nat) (include_nested ignore_parse_errors : bool)
  (fuel : nat) (flen : Z) (f : file) : option (file * (list asd * option exn)) :=
  match lz_iter_loop load depth include_nested fuel flen GStart false f with
  | Some (f', (l, Some e)) =>
      if catches SignedPEParseError e && ignore_parse_errors then Some (f', (l, None))
      else Some (f', (l, Some e))
  | r => r
  end.

(** [list(self.iter_signed_datas(...))], signed_pe.py:405-407. *)
Definition lz_signed_datas (load : lz_loader) (depth : nat) (ignore_parse_errors : bool) (fuel : nat) (flen : Z)
  : M world (list asd) :=
  fun w =>
    match lz_iter_signed_datas load depth true ignore_parse_errors fuel flen (w_file w) with
    | None => (w, Err out_of_fuel)
    | Some (f', (l, x)) =>
        (mkWorld (w_stores w) (w_contexts w) f', match x with Some e => Err e | None => Ok l end)
    end.

(** [SignedPEFile.verify], signed_pe.py:362-464. *)
Definition lz_pe_verify (load : lz_loader) (E : env) (depth fuel : nat) (flen : Z) (mode : string)
  (expected : option (dict bytes)) (ignore_parse_errors : bool) (v : vargs) (w : world)
  : world * option (dict bytes) * res (list (asd * list (list cert))) :=
  match (do l <- lz_signed_datas load depth ignore_parse_errors fuel flen ;
         match l with
         | [] => mraise AuthenticodeNotSignedError "No valid SignedData structure was found."
         | _ => mres (select_signed_datas mode l)
         end) w with
  | (w1, Err e) => (w1, expected, Err e)
  | (w1, Ok l) =>
      match calculate_expected_hashes E fuel l (match expected with Some d => d | None => [] end) w1 with
      | (w2, Err e) => (w2, expected, Err e)
      | (w2, Ok hashes) =>
          let (w3, r) := verify_loop mode (verify_one E fuel hashes v) l [] None w2 in
          (w3, option_map (fun _ => hashes) expected, r)
      end
  end.

(** [SignedPEFile(f).verify(...)], signed_pe.py:62-72 and 362-464. *)
Definition lz_pe_open_verify (load : lz_loader) (E : env) (depth fuel : nat) (mode : string)
  (expected : option (dict bytes)) (ignore_parse_errors : bool) (v : vargs) (w : world)
  : world * option (dict bytes) * res (list (asd * list (list cert))) :=
  let (f', flen) := signed_pe_init (w_file w) in
  lz_pe_verify load E depth fuel flen mode expected ignore_parse_errors v
    (mkWorld (w_stores w) (w_contexts w) f').
