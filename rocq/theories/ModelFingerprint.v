(** Model of signify/fingerprinter.py (classes [Finger] and [Fingerprinter]). *)
From Verif Require Import Base ModelFile.

(** signify/fingerprinter.py:39 *)
Record range := mkRange { r_start : Z; r_end : Z }.

(** The Python lists of ranges live in a heap, because [Finger] keeps and mutates the very
    list object the caller passed (fingerprinter.py:63, 102, 104).  A reference is an
    index; a dangling reference does not exist in Python and reads as [[]] here. *)
Definition heap := list (list range).
Definition heap_get (h : heap) (r : nat) : list range := nth r h [].
Fixpoint heap_set (h : heap) (r : nat) (l : list range) : heap :=
  match h, r with
  | [], _ => []
  | _ :: h', O => l :: h'
  | x :: h', S r' => x :: heap_set h' r' l
  end.

(** A hashlib object: its [.name] and everything it has been fed.  A hash function passed
    by the caller is identified with the [.name] of the objects it creates. *)
Record hasher := mkHasher { hs_name : string; hs_fed : bytes }.

(** signify/fingerprinter.py:53-65 *)
Record finger := mkFinger { fg_ref : nat; fg_hashers : list hasher; fg_desc : string }.

(** signify/fingerprinter.py:116-133; [fp_heap] is the heap of range lists. *)
Record fpst := mkFp {
  fp_heap : heap; fp_file : file; fp_block : Z; fp_len : Z; fp_fingers : list finger }.

(** signify/fingerprinter.py:67-72 *)
Definition current_range (h : heap) (fg : finger) : option range :=
  match heap_get h (fg_ref fg) with
  | [] => None
  | r :: _ => Some r
  end.

(** signify/fingerprinter.py:74-106 *)
Definition finger_consume (h : heap) (fg : finger) (s e : Z) : res heap :=
  match heap_get h (fg_ref fg) with
  | [] => Ok h
  | old :: rest =>
    if s <? r_start old then
      if r_start old <? e then raise RuntimeError "Block end too high." else Ok h
    else if r_start old <? s then raise RuntimeError "Block start too high."
    else if r_end old =? e then Ok (heap_set h (fg_ref fg) rest)
    else if e <? r_end old then Ok (heap_set h (fg_ref fg) (mkRange e (r_end old) :: rest))
    else raise RuntimeError "Block length exceeds range."
  end.

(** signify/fingerprinter.py:108-112 *)
Definition finger_update (fg : finger) (block : bytes) : finger :=
  mkFinger (fg_ref fg)
    (map (fun x => mkHasher (hs_name x) (hs_fed x ++ block)) (fg_hashers fg)) (fg_desc fg).

(** signify/fingerprinter.py:116-133 *)
Definition fp_new (h : heap) (f : file) (block_size : Z) : fpst :=
  let f' := file_seek_end f in
  mkFp h f' block_size (f_pos f') [].

(** signify/fingerprinter.py:135-155.  [ranges] is the caller's list object, if any;
    an absent or empty list is replaced by a new list holding the whole file. *)
Definition add_hashers (st : fpst) (hashers : list string) (ranges : option nat)
    (description : string) : fpst :=
  let concrete := map (fun n => mkHasher n []) hashers in
  let fresh := mkFp (fp_heap st ++ [[mkRange 0 (fp_len st)]]) (fp_file st) (fp_block st) (fp_len st)
                 (fp_fingers st ++ [mkFinger (length (fp_heap st)) concrete description]) in
  match ranges with
  | None => fresh
  | Some r =>
    match heap_get (fp_heap st) r with
    | [] => fresh
    | _ :: _ => mkFp (fp_heap st) (fp_file st) (fp_block st) (fp_len st)
                  (fp_fingers st ++ [mkFinger r concrete description])
    end
  end.

Definition min_of (x : Z) (l : list Z) : Z := fold_left Z.min l x.

Fixpoint currents (h : heap) (fgs : list finger) : list range :=
  match fgs with
  | [] => []
  | fg :: fgs' => match current_range h fg with
                  | Some r => r :: currents h fgs'
                  | None => currents h fgs'
                  end
  end.

(** signify/fingerprinter.py:157-180.  The Python sets [starts] and [ends] are lists here
    (only their minimum and the removal of the minimum matter). *)
Definition next_interval (h : heap) (block_size : Z) (fgs : list finger) : option range :=
  match currents h fgs with
  | [] => None
  | c :: cs =>
    let starts := map r_start (c :: cs) in
    let min_start := min_of (r_start c) (map r_start cs) in
    let ends := map r_end cs ++ filter (fun x => negb (x =? min_start)) starts in
    let min_end := min_of (r_end c) ends in
    let min_end := if min_end - min_start >? block_size
                   then min_start + block_size else min_end in
    Some (mkRange min_start min_end)
  end.

(** signify/fingerprinter.py:182-208.  Fingers before a failing one keep their update. *)
Fixpoint hash_block (h : heap) (fgs : list finger) (block : bytes) (s e : Z)
    : list finger * res unit :=
  match fgs with
  | [] => ([], Ok tt)
  | fg :: fgs' =>
    match current_range h fg with
    | None => let (l, r) := hash_block h fgs' block s e in (fg :: l, r)
    | Some ex =>
      if (r_start ex <? s) || ((s =? r_start ex) && (r_end ex <? e))
         || ((s <? r_start ex) && (r_start ex <? e))
      then (fg :: fgs', raise RuntimeError "Cutting across fingers.")
      else
        let fg' := if s =? r_start ex then finger_update fg block else fg in
        let (l, r) := hash_block h fgs' block s e in (fg' :: l, r)
    end
  end.

(** signify/fingerprinter.py:210-212 *)
Fixpoint consume_all (h : heap) (fgs : list finger) (s e : Z) : heap * res unit :=
  match fgs with
  | [] => (h, Ok tt)
  | fg :: fgs' =>
    match finger_consume h fg s e with
    | Err x => (h, Err x)
    | Ok h' => consume_all h' fgs' s e
    end
  end.

Definition with_file (st : fpst) (f : file) : fpst :=
  mkFp (fp_heap st) f (fp_block st) (fp_len st) (fp_fingers st).
Definition with_fingers (st : fpst) (fgs : list finger) : fpst :=
  mkFp (fp_heap st) (fp_file st) (fp_block st) (fp_len st) fgs.
Definition with_heap (st : fpst) (h : heap) : fpst :=
  mkFp h (fp_file st) (fp_block st) (fp_len st) (fp_fingers st).

(** The body of the loop, signify/fingerprinter.py:229-237: the new state and whether the
    loop goes on ([Ok true]), was left by [break] ([Ok false]) or by an exception. *)
Definition hashes_step (st : fpst) : fpst * res bool :=
  match next_interval (fp_heap st) (fp_block st) (fp_fingers st) with
  | None => (st, Ok false)
  | Some iv =>
    match file_seek (r_start iv) (fp_file st) with
    | (f1, Err x) => (with_file st f1, Err x)
    | (f1, Ok _) =>
      let (f2, block) := file_read (r_end iv - r_start iv) f1 in
      let st := with_file st f2 in
      if negb (zlen block =? r_end iv - r_start iv)
      then (st, raise RuntimeError "Short read on file.")
      else
        match hash_block (fp_heap st) (fp_fingers st) block (r_start iv) (r_end iv) with
        | (fgs, Err x) => (with_fingers st fgs, Err x)
        | (fgs, Ok _) =>
          let st := with_fingers st fgs in
          match consume_all (fp_heap st) (fp_fingers st) (r_start iv) (r_end iv) with
          | (h, Err x) => (with_heap st h, Err x)
          | (h, Ok _) => (with_heap st h, Ok true)
          end
        end
    end
  end.

(** The loop of signify/fingerprinter.py:228-237; [None] = still running after [fuel]
    iterations. *)
Fixpoint hashes_loop (fuel : nat) (st : fpst) : option (fpst * res unit) :=
  match fuel with
  | O => None
  | S fuel' =>
    match hashes_step st with
    | (st', Err x) => Some (st', Err x)
    | (st', Ok false) => Some (st', Ok tt)
    | (st', Ok true) => hashes_loop fuel' st'
    end
  end.

(** signify/fingerprinter.py:239-252.  [H name data] is the digest of [data] under the
    hash function whose objects are called [name]. *)
Fixpoint collect_results (H : string -> bytes -> bytes) (h : heap) (len : Z)
    (fgs : list finger) (acc : dict (dict bytes)) : res (dict (dict bytes)) :=
  match fgs with
  | [] => Ok acc
  | fg :: fgs' =>
    let leftover_bad :=
      match heap_get h (fg_ref fg) with
      | [] => false
      | r :: more => negb (match more with [] => true | _ => false end)
                     || negb (r_start r =? len) || negb (r_end r =? len)
      end in
    if leftover_bad then raise RuntimeError "Non-empty range remains."
    else
      let res := fold_left (fun d x => dict_set (hs_name x) (H (hs_name x) (hs_fed x)) d)
                   (fg_hashers fg) [] in
      collect_results H h len fgs' (dict_set (fg_desc fg) res acc)
  end.

(** signify/fingerprinter.py:214-256 *)
Definition hashes (H : string -> bytes -> bytes) (fuel : nat) (st : fpst)
    : option (fpst * res (dict (dict bytes))) :=
  match hashes_loop fuel st with
  | None => None
  | Some (st', Err x) => Some (st', Err x)
  | Some (st', Ok _) =>
    match collect_results H (fp_heap st') (fp_len st') (fp_fingers st') [] with
    | Err x => Some (st', Err x)
    | Ok r => Some (with_fingers st' [], Ok r)
    end
  end.

(** signify/fingerprinter.py:258-269 *)
Definition hash (H : string -> bytes -> bytes) (fuel : nat) (st : fpst)
    : option (fpst * res (dict bytes)) :=
  match hashes H fuel st with
  | None => None
  | Some (st', Err x) => Some (st', Err x)
  | Some (st', Ok r) =>
    match r with
    | [(_, d)] => Some (st', Ok d)
    | _ => Some (st', raise RuntimeError "Can't return a single hash, use hashes() instead")
    end
  end.
