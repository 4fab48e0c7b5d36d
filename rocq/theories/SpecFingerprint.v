(** What the fingerprinting API promises, stated without reference to its loop. *)
From Verif Require Import Base ModelFile ModelFingerprint.

(** The bytes of a range, and of a list of ranges in list order. *)
Definition slice (data : bytes) (r : range) : bytes := zslice (r_start r) (r_end r) data.
Definition slices (data : bytes) (rs : list range) : bytes := concat (map (slice data) rs).

(** [0 <= start <= end <= length] *)
Definition valid_range (len : Z) (r : range) : Prop :=
  0 <= r_start r <= r_end r /\ r_end r <= len.

(** The same, except that an empty range may lie past the end. *)
Definition readable_range (len : Z) (r : range) : Prop :=
  0 <= r_start r <= r_end r /\ (r_start r = r_end r \/ r_end r <= len).

(** One call of [add_hashers]. *)
Record call := mkCall { c_hashers : list string; c_ranges : option nat; c_desc : string }.

Definition do_call (st : fpst) (c : call) : fpst :=
  add_hashers st (c_hashers c) (c_ranges c) (c_desc c).
Definition do_calls (st : fpst) (cs : list call) : fpst := fold_left do_call cs st.

(** The ranges a call asks for: the contents of the list passed, or the whole file. *)
Definition requested (h : heap) (len : Z) (c : call) : list range :=
  match c_ranges c with
  | None => [mkRange 0 len]
  | Some r => match nth_error h r with
              | Some (x :: l) => x :: l
              | _ => [mkRange 0 len]
              end
  end.

(** The list objects passed by the calls, one per call that passes one. *)
Definition passed_lists (cs : list call) : list nat :=
  flat_map (fun c => match c_ranges c with Some r => [r] | None => [] end) cs.

(** Every list passed exists, and no list object is passed twice. *)
Definition distinct_lists (h : heap) (cs : list call) : Prop :=
  NoDup (passed_lists cs) /\ Forall (fun r => (r < length h)%nat) (passed_lists cs).

(** The last call with a given description. *)
Definition last_call (d : string) (cs : list call) : option call :=
  find (fun c => String.eqb (c_desc c) d) (rev cs).

(** [r] maps exactly the descriptions of [cs], each to a dict that maps exactly the hasher
    names of the last call with that description to the digest of [content] of that call. *)
Definition results_are (H : string -> bytes -> bytes) (content : call -> bytes)
    (cs : list call) (r : dict (dict bytes)) : Prop :=
  NoDup (map fst r) /\
  forall d,
    match last_call d cs with
    | None => dict_get d r = None
    | Some c =>
      exists inner, dict_get d r = Some inner /\ NoDup (map fst inner) /\
        forall n, dict_get n inner =
                  if in_dec string_dec n (c_hashers c) then Some (H n (content c)) else None
    end.

(** A fuelled computation terminates with [a] / never terminates. *)
Definition terminates_with {A} (f : nat -> option A) (a : A) : Prop :=
  exists n, forall m, (n <= m)%nat -> f m = Some a.
Definition diverges {A} (f : nat -> option A) : Prop := forall n, f n = None.

(** Between two operations somebody else may change the file. *)
Definition set_content (st : fpst) (data : bytes) : fpst :=
  with_file st (mkFile data (f_pos (fp_file st))).

(** [st'] is reached from [st] by any number of failed [hashes()] calls, each made while
    the file holds some prefix of [data]. *)
Inductive interrupted (H : string -> bytes -> bytes) (data : bytes) : fpst -> fpst -> Prop :=
| interrupted_nil st : interrupted H data st st
| interrupted_cons st view ext fuel x st1 st' :
    data = view ++ ext ->
    hashes H fuel (set_content st view) = Some (st1, Err x) ->
    interrupted H data st1 st' ->
    interrupted H data st st'.

(** Two fingerprinters that differ at most in the file position. *)
Definition same_but_pos (a b : fpst) : Prop :=
  fp_heap a = fp_heap b /\ f_bytes (fp_file a) = f_bytes (fp_file b) /\
  fp_block a = fp_block b /\ fp_len a = fp_len b /\ fp_fingers a = fp_fingers b.
