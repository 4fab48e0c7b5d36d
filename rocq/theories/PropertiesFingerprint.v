(** Properties C01-C07: the fingerprinting API.
    [H name data] is the digest of [data] under the hash function called [name]; every
    theorem holds for every [H]. *)
From Verif Require Import Base Bytes ModelFile ModelFingerprint SpecFingerprint
  ProofsFingerprint ProofsFingerprint2 ProofsFingerprint3 SpecWork ProofsFingerprint4.

(** *** Concrete data for the non-vacuity examples *)

Definition ex_file : file := mkFile (list_byte_of_string "0123456789abcdef") 3.
(** two caller-owned lists: overlapping, unordered and empty ranges *)
Definition ex_heap : heap := [[mkRange 10 16; mkRange 0 4; mkRange 4 4]; [mkRange 2 12]].
Definition ex_calls : list call :=
  [mkCall ["sha1"; "sha256"] (Some 0%nat) "a"; mkCall ["md5"] (Some 1%nat) "b";
   mkCall ["sha1"] None "c"].
(** a transparent "digest", so that the hashed bytes are visible *)
Definition ex_H (name : string) (b : bytes) : bytes := b.
Definition str (s : string) : bytes := list_byte_of_string s.

Lemma ex_distinct : distinct_lists ex_heap ex_calls.
Proof.
  split; cbn.
  - repeat constructor; cbn; intuition discriminate.
  - repeat constructor.
Qed.

Lemma ex_valid c : In c ex_calls ->
  Forall (valid_range (file_len ex_file)) (requested ex_heap (file_len ex_file) c).
Proof.
  unfold valid_range. intros [<-|[<-|[<-|[]]]]; vm_compute; repeat constructor; discriminate.
Qed.

(** *** C01 *)

(** For every file, positive block size and sequence of add_hashers calls passing distinct
    lists of well-formed ranges, hashes() terminates without raising and its result maps
    each description to the digests of the concatenated ranges of the last call with that
    description. *)
Theorem C01_hashes_total_exact :
  forall (H : string -> bytes -> bytes) h f bs cs,
  0 < bs -> distinct_lists h cs ->
  (forall c, In c cs -> Forall (valid_range (file_len f)) (requested h (file_len f) c)) ->
  exists st' r,
    terminates_with (fun n => hashes H n (do_calls (fp_new h f bs) cs)) (st', Ok r) /\
    results_are H (fun c => slices (f_bytes f) (requested h (file_len f) c)) cs r.
Proof. exact c01. Qed.
Print Assumptions C01_hashes_total_exact.

Example C01_hypotheses :
  0 < 5 /\ distinct_lists ex_heap ex_calls /\
  (forall c, In c ex_calls ->
     Forall (valid_range (file_len ex_file)) (requested ex_heap (file_len ex_file) c)).
Proof. split; [reflexivity|]. split; [exact ex_distinct|exact ex_valid]. Qed.

Example C01_run :
  option_map snd (hashes ex_H 100 (do_calls (fp_new ex_heap ex_file 5) ex_calls)) =
  Some (Ok [("a", [("sha1", str "abcdef0123"); ("sha256", str "abcdef0123")]);
            ("b", [("md5", str "23456789ab")]);
            ("c", [("sha1", str "0123456789abcdef")])]).
Proof. vm_compute. reflexivity. Qed.

(** *** C02 *)

(** Whatever the ranges and the block size: if hashes() returns, all ranges were readable
    and all digests are right.  (Fuel is arbitrary: no bound on the iterations.)  The
    ranges lists must be distinct objects: see [C06_refuted_shared_list]. *)
Theorem C02_never_wrong :
  forall (H : string -> bytes -> bytes) h f bs cs fuel st' r,
  distinct_lists h cs ->
  hashes H fuel (do_calls (fp_new h f bs) cs) = Some (st', Ok r) ->
  (forall c, In c cs -> Forall (readable_range (file_len f)) (requested h (file_len f) c)) /\
  results_are H (fun c => slices (f_bytes f) (requested h (file_len f) c)) cs r.
Proof. exact c02. Qed.
Print Assumptions C02_never_wrong.

Example C02_hypotheses :
  exists st' r, hashes ex_H 100 (do_calls (fp_new ex_heap ex_file 5) ex_calls) = Some (st', Ok r).
Proof. eexists _, _. vm_compute. reflexivity. Qed.

(** *** C03 *)

(** Two runs, with any block sizes and any other calls around: the same hashers and ranges
    on the same content give the same digests. *)
Theorem C03_isolation :
  forall (H : string -> bytes -> bytes) h1 h2 f1 f2 bs1 bs2 cs1 cs2 n1 n2 st1 st2 r1 r2 c1 c2,
  f_bytes f1 = f_bytes f2 ->
  distinct_lists h1 cs1 -> distinct_lists h2 cs2 ->
  hashes H n1 (do_calls (fp_new h1 f1 bs1) cs1) = Some (st1, Ok r1) ->
  hashes H n2 (do_calls (fp_new h2 f2 bs2) cs2) = Some (st2, Ok r2) ->
  last_call (c_desc c1) cs1 = Some c1 -> last_call (c_desc c2) cs2 = Some c2 ->
  c_hashers c1 = c_hashers c2 ->
  requested h1 (file_len f1) c1 = requested h2 (file_len f2) c2 ->
  exists d1 d2,
    dict_get (c_desc c1) r1 = Some d1 /\ dict_get (c_desc c2) r2 = Some d2 /\
    forall n, dict_get n d1 = dict_get n d2.
Proof. exact c03. Qed.
Print Assumptions C03_isolation.

Example C03_hypotheses :
  let cs2 := [mkCall ["md5"] (Some 1%nat) "only"] in
  last_call "b" ex_calls = Some (mkCall ["md5"] (Some 1%nat) "b") /\
  (exists st r, hashes ex_H 100 (do_calls (fp_new ex_heap ex_file 3) cs2) = Some (st, Ok r)) /\
  distinct_lists ex_heap cs2.
Proof.
  split; [reflexivity|]. split; [eexists _, _; vm_compute; reflexivity|].
  split; cbn; repeat constructor. intros [].
Qed.

(** *** C04 *)

(** After any history of completed rounds, a further hashes() returns {} and any further
    round returns (or raises) exactly what it would on a new object. *)
Theorem C04_reset :
  forall (H : string -> bytes -> bytes) data bs st,
  history H data bs st ->
  (exists st', terminates_with (fun n => hashes H n st) (st', Ok [])) /\
  forall cs n,
    option_map snd (hashes H n (do_calls st cs)) =
    option_map snd (hashes H n (do_calls (fp_new (fp_heap st) (fp_file st) bs) cs)).
Proof. exact c04_reset. Qed.
Print Assumptions C04_reset.

Example C04_reset_hypotheses :
  exists st, history ex_H (f_bytes ex_file) 5 st /\ f_pos (fp_file st) = 4 /\
             fp_heap st = [[]; []; []].
Proof.
  eexists. split.
  - eapply history_round with (st := fp_new ex_heap ex_file 5) (cs := ex_calls) (n := 100%nat).
    + apply history_new.
    + exact ex_distinct.
    + vm_compute. reflexivity.
  - split; reflexivity.
Qed.

(** Any number of hashes() calls that failed while only a prefix of the content was
    available lose nothing: once the content is there, hashes() returns what an
    uninterrupted run returns. *)
Theorem C04_resume :
  forall (H : string -> bytes -> bytes) h f0 bs cs data st',
  0 < bs -> distinct_lists h cs ->
  (forall c, In c cs -> Forall (valid_range (zlen data)) (requested h (file_len f0) c)) ->
  interrupted H data (do_calls (fp_new h f0 bs) cs) st' ->
  exists st'' r,
    terminates_with (fun n => hashes H n (set_content st' data)) (st'', Ok r) /\
    terminates_with
      (fun n => option_map snd (hashes H n (set_content (do_calls (fp_new h f0 bs) cs) data)))
      (Ok r) /\
    results_are H (fun c => slices data (requested h (file_len f0) c)) cs r.
Proof. exact c04_resume. Qed.
Print Assumptions C04_resume.

(** ... and each of these failures is the documented RuntimeError. *)
Theorem C04_failures_are_short_reads :
  forall (H : string -> bytes -> bytes) h f0 bs cs data st' view ext fuel st'' x,
  distinct_lists h cs ->
  (forall c, In c cs -> Forall (valid_range (zlen data)) (requested h (file_len f0) c)) ->
  interrupted H data (do_calls (fp_new h f0 bs) cs) st' ->
  data = view ++ ext ->
  hashes H fuel (set_content st' view) = Some (st'', Err x) ->
  x = mkExn RuntimeError "Short read on file.".
Proof. exact c04_failures. Qed.
Print Assumptions C04_failures_are_short_reads.

Example C04_resume_hypotheses :
  exists st', interrupted ex_H (f_bytes ex_file) (do_calls (fp_new ex_heap ex_file 5) ex_calls) st'
    /\ fp_heap st' <> fp_heap (do_calls (fp_new ex_heap ex_file 5) ex_calls).
Proof.
  eexists. split.
  - eapply interrupted_cons with (view := str "0123456") (ext := str "789abcdef") (fuel := 100%nat).
    + reflexivity.
    + vm_compute. reflexivity.
    + apply interrupted_nil.
  - vm_compute. discriminate.
Qed.

(** *** C05 *)

(** With exactly one registration hash() returns its digests. *)
Theorem C05_single :
  forall (H : string -> bytes -> bytes) h f bs c,
  0 < bs -> distinct_lists h [c] ->
  Forall (valid_range (file_len f)) (requested h (file_len f) c) ->
  exists st' d,
    terminates_with (fun n => hash H n (do_calls (fp_new h f bs) [c])) (st', Ok d) /\
    NoDup (map fst d) /\
    forall n, dict_get n d =
      if in_dec string_dec n (c_hashers c)
      then Some (H n (slices (f_bytes f) (requested h (file_len f) c))) else None.
Proof. exact c05_one. Qed.
Print Assumptions C05_single.

(** When hashes() returns any other number of descriptions, hash() raises RuntimeError. *)
Theorem C05_other_raises :
  forall (H : string -> bytes -> bytes) h f bs cs st' r,
  terminates_with (fun n => hashes H n (do_calls (fp_new h f bs) cs)) (st', Ok r) ->
  length r <> 1%nat ->
  exists st'' x,
    terminates_with (fun n => hash H n (do_calls (fp_new h f bs) cs)) (st'', Err x) /\
    e_class x = RuntimeError.
Proof. exact c05_other. Qed.
Print Assumptions C05_other_raises.

Example C05_hypotheses :
  distinct_lists ex_heap [mkCall ["md5"] (Some 1%nat) "b"] /\
  Forall (valid_range (file_len ex_file))
    (requested ex_heap (file_len ex_file) (mkCall ["md5"] (Some 1%nat) "b")) /\
  option_map snd (hash ex_H 100 (do_calls (fp_new ex_heap ex_file 5) ex_calls)) =
    Some (raise RuntimeError "Can't return a single hash, use hashes() instead").
Proof.
  split; [split; cbn; repeat constructor; intros []|].
  split; [vm_compute; repeat constructor; discriminate|vm_compute; reflexivity].
Qed.

(** "Callable only when add_hashers was called exactly once" does not hold: two
    registrations under one description are silently reduced to the last. *)
Theorem C05_exactly_once_refuted :
  exists (H : string -> bytes -> bytes) h f bs cs st' d,
    0 < bs /\ distinct_lists h cs /\ length cs = 2%nat /\
    terminates_with (fun n => hash H n (do_calls (fp_new h f bs) cs)) (st', Ok d).
Proof.
  pose (cs := [mkCall ["md5"] (Some 0%nat) "generic"; mkCall ["sha1"] (Some 1%nat) "generic"]).
  assert (Hd : distinct_lists ex_heap cs).
  { split; cbn; repeat constructor; cbn; intuition discriminate. }
  destruct (c01 ex_H ex_heap ex_file 5 cs) as (st' & r & Ht & _); [reflexivity|exact Hd| |].
  - unfold valid_range. intros c [<-|[<-|[]]]; vm_compute; repeat constructor; discriminate.
  - assert (Hr : exists st2 d, hashes ex_H 100 (do_calls (fp_new ex_heap ex_file 5) cs) =
                             Some (st2, Ok [("generic", d)])).
    { eexists _, _. vm_compute. reflexivity. }
    destruct Hr as (st2 & d & Hr).
    assert (Heq : (st', Ok r) = (st2, Ok [("generic", d)])).
    { eapply terminates_unique; [exact Ht| |exact Hr].
      intros i j x Hij Hx. unfold hashes in Hx |- *.
      destruct (hashes_loop i (do_calls (fp_new ex_heap ex_file 5) cs)) as [a|] eqn:El; [|discriminate].
      now rewrite (loop_fuel_mono i j _ _ Hij El). }
    injection Heq as -> ->. apply hash_of_hashes in Ht.
    exists ex_H, ex_heap, ex_file, 5, cs, st2, d.
    split; [reflexivity|]. split; [exact Hd|]. split; [reflexivity|exact Ht].
Qed.
Print Assumptions C05_exactly_once_refuted.

(** *** C06 *)

(** The property is false: a successful hashes() empties exactly the lists that were
    passed, for every file and all ranges. *)
Theorem C06_lists_are_consumed :
  forall (H : string -> bytes -> bytes) h f bs cs fuel st' r,
  distinct_lists h cs ->
  hashes H fuel (do_calls (fp_new h f bs) cs) = Some (st', Ok r) ->
  forall i, (i < length h)%nat ->
    heap_get (fp_heap st') i = if in_dec Nat.eq_dec i (passed_lists cs) then [] else heap_get h i.
Proof. exact c06_consumed. Qed.
Print Assumptions C06_lists_are_consumed.

Theorem C06_refuted :
  exists (H : string -> bytes -> bytes) h f bs cs fuel st' r i,
    distinct_lists h cs /\
    hashes H fuel (do_calls (fp_new h f bs) cs) = Some (st', Ok r) /\
    heap_get (fp_heap st') i <> heap_get h i.
Proof.
  exists ex_H, ex_heap, ex_file, 5, ex_calls, 100%nat. eexists _, _, 1%nat.
  split; [exact ex_distinct|]. split; [vm_compute; reflexivity|]. vm_compute. discriminate.
Qed.
Print Assumptions C06_refuted.

(** Consequence: reusing the list object for a second round hashes the whole file instead
    of the requested range. *)
Theorem C06_refuted_reuse :
  exists h f bs c fuel st1 st2 r1 r2,
    hashes ex_H fuel (do_calls (fp_new h f bs) [c]) = Some (st1, Ok r1) /\
    hashes ex_H fuel (do_calls (fp_new (fp_heap st1) f bs) [c]) = Some (st2, Ok r2) /\
    r1 = [("x", [("sha1", str "23456789ab")])] /\
    r2 = [("x", [("sha1", str "0123456789abcdef")])].
Proof.
  exists ex_heap, ex_file, 5, (mkCall ["sha1"] (Some 1%nat) "x"), 100%nat. eexists _, _, _, _.
  split; [vm_compute; reflexivity|]. split; [vm_compute; reflexivity|]. split; reflexivity.
Qed.
Print Assumptions C06_refuted_reuse.

(** Consequence: one list object passed to two calls of the same round. *)
Theorem C06_refuted_shared_list :
  exists h f bs c1 c2 fuel st r,
    hashes ex_H fuel (do_calls (fp_new h f bs) [c1; c2]) = Some (st, Ok r) /\
    slices (f_bytes f) (requested h (file_len f) c1) = str "01230123" /\
    dict_get (c_desc c1) r = Some [("sha1", str "0123")].
Proof.
  exists [[mkRange 0 4; mkRange 0 4]], ex_file, 5,
    (mkCall ["sha1"] (Some 0%nat) "x"), (mkCall ["sha1"] (Some 0%nat) "y"), 100%nat.
  eexists _, _. split; [vm_compute; reflexivity|]. split; reflexivity.
Qed.
Print Assumptions C06_refuted_shared_list.

(** *** C07 *)

(** Proved part: with a positive block size, hashes() ends whenever no range is reversed or
    only one finger is registered, and it raises RuntimeError or ValueError exactly if some
    range is not readable.  Missing: reversed ranges next to other fingers and block size
    zero, where the property is false (below). *)
Theorem C07_malformed_raises_partial :
  forall (H : string -> bytes -> bytes) h f bs cs,
  0 < bs -> distinct_lists h cs ->
  Forall (forward_call h (file_len f)) cs \/ (length cs <= 1)%nat ->
  exists st' r, terminates_with (fun n => hashes H n (do_calls (fp_new h f bs) cs)) (st', r) /\
    ((exists x, r = Err x /\ (e_class x = RuntimeError \/ e_class x = ValueError)) <->
     exists c rg, In c cs /\ In rg (requested h (file_len f) c) /\
                  ~ readable_range (file_len f) rg).
Proof. exact c07_positive. Qed.
Print Assumptions C07_malformed_raises_partial.

(** A negative block size makes every non-empty request raise. *)
Theorem C07_negative_block_raises :
  forall (H : string -> bytes -> bytes) h f bs cs,
  bs < 0 -> distinct_lists h cs -> cs <> [] ->
  exists st' x, terminates_with (fun n => hashes H n (do_calls (fp_new h f bs) cs)) (st', Err x) /\
    (e_class x = RuntimeError \/ e_class x = ValueError).
Proof. exact c07_negative. Qed.
Print Assumptions C07_negative_block_raises.

(** Block size zero: hashes() never returns, for every request with a non-empty range. *)
Theorem C07_zero_block_diverges :
  forall (H : string -> bytes -> bytes) h f cs,
  distinct_lists h cs ->
  (forall c rg, In c cs -> In rg (requested h (file_len f) c) -> 0 <= r_start rg <= r_end rg) ->
  (exists c rg, In c cs /\ In rg (requested h (file_len f) c) /\ r_start rg < r_end rg) ->
  diverges (fun n => hashes H n (do_calls (fp_new h f 0) cs)).
Proof. exact c07_zero. Qed.
Print Assumptions C07_zero_block_diverges.

Theorem C07_refuted_zero_block :
  exists h f cs, distinct_lists h cs /\ forall H, diverges (fun n => hashes H n (do_calls (fp_new h f 0) cs)).
Proof.
  exists ex_heap, ex_file, ex_calls. split; [exact ex_distinct|]. intros H. apply c07_zero.
  - exact ex_distinct.
  - intros c rg Hc Hrg. pose proof (ex_valid c Hc) as Hv. rewrite Forall_forall in Hv.
    specialize (Hv rg Hrg). unfold valid_range in Hv. tauto.
  - exists (mkCall ["md5"] (Some 1%nat) "b"), (mkRange 2 12).
    split; [right; left; reflexivity|]. split; [left; reflexivity|reflexivity].
Qed.
Print Assumptions C07_refuted_zero_block.

(** A reversed range next to another finger: hashes() never returns. *)
Theorem C07_refuted_reversed :
  exists h f bs cs, 0 < bs /\ distinct_lists h cs /\
    forall H, diverges (fun n => hashes H n (do_calls (fp_new h f bs) cs)).
Proof.
  exists [[mkRange 10 5]; [mkRange 0 16]], ex_file, 1000,
    [mkCall ["sha1"] (Some 0%nat) "x"; mkCall ["sha1"] (Some 1%nat) "y"].
  split; [reflexivity|]. split; [split; cbn; repeat constructor; cbn; intuition discriminate|].
  intros H. eapply fixpoint_diverges; vm_compute; reflexivity.
Qed.
Print Assumptions C07_refuted_reversed.

(** Every request, whatever its ranges and block size: either it has ended after as many
    rounds as there are bytes asked for and ranges, with one more for the end - and then it
    returns only if every range is readable, and raises RuntimeError or ValueError only if
    one is not or the block size is not positive - or it never ends.  It never ends only
    with block size zero and a range that is not empty, or with a reversed range next to
    another finger. *)
Theorem C07_outcome :
  forall (H : string -> bytes -> bytes) h f bs cs,
  distinct_lists h cs ->
  let run := fun n => hashes H n (do_calls (fp_new h f bs) cs) in
  let readable := forall c rg, In c cs -> In rg (requested h (file_len f) c) ->
                    readable_range (file_len f) rg in
  (exists st' r,
     run (S (Z.to_nat (work h (file_len f) cs))) = Some (st', r) /\
     terminates_with run (st', r) /\
     match r with
     | Ok _ => readable
     | Err x => (e_class x = RuntimeError \/ e_class x = ValueError) /\ ~ (0 < bs /\ readable)
     end) \/
  (diverges run /\
   (bs = 0 /\ (exists c rg, In c cs /\ In rg (requested h (file_len f) c) /\ r_start rg <> r_end rg) \/
    0 < bs /\ (2 <= length cs)%nat /\
    exists c rg, In c cs /\ In rg (requested h (file_len f) c) /\ r_end rg < r_start rg)).
Proof. exact c07_outcome. Qed.
Print Assumptions C07_outcome.

(** The bound is nearly met: 16 bytes in blocks of one take 17 rounds, the last of which
    finds nothing left to do; the bound is 18. *)
Example C07_bound :
  let h := [[mkRange 0 16]] in
  let cs := [mkCall ["sha1"] (Some 0%nat) "x"] in
  work h 16 cs = 17 /\
  hashes ex_H 16 (do_calls (fp_new h ex_file 1) cs) = None /\
  hashes ex_H 17 (do_calls (fp_new h ex_file 1) cs) <> None.
Proof.
  split; [reflexivity|]. split; [vm_compute; reflexivity|]. vm_compute. discriminate.
Qed.

Example C07_hypotheses :
  let h := [[mkRange 10 5]] in
  let cs := [mkCall ["sha1"] (Some 0%nat) "x"] in
  distinct_lists h cs /\ (length cs <= 1)%nat /\
  option_map snd (hashes ex_H 100 (do_calls (fp_new h ex_file 5) cs)) =
  Some (raise RuntimeError "Short read on file.").
Proof.
  split; [split; cbn; repeat constructor; intros []|]. split; [reflexivity|]. vm_compute. reflexivity.
Qed.
