(** Properties C57 and C58: which changes of a file a verification notices. *)
From Verif Require Import Base Bytes Monad ModelFile ModelFingerprint SpecFingerprint ModelPE SpecPE ModelX509 SpecX509
  ModelContext SpecContext ModelPkcs7 ModelAuthenticode SpecAuthenticode SpecSignedPE SpecWhole
  ProofsWhole2 ProofsWhole3 PropertiesFingerprint
  PropertiesX509 PropertiesContext PropertiesPE PropertiesPkcs7 PropertiesAuthenticode PropertiesSignedPE.

(** *** C57: one signature, one image *)

(** Full statement: two files for which signatures with the same digest are accepted agree at
    every offset outside the omitted sections of both, or the bytes that were hashed are a
    collision. *)

(** It holds for the hashed bytes: whatever the two verifications are, they had the same hash. *)
Theorem C57_same_hash_partial :
  forall load E depth fuel mode ign v w out load' depth' fuel' mode' ign' v' w' out' a c a' c',
  verify_result load E depth fuel mode None ign v w = Ok out ->
  verify_result load' E depth' fuel' mode' None ign' v' w' = Ok out' ->
  In (a, c) out -> In (a', c') out' ->
  digest_of a = digest_of a' -> sp_digest (asd_spc a) = sp_digest (asd_spc a') ->
  exists d d', snd (omit_sections (w_file w)) = Ok (Some d) /\ snd (omit_sections (w_file w')) = Ok (Some d') /\
    e_hash E (digest_of a) (kept (map snd d) (f_bytes (w_file w))) =
    e_hash E (digest_of a) (kept (map snd d') (f_bytes (w_file w'))).
Proof. exact c57_one. Qed.
Print Assumptions C57_same_hash_partial.

(** It holds for files of the same layout: if all signatures of a file are accepted, and any of
    its bytes outside the omitted sections is changed, then no mode and no arguments make the
    verification of the changed file succeed without a collision. *)
Theorem C57_modification_partial :
  forall load E depth fuel fuel' mode ign v v' w w' out out' d n,
  file_len (w_file w) = file_len (w_file w') ->
  snd (omit_sections (w_file w)) = Ok (Some d) -> snd (omit_sections (w_file w')) = Ok (Some d) ->
  (forall i, omitted (map snd d) (Z.of_nat i) = true ->
     nth_error (f_bytes (w_file w)) i = nth_error (f_bytes (w_file w')) i) ->
  nth_error (f_bytes (w_file w)) n <> nth_error (f_bytes (w_file w')) n ->
  verify_result load E depth fuel "all" None ign v w = Ok out ->
  verify_result load E depth fuel' mode None ign v' w' = Ok out' ->
  exists alg x y, In alg accepted_digest_algorithms /\
    x = kept (map snd d) (f_bytes (w_file w)) /\ y = kept (map snd d) (f_bytes (w_file w')) /\
    x <> y /\ e_hash E alg x = e_hash E alg y.
Proof. exact c57_modified. Qed.
Print Assumptions C57_modification_partial.

(** It holds if the certificate tables are at the end of the files, whatever their contents
    and lengths. *)
Theorem C57_table_at_end_partial :
  forall load E depth fuel mode ign v w out load' depth' fuel' mode' ign' v' w' out' a c a' c' d d' s s',
  verify_result load E depth fuel mode None ign v w = Ok out ->
  verify_result load' E depth' fuel' mode' None ign' v' w' = Ok out' ->
  In (a, c) out -> In (a', c') out' ->
  digest_of a = digest_of a' -> sp_digest (asd_spc a) = sp_digest (asd_spc a') ->
  snd (omit_sections (w_file w)) = Ok (Some d) -> snd (omit_sections (w_file w')) = Ok (Some d') ->
  dict_get "certtable" d = Some s -> dict_get "certtable" d' = Some s' ->
  rel_start s + rel_length s = file_len (w_file w) -> rel_start s' + rel_length s' = file_len (w_file w') ->
  (let x := kept (map snd d) (f_bytes (w_file w)) in let y := kept (map snd d') (f_bytes (w_file w')) in
   x <> y /\ e_hash E (digest_of a) x = e_hash E (digest_of a) y) \/
  (rel_start s = rel_start s' /\ dict_get "checksum" d = dict_get "checksum" d' /\
   dict_get "datadir_certtable" d = dict_get "datadir_certtable" d' /\
   forall n, Z.of_nat n < rel_start s -> omitted (map snd d) (Z.of_nat n) = false ->
     nth_error (f_bytes (w_file w)) n = nth_error (f_bytes (w_file w')) n).
Proof. exact c57_end_to_end. Qed.
Print Assumptions C57_table_at_end_partial.

(** It does not hold in general: the same signature is accepted after its table was moved,
    which shifts the bytes between the two places. *)
Definition ex_one_entry : bytes := enc_table [mkEntry 0x200 2 (str "A")].
Definition ex_table_first : file := mkFile (ex_pe 224 16 (ex_one_entry ++ str "0123456789abcdefghijklmnopqrstuv")) 0.
Definition ex_table_last : file := mkFile (ex_pe 256 16 (str "0123456789abcdefghijklmnopqrstuv" ++ ex_one_entry)) 0.

Theorem C57_refuted :
  exists load E depth fuel mode ign v w w' out out' a c c' d d' n,
    verify_result load E depth fuel mode None ign v w = Ok out /\
    verify_result load E depth fuel mode None ign v w' = Ok out' /\
    In (a, c) out /\ In (a, c') out' /\ file_len (w_file w) = file_len (w_file w') /\
    snd (omit_sections (w_file w)) = Ok (Some d) /\ snd (omit_sections (w_file w')) = Ok (Some d') /\
    omitted (map snd d) (Z.of_nat n) = false /\ omitted (map snd d') (Z.of_nat n) = false /\
    nth_error (f_bytes (w_file w)) n <> nth_error (f_bytes (w_file w')) n /\
    kept (map snd d) (f_bytes (w_file w)) = kept (map snd d') (f_bytes (w_file w')).
Proof.
  exists (ex_one ex_table_first), ex_venv, 9%nat, 400%nat, "all", true, (ex_v None None "strict"),
    (ex_worldf ex_table_first), (ex_worldf ex_table_last). do 7 eexists. exists 245%nat.
  split; [vm_compute; reflexivity|]. split; [vm_compute; reflexivity|].
  split; [left; reflexivity|]. split; [left; reflexivity|]. split; [reflexivity|].
  split; [vm_compute; reflexivity|]. split; [vm_compute; reflexivity|].
  split; [reflexivity|]. split; [reflexivity|]. split; [vm_compute; discriminate|]. vm_compute. reflexivity.
Qed.
Print Assumptions C57_refuted.

(** A file and a changed one: the second is rejected in every mode. *)
Example C57_run :
  let load := ex_one ex_table_last in
  let try f mode := verify_result load ex_venv 9 400 mode None true (ex_v None None "strict") (ex_worldf f) in
  let changed := mkFile (ztake 230 (f_bytes ex_table_last) ++ [x21] ++ zskip 231 (f_bytes ex_table_last)) 0 in
  is_ok (try ex_table_last "all") = true /\
  map (try changed) ["any"; "first"; "all"; "best"] = repeat (Err ex_invalid) 4 /\
  snd (omit_sections changed) = snd (omit_sections ex_table_last) /\
  exists d s, snd (omit_sections ex_table_last) = Ok (Some d) /\ dict_get "certtable" d = Some s /\
    rel_start s + rel_length s = file_len ex_table_last.
Proof.
  vm_compute. repeat split. do 2 eexists. split; [reflexivity|]. split; reflexivity.
Qed.

(** *** C58: what the result depends on *)

(** Nothing of the file but its certificate table and its hashes: with the same stores and
    contexts the results are the same, and so is what is left of stores and contexts. *)
Theorem C58_determined :
  forall load E depth mode expected ign v w w' es tail,
  w_stores w = w_stores w' -> w_contexts w = w_contexts w' ->
  terminates_with (fun k => cert_table k (w_file w)) (es, tail) ->
  terminates_with (fun k => cert_table k (w_file w')) (es, tail) ->
  (forall alg h, authentihash_of E (f_bytes (w_file w)) alg h <-> authentihash_of E (f_bytes (w_file w')) alg h) ->
  exists N, forall fuel, (N <= fuel)%nat ->
    verify_result load E depth fuel mode expected ign v w = verify_result load E depth fuel mode expected ign v w' /\
    let after u := fst (fst (pe_open_verify load E depth fuel mode expected ign v u)) in
    w_stores (after w) = w_stores (after w') /\ w_contexts (after w) = w_contexts (after w').
Proof. exact determined. Qed.
Print Assumptions C58_determined.

(** In particular not the checksum. *)
Theorem C58_checksum :
  forall load E depth mode expected ign v w w' d s,
  w_stores w = w_stores w' -> w_contexts w = w_contexts w' ->
  file_len (w_file w) = file_len (w_file w') ->
  snd (omit_sections (w_file w)) = Ok (Some d) -> dict_get "checksum" d = Some s ->
  (forall n, in_section (Z.of_nat n) s = false -> nth_error (f_bytes (w_file w)) n = nth_error (f_bytes (w_file w')) n) ->
  exists N, forall fuel, (N <= fuel)%nat ->
    verify_result load E depth fuel mode expected ign v w = verify_result load E depth fuel mode expected ign v w'.
Proof. exact c58_checksum. Qed.
Print Assumptions C58_checksum.

Example C58_run :
  let other := mkFile (ztake 152 (f_bytes ex_table_last) ++ str "####" ++ zskip 156 (f_bytes ex_table_last)) 0 in
  let try f := verify_result (ex_one ex_table_last) ex_venv 9 400 "any" None true (ex_v None None "strict") (ex_worldf f) in
  f_bytes other <> f_bytes ex_table_last /\ is_ok (try other) = true /\ try other = try ex_table_last.
Proof. vm_compute. repeat split. discriminate. Qed.
