(** Properties C08-C16: PE parsing, authentihash, certificate table. *)
From Verif Require Import Base Bytes Monad ModelFile ModelFingerprint ModelPE
  SpecFingerprint SpecPE ProofsFingerprint3 ProofsPE ProofsPE2 ProofsPE3 PropertiesFingerprint.

(** *** Concrete data: a PE32 image whose headers end at offset 224 *)
Definition zeros (n : nat) : bytes := repeat x00 n.
Definition ex_pe (addr size : Z) (tail : bytes) : bytes :=
  str "MZ" ++ zeros 58 ++ Z_to_le 4 64 ++
  [x50; x45; x00; x00] ++ zeros 16 ++ Z_to_le 2 136 ++ zeros 2 ++
  Z_to_le 2 0x10B ++ zeros 90 ++ Z_to_le 4 16 ++ zeros 32 ++ Z_to_le 4 addr ++ Z_to_le 4 size ++
  tail.
Definition ex_entries : list cert_entry :=
  [mkEntry 0x200 2 (str "first blob"); mkEntry 0x100 1 (str "12345678"); mkEntry 0x200 2 (str "x")].
Definition ex_table : bytes := enc_table ex_entries.
(** sections: 16 bytes of code, then the table, then 8 more bytes *)
Definition ex_signed : file :=
  mkFile (ex_pe 240 (zlen ex_table) (str "0123456789abcdef" ++ ex_table ++ str "trailing")) 7.
Definition ex_secs : dict relrange :=
  [("checksum", mkRel 152 4); ("datadir_certtable", mkRel 216 8); ("certtable", mkRel 240 56)].

Example ex_signed_sections : snd (omit_sections ex_signed) = Ok (Some ex_secs).
Proof. vm_compute. reflexivity. Qed.

(** *** C08 *)

(** get_authenticode_omit_sections() returns for every byte string and position, does not
    change the content, and gives the same answer from every position. *)
Theorem C08_total_position_independent :
  forall data p,
  exists r, snd (omit_sections (mkFile data p)) = Ok r /\
    f_bytes (fst (omit_sections (mkFile data p))) = data /\
    forall p', snd (omit_sections (mkFile data p')) = Ok r.
Proof. exact c08. Qed.
Print Assumptions C08_total_position_independent.

Example C08_run :
  snd (omit_sections (mkFile (str "MZ") 1)) = Ok None /\
  snd (omit_sections (mkFile (f_bytes ex_signed) 300)) = Ok (Some ex_secs).
Proof. vm_compute. split; reflexivity. Qed.

(** *** C09 *)

(** None exactly for unusable images; otherwise the three sections are present exactly
    when the PE layout ([usable], [has_dir_entry], [has_cert_table] of SpecPE.v) has them,
    at the offsets it puts them, and there is nothing else in the dict. *)
Theorem C09_sections_follow_layout :
  forall f,
  (snd (omit_sections f) = Ok None <->
     forall opt size magic, ~ usable (f_bytes f) opt size magic) /\
  (forall opt size magic, usable (f_bytes f) opt size magic ->
     exists d, snd (omit_sections f) = Ok (Some d) /\
       dict_get "checksum" d = Some (mkRel (opt + 64) 4) /\
       (forall s, dict_get "datadir_certtable" d = Some s <->
          has_dir_entry (f_bytes f) opt size magic /\ s = mkRel (opt + dir_off magic) 8) /\
       (forall s, dict_get "certtable" d = Some s <->
          has_cert_table (f_bytes f) opt size magic (rel_start s) (rel_length s)) /\
       (forall k, In k (map fst d) -> In k ["checksum"; "datadir_certtable"; "certtable"])).
Proof. exact c09. Qed.
Print Assumptions C09_sections_follow_layout.

Example C09_usable : usable (f_bytes ex_signed) 88 136 0x10B /\
  has_cert_table (f_bytes ex_signed) 88 136 0x10B 240 56.
Proof. vm_compute. repeat split; try discriminate; auto. Qed.

(** *** C10 *)

Theorem C10_sections_wellformed :
  forall f d, snd (omit_sections f) = Ok (Some d) ->
  (exists n, (1 <= n)%nat /\ map fst d = firstn n ["checksum"; "datadir_certtable"; "certtable"]) /\
  Forall (section_in (file_len f)) (map snd d) /\
  ForallOrdPairs before (map snd d).
Proof. exact c10. Qed.
Print Assumptions C10_sections_wellformed.

Example C10_hypotheses : snd (omit_sections ex_signed) = Ok (Some ex_secs).
Proof. exact ex_signed_sections. Qed.

(** *** C11 *)

(** Whatever else is registered before ([cs1]) or after ([cs2]): the "authentihash" result
    is the digest of the file without the omitted sections, and the other results are what
    they are without it.  [cs2] may not reuse the description "authentihash" (the later
    registration would win, see C01). *)
Theorem C11_authentihash :
  forall (H : string -> bytes -> bytes) h f bs cs1 names cs2 d st1 b,
  0 < bs -> distinct_lists h (cs1 ++ cs2) ->
  (forall c, In c (cs1 ++ cs2) -> Forall (valid_range (file_len f)) (requested h (file_len f) c)) ->
  (forall c, In c cs2 -> c_desc c <> "authentihash") ->
  snd (omit_sections f) = Ok (Some d) ->
  add_authenticode_hashers (do_calls (fp_new h f bs) cs1) names = (st1, b) ->
  b = Ok true /\
  exists st' r,
    terminates_with (fun n => hashes H n (do_calls st1 cs2)) (st', Ok r) /\
    NoDup (map fst r) /\
    (exists inner, dict_get "authentihash" r = Some inner /\ NoDup (map fst inner) /\
       forall n, dict_get n inner =
         if in_dec string_dec n names then Some (H n (kept (map snd d) (f_bytes f))) else None) /\
    (forall k, k <> "authentihash" ->
       match last_call k (cs1 ++ cs2) with
       | None => dict_get k r = None
       | Some c => exists inner, dict_get k r = Some inner /\ NoDup (map fst inner) /\
           forall n, dict_get n inner =
             if in_dec string_dec n (c_hashers c)
             then Some (H n (slices (f_bytes f) (requested h (file_len f) c))) else None
       end).
Proof. exact c11_ok. Qed.
Print Assumptions C11_authentihash.

Theorem C11_unparsable :
  forall h f bs cs names,
  snd (omit_sections f) = Ok None ->
  let st := do_calls (fp_new h f bs) cs in
  snd (add_authenticode_hashers st names) = Ok false /\
  same_but_pos (fst (add_authenticode_hashers st names)) st.
Proof. exact c11_unparsable. Qed.
Print Assumptions C11_unparsable.

Example C11_hypotheses :
  distinct_lists ex_heap (ex_calls ++ []) /\
  (forall c, In c (ex_calls ++ []) ->
     Forall (valid_range (file_len ex_signed)) (requested ex_heap (file_len ex_signed) c)) /\
  snd (omit_sections ex_signed) = Ok (Some ex_secs).
Proof.
  split; [exact ex_distinct|]. split; [|exact ex_signed_sections].
  unfold valid_range. intros c [<-|[<-|[<-|[]]]]; vm_compute; repeat constructor; discriminate.
Qed.

Example C11_run :
  let st1 := fst (add_authenticode_hashers (do_calls (fp_new ex_heap ex_signed 50) ex_calls) ["sha256"]) in
  match option_map snd (hashes ex_H 100 st1) with
  | Some (Ok r) => option_map (dict_get "sha256") (dict_get "authentihash" r)
  | _ => None
  end =
  Some (Some (zslice 0 152 (f_bytes ex_signed) ++ zslice 156 216 (f_bytes ex_signed) ++
              zslice 224 240 (f_bytes ex_signed) ++ zslice 296 304 (f_bytes ex_signed))).
Proof. vm_compute. reflexivity. Qed.

Example C11_unparsable_run :
  snd (omit_sections ex_file) = Ok None /\
  snd (add_authenticode_hashers (do_calls (fp_new ex_heap ex_file 50) ex_calls) ["sha256"]) = Ok false.
Proof. vm_compute. split; reflexivity. Qed.

(** *** C12 *)

Theorem C12_sensitive :
  forall f1 f2 d, file_len f1 = file_len f2 ->
  snd (omit_sections f1) = Ok (Some d) -> snd (omit_sections f2) = Ok (Some d) ->
  (kept (map snd d) (f_bytes f1) = kept (map snd d) (f_bytes f2) <->
   forall n, (n < length (f_bytes f1))%nat -> omitted (map snd d) (Z.of_nat n) = false ->
     nth_error (f_bytes f1) n = nth_error (f_bytes f2) n).
Proof. exact c12_sensitive. Qed.
Print Assumptions C12_sensitive.

(** Any rewriting of the checksum and of the table contents. *)
Theorem C12_insensitive :
  forall f1 f2 d, file_len f1 = file_len f2 ->
  snd (omit_sections f1) = Ok (Some d) ->
  (forall n, (n < length (f_bytes f1))%nat ->
     (forall s, dict_get "checksum" d = Some s \/ dict_get "certtable" d = Some s ->
        in_section (Z.of_nat n) s = false) ->
     nth_error (f_bytes f1) n = nth_error (f_bytes f2) n) ->
  snd (omit_sections f2) = Ok (Some d) /\
  kept (map snd d) (f_bytes f2) = kept (map snd d) (f_bytes f1).
Proof. exact c12_insensitive. Qed.
Print Assumptions C12_insensitive.

(** the same image with other table contents and another checksum *)
Definition ex_patched : file :=
  mkFile (ztake 152 (f_bytes ex_signed) ++ str "####" ++ zslice 156 240 (f_bytes ex_signed) ++
          repeat x2a 56 ++ zskip 296 (f_bytes ex_signed)) 0.
Example C12_run :
  f_bytes ex_patched <> f_bytes ex_signed /\ file_len ex_signed = file_len ex_patched /\
  snd (omit_sections ex_patched) = Ok (Some ex_secs) /\
  kept (map snd ex_secs) (f_bytes ex_patched) = kept (map snd ex_secs) (f_bytes ex_signed).
Proof. split; [vm_compute; discriminate|]. vm_compute. auto. Qed.

(** *** C13 *)

(** Full statement: two files of equal length with the same authentihash input agree at
    every offset outside the omitted sections of both.  It is false: moving the certificate
    table shifts the bytes behind it. *)
Definition ex_moved1 : file := mkFile (ex_pe 224 8 (str "TTTTTTTT" ++ str "11111111" ++ str "22222222" ++ str "33333333")) 0.
Definition ex_moved2 : file := mkFile (ex_pe 240 8 (str "11111111" ++ str "22222222" ++ str "TTTTTTTT" ++ str "33333333")) 0.

Theorem C13_refuted :
  exists f1 f2 d1 d2 n,
    file_len f1 = file_len f2 /\
    snd (omit_sections f1) = Ok (Some d1) /\ snd (omit_sections f2) = Ok (Some d2) /\
    kept (map snd d1) (f_bytes f1) = kept (map snd d2) (f_bytes f2) /\
    (n < length (f_bytes f1))%nat /\
    omitted (map snd d1) (Z.of_nat n) = false /\ omitted (map snd d2) (Z.of_nat n) = false /\
    nth_error (f_bytes f1) n <> nth_error (f_bytes f2) n.
Proof.
  exists ex_moved1, ex_moved2,
    [("checksum", mkRel 152 4); ("datadir_certtable", mkRel 216 8); ("certtable", mkRel 224 8)],
    [("checksum", mkRel 152 4); ("datadir_certtable", mkRel 216 8); ("certtable", mkRel 240 8)],
    232%nat.
  vm_compute. repeat split; try reflexivity; try discriminate. repeat constructor.
Qed.
Print Assumptions C13_refuted.

(** What does hold: files with the same input (of any lengths) agree at every offset
    outside the omitted sections of both that has the same number of omitted bytes in
    front of it in both; in particular everywhere if the sections are the same.  Missing:
    offsets where the numbers differ ([C13_refuted]). *)
Theorem C13_same_shift_partial :
  forall f1 f2 d1 d2 n,
  snd (omit_sections f1) = Ok (Some d1) -> snd (omit_sections f2) = Ok (Some d2) ->
  kept (map snd d1) (f_bytes f1) = kept (map snd d2) (f_bytes f2) ->
  (n < length (f_bytes f1))%nat -> (n < length (f_bytes f2))%nat ->
  omitted (map snd d1) (Z.of_nat n) = false -> omitted (map snd d2) (Z.of_nat n) = false ->
  omitted_before (map snd d1) n = omitted_before (map snd d2) n ->
  nth_error (f_bytes f1) n = nth_error (f_bytes f2) n.
Proof. exact c13_partial. Qed.
Print Assumptions C13_same_shift_partial.

Example C13_hypotheses :
  exists d1 d2, snd (omit_sections ex_moved1) = Ok (Some d1) /\
    snd (omit_sections ex_moved2) = Ok (Some d2) /\ d1 <> d2 /\
    kept (map snd d1) (f_bytes ex_moved1) = kept (map snd d2) (f_bytes ex_moved2) /\
    omitted_before (map snd d1) 250 = omitted_before (map snd d2) 250.
Proof.
  eexists _, _. split; [vm_compute; reflexivity|]. split; [vm_compute; reflexivity|].
  split; [discriminate|]. vm_compute. auto.
Qed.

(** *** C14 *)

(** With a certificate table: the walk terminates; every entry lies in the table, its blob
    is non-empty and is exactly the bytes from 8 bytes into the entry; entries do not
    overlap and are in increasing order; and the walk ends normally only at the end of the
    table, otherwise with SignedPEParseError at a bad header. *)
Theorem C14_walk_safe :
  forall f d s,
  snd (omit_sections f) = Ok (Some d) -> dict_get "certtable" d = Some s ->
  let data := f_bytes f in
  let lim := rel_start s + rel_length s in
  exists es x ps last,
    terminates_with (fun n => cert_table n f) (es, x) /\
    entries_at data lim (rel_start s) es last /\
    Forall2 (fun p e => rel_start s <= p /\ 0 < zlen (ce_certificate e) /\
               p + 8 + zlen (ce_certificate e) <= lim /\
               ce_certificate e = zslice (p + 8) (p + 8 + zlen (ce_certificate e)) data) ps es /\
    ForallOrdPairs before (map (fun pe => extent (fst pe) (snd pe)) (combine ps es)) /\
    ((x = None /\ lim <= last) \/
     (exists e, x = Some e /\ e_class e = SignedPEParseError /\ last < lim /\ bad_header data lim last)).
Proof. exact c14_table. Qed.
Print Assumptions C14_walk_safe.

(** Without one it raises SignedPEParseError at once. *)
Theorem C14_no_table :
  forall f,
  (forall d s, snd (omit_sections f) = Ok (Some d) -> dict_get "certtable" d <> Some s) ->
  exists e, e_class e = SignedPEParseError /\ terminates_with (fun n => cert_table n f) ([], Some e).
Proof. exact c14_no_table. Qed.
Print Assumptions C14_no_table.

(** a table with one good entry followed by a header of length 8 *)
Definition ex_bad_table : file :=
  mkFile (ex_pe 224 40 (enc_padded (mkEntry 0x200 2 (str "first blob")) ++ Z_to_le 4 8 ++ zeros 12)) 0.
Example C14_run :
  cert_table 10 ex_bad_table =
    Some ([mkEntry 0x200 2 (str "first blob")],
          Some (mkExn SignedPEParseError "Invalid length in certificate table header")).
Proof. vm_compute. reflexivity. Qed.
Example C14_no_table_run :
  cert_table 10 ex_file =
    Some ([], Some (mkExn SignedPEParseError "The PE file does not contain a certificate table.")).
Proof. vm_compute. reflexivity. Qed.

(** *** C15 *)

(** Also when the last entry is not padded. *)
Theorem C15_round_trip :
  forall f d s es,
  snd (omit_sections f) = Ok (Some d) -> dict_get "certtable" d = Some s ->
  Forall encodable es ->
  table_encoding es (zslice (rel_start s) (rel_start s + rel_length s) (f_bytes f)) ->
  terminates_with (fun n => cert_table n f) (es, None).
Proof. exact c15. Qed.
Print Assumptions C15_round_trip.

Example C15_hypotheses :
  dict_get "certtable" ex_secs = Some (mkRel 240 56) /\ Forall encodable ex_entries /\
  table_encoding ex_entries (zslice 240 (240 + 56) (f_bytes ex_signed)).
Proof.
  split; [reflexivity|]. split; [|left; vm_compute; reflexivity].
  unfold ex_entries. repeat (constructor; [unfold encodable; vm_compute; intuition discriminate|]).
  constructor.
Qed.
Example C15_run : cert_table 10 ex_signed = Some (ex_entries, None).
Proof. vm_compute. reflexivity. Qed.

(** *** C16 *)

(** [act k] is whatever other users do to the file object before the [k]-th step; it may
    do anything except change the content. *)
Theorem C16_interleaving :
  forall act f fuel,
  (forall k f, f_bytes (act k f) = f_bytes f) ->
  walk_interleaved act 0 fuel (file_len f) GStart f = cert_table fuel f.
Proof. exact c16. Qed.
Print Assumptions C16_interleaving.

(** hashes() of a fingerprinter on the same file is such an action. *)
Theorem C16_hashes_keeps_content :
  forall (H : string -> bytes -> bytes) fuel st st' r,
  hashes H fuel st = Some (st', r) -> f_bytes (fp_file st') = f_bytes (fp_file st).
Proof. exact hashes_file_bytes. Qed.
Print Assumptions C16_hashes_keeps_content.

Example C16_run :
  walk_interleaved (fun k f => mkFile (f_bytes f) (Z.of_nat k * 17)) 0 10
    (file_len ex_signed) GStart ex_signed = Some (ex_entries, None).
Proof. vm_compute. reflexivity. Qed.
