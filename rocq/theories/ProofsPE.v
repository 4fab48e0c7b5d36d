(** Proofs about PE header parsing and the authentihash (C08-C13). *)
From Verif Require Import Base Bytes Monad ModelFile ModelFingerprint ModelPE
  SpecFingerprint SpecPE ProofsFingerprint ProofsFingerprint2.
From Coq Require Import ZifyBool ZifyNat.

(** ** Reading is a function of the content *)

Lemma seek_read {A} z n (K : bytes -> M file A) f :
  0 <= z -> 0 <= n ->
  mbind (fseek z) (fun _ => mbind (fread n) K) f =
  K (zslice z (z + n) (f_bytes f))
    (mkFile (f_bytes f) (z + zlen (zslice z (z + n) (f_bytes f)))).
Proof.
  intros Hz Hn. unfold mbind, fseek, file_seek. destruct (z <? 0) eqn:C; [lia|].
  unfold fread, file_read. cbn [f_bytes f_pos]. destruct (n <? 0) eqn:C2; [lia|].
  unfold zslice. now replace (z + n - z) with n by lia.
Qed.

Lemma bind_mres_ok {S A B} (a : A) (K : A -> M S B) s : mbind (mres (Ok a)) K s = K a s.
Proof. reflexivity. Qed.
Lemma bind_mres_err {S A B} e (K : A -> M S B) s : mbind (mres (Err e)) K s = (s, Err e).
Proof. reflexivity. Qed.

(** The header parser as a function of the bytes alone. *)
Definition parse_pure (flen : Z) (data : bytes) : res (dict relrange) :=
  if negb (bytes_eqb (zslice 0 (0 + 2) data) MZ_sig) then raise SignedPEParseError "MZ header not found" else
  let? pe_offset := unpack 4 (zslice 60 (60 + 4) data) in
  if flen <=? pe_offset then raise SignedPEParseError "PE header location is beyond file boundaries" else
  if negb (bytes_eqb (zslice pe_offset (pe_offset + 4) data) PE_sig) then raise SignedPEParseError "PE header not found" else
  let? size := unpack 2 (zslice (pe_offset + 20) (pe_offset + 20 + 2) data) in
  let opt := pe_offset + 24 in
  if flen <? size + opt then raise SignedPEParseError "The optional header exceeds the file length" else
  if size <? 68 then raise SignedPEParseError "The optional header size is insufficient for authenticode" else
  let? signature := unpack 2 (zslice opt (opt + 2) data) in
  let? bases := (if signature =? 0x10B then Ok (opt + 92, opt + 128)
                 else if signature =? 0x20B then Ok (opt + 108, opt + 144)
                 else raise SignedPEParseError "The PE Optional Header signature is unknown") in
  let location := [("checksum", mkRel (opt + 64) 4)] in
  if opt + size <? fst bases + 4 then Ok location else
  let? nrva := unpack 4 (zslice (fst bases) (fst bases + 4) data) in
  if nrva <? 5 then Ok location else
  if opt + size <? snd bases + 8 then Ok location else
  let location := dict_set "datadir_certtable" (mkRel (snd bases) 8) location in
  let? asz := unpack_II (zslice (snd bases) (snd bases + 8) data) in
  if snd asz =? 0 then Ok location else
  if (fst asz <? size + opt) || (flen <? fst asz + snd asz) then Ok location
  else Ok (dict_set "certtable" (mkRel (fst asz) (snd asz)) location).

Lemma unpack_nonneg n b z : unpack n b = Ok z -> 0 <= z.
Proof.
  unfold unpack. destruct (zlen b =? n); [|discriminate]. intros H; injection H as <-.
  apply le_to_Z_nonneg.
Qed.

Lemma parse_pe_pure flen f :
  f_bytes (fst (parse_pe_header_locations flen f)) = f_bytes f /\
  snd (parse_pe_header_locations flen f) = parse_pure flen (f_bytes f).
Proof.
  unfold parse_pe_header_locations, parse_pure.
  rewrite seek_read by lia.
  destruct (negb (bytes_eqb (zslice 0 (0 + 2) (f_bytes f)) MZ_sig)); [split; reflexivity|].
  rewrite seek_read by lia. cbn [f_bytes].
  destruct (unpack 4 (zslice 60 (60 + 4) (f_bytes f))) as [pe|e] eqn:Epe; cbn [rbind];
    [rewrite bind_mres_ok|split; reflexivity].
  pose proof (unpack_nonneg _ _ _ Epe) as Hpe.
  destruct (flen <=? pe); [split; reflexivity|].
  rewrite seek_read by lia. cbn [f_bytes].
  destruct (negb (bytes_eqb (zslice pe (pe + 4) (f_bytes f)) PE_sig)); [split; reflexivity|].
  rewrite seek_read by lia. cbn [f_bytes].
  destruct (unpack 2 (zslice (pe + 20) (pe + 20 + 2) (f_bytes f))) as [size|e] eqn:Esz; cbn [rbind];
    [rewrite bind_mres_ok|split; reflexivity].
  cbv zeta.
  destruct (flen <? size + (pe + 24)); [split; reflexivity|].
  destruct (size <? 68); [split; reflexivity|].
  rewrite seek_read by lia. cbn [f_bytes].
  destruct (unpack 2 (zslice (pe + 24) (pe + 24 + 2) (f_bytes f))) as [sg|e] eqn:Esg; cbn [rbind];
    [rewrite bind_mres_ok|split; reflexivity].
  set (r := if sg =? 0x10B then Ok (pe + 24 + 92, pe + 24 + 128)
            else if sg =? 0x20B then Ok (pe + 24 + 108, pe + 24 + 144)
            else raise SignedPEParseError "The PE Optional Header signature is unknown").
  assert (Hr : (if sg =? 0x10B then mret (pe + 24 + 92, pe + 24 + 128)
                else if sg =? 0x20B then mret (pe + 24 + 108, pe + 24 + 144)
                else pe_fail "The PE Optional Header signature is unknown") = @mres file _ r).
  { unfold r. destruct (sg =? 0x10B); [reflexivity|]. destruct (sg =? 0x20B); reflexivity. }
  rewrite Hr. clear Hr.
  assert (Hr2 : match r with Ok (a, b) => 0 <= a /\ 0 <= b | Err _ => True end).
  { unfold r. destruct (sg =? 0x10B); [lia|]. destruct (sg =? 0x20B); [lia|exact I]. }
  clearbody r.
  destruct r as [[rva cb]|e]; cbn [rbind fst snd]; [rewrite bind_mres_ok|split; reflexivity].
  destruct (pe + 24 + size <? rva + 4); [split; reflexivity|].
  rewrite seek_read by lia. cbn [f_bytes].
  destruct (unpack 4 (zslice rva (rva + 4) (f_bytes f))) as [nrva|e]; cbn [rbind];
    [rewrite bind_mres_ok|split; reflexivity].
  destruct (nrva <? 5); [split; reflexivity|].
  destruct (pe + 24 + size <? cb + 8); [split; reflexivity|].
  rewrite seek_read by lia. cbn [f_bytes].
  destruct (unpack_II (zslice cb (cb + 8) (f_bytes f))) as [[ad sz]|e]; cbn [rbind fst snd];
    [rewrite bind_mres_ok|split; reflexivity].
  destruct (sz =? 0); [split; reflexivity|].
  destruct ((ad <? size + (pe + 24)) || (flen <? ad + sz)); split; reflexivity.
Qed.

Definition omit_pure (flen : Z) (data : bytes) : res (option (dict relrange)) :=
  match parse_pure flen data with
  | Ok l => Ok (Some (filter
       (fun kv => str_mem (fst kv) ["checksum"; "datadir_certtable"; "certtable"]) l))
  | Err e => if catches SignedPEParseError e || catches StructError e then Ok None else Err e
  end.

Lemma omit_sections_pure flen f :
  f_bytes (fst (get_authenticode_omit_sections flen f)) = f_bytes f /\
  snd (get_authenticode_omit_sections flen f) = omit_pure flen (f_bytes f).
Proof.
  unfold get_authenticode_omit_sections, omit_pure, mtry, mbind.
  destruct (parse_pe_pure flen f) as [H1 H2].
  destruct (parse_pe_header_locations flen f) as [f' r]. cbn [fst snd] in H1, H2. subst r.
  destruct (parse_pure flen (f_bytes f)) as [l|e]; [split; [exact H1|reflexivity]|].
  destruct (catches SignedPEParseError e || catches StructError e); split; auto.
Qed.

(** ** The layout *)

Lemma unpack_slice n off data :
  0 <= off -> 0 <= n ->
  unpack n (zslice off (off + n) data) =
  if off + n <=? zlen data then Ok (le_to_Z (zslice off (off + n) data))
  else if n =? 0 then Ok (le_to_Z (zslice off (off + n) data))
  else raise StructError "unpack requires a buffer of n bytes".
Proof.
  intros Ho Hn. unfold unpack.
  assert (Hl : zlen (zslice off (off + n) data) = Z.max 0 (Z.min n (Z.max 0 (zlen data - off)))).
  { unfold zslice. rewrite zlen_ztake, zlen_zskip by lia. lia. }
  rewrite Hl. pose proof (zlen_nonneg data).
  destruct (off + n <=? zlen data) eqn:C.
  - destruct (_ =? n) eqn:D; [reflexivity|lia].
  - destruct (n =? 0) eqn:E; destruct (_ =? n) eqn:D; try reflexivity; lia.
Qed.

Lemma zslice_zslice {A} a b c d (l : list A) :
  0 <= a -> 0 <= c -> c <= d -> a + d <= b -> zslice c d (zslice a b l) = zslice (a + c) (a + d) l.
Proof.
  intros Ha Hc Hcd Hb. unfold zslice. rewrite !ztake_firstn, !zskip_skipn by lia.
  rewrite skipn_firstn_comm, firstn_firstn, skipn_skipn'.
  f_equal; [lia|]. f_equal. lia.
Qed.

Lemma unpack_II_slice off data :
  0 <= off -> off + 8 <= zlen data ->
  unpack_II (zslice off (off + 8) data) = Ok (u32 data off, u32 data (off + 4)).
Proof.
  intros Ho Hl. unfold unpack_II. rewrite zlen_zslice by lia.
  replace (off + 8 - off) with 8 by lia. cbn [Z.eqb Pos.eqb].
  rewrite !zslice_zslice by lia. unfold u32.
  replace (off + 0) with off by lia. replace (off + 4 + 4) with (off + 8) by lia. reflexivity.
Qed.

Lemma u16_range data off : 0 <= u16 data off.
Proof. apply le_to_Z_nonneg. Qed.
Lemma u32_range data off : 0 <= u32 data off.
Proof. apply le_to_Z_nonneg. Qed.

Definition dict_of_layout (opt magic : Z) (dir : bool) (tab : option (Z * Z)) : dict relrange :=
  [("checksum", mkRel (opt + 64) 4)] ++
  (if dir then [("datadir_certtable", mkRel (opt + dir_off magic) 8)] else []) ++
  (match tab with Some (a, l) => [("certtable", mkRel a l)] | None => [] end).

(** Everything about the result, in one inductive statement. *)
Inductive layout_spec (data : bytes) : option (dict relrange) -> Prop :=
| layout_none :
    (forall opt size magic, ~ usable data opt size magic) -> layout_spec data None
| layout_some opt size magic dir tab :
    usable data opt size magic ->
    (dir = true <-> has_dir_entry data opt size magic) ->
    (forall a l, tab = Some (a, l) <-> has_cert_table data opt size magic a l) ->
    layout_spec data (Some (dict_of_layout opt magic dir tab)).

Lemma usable_fun data o1 s1 m1 o2 s2 m2 :
  usable data o1 s1 m1 -> usable data o2 s2 m2 -> o1 = o2 /\ s1 = s2 /\ m1 = m2.
Proof. unfold usable. intros H1 H2. intuition congruence. Qed.

Lemma usable_opt_bounds data opt size magic :
  usable data opt size magic -> 24 <= opt /\ 68 <= size /\ opt + size <= zlen data.
Proof.
  intros (_ & _ & _ & -> & _ & H1 & H2 & _). pose proof (u32_range data 60). lia.
Qed.

Lemma omit_layout data :
  exists r, omit_pure (zlen data) data = Ok r /\ layout_spec data r.
Proof.
  unfold omit_pure, parse_pure.
  destruct (bytes_eqb (zslice 0 (0 + 2) data) MZ_sig) eqn:Hmz; cbn [negb].
  2:{ exists None. split; [reflexivity|]. apply layout_none. intros o s m (_ & H & _).
      assert (bytes_eqb (zslice 0 (0 + 2) data) MZ_sig = true) by (apply bytes_eqb_eq; exact H).
      congruence. }
  apply bytes_eqb_eq in Hmz. change (0 + 2) with 2 in Hmz.
  rewrite unpack_slice by lia. change (60 + 4) with 64.
  destruct (64 <=? zlen data) eqn:H64; cbn [Z.eqb rbind raise].
  2:{ exists None. split; [reflexivity|]. apply layout_none. intros o s m (H & _). lia. }
  change (le_to_Z (zslice 60 64 data)) with (u32 data 60).
  set (pe := u32 data 60). assert (Hpe : 0 <= pe) by apply u32_range.
  assert (Hsig_len : forall o s m, usable data o s m -> pe + 24 + 68 <= zlen data /\ o = pe + 24).
  { intros o s m Hu. pose proof (usable_opt_bounds _ _ _ _ Hu).
    destruct Hu as (_ & _ & _ & Ho & _). fold pe in Ho. lia. }
  destruct (zlen data <=? pe) eqn:Hpelen.
  { exists None. split; [reflexivity|]. apply layout_none. intros o s m Hu.
    apply Hsig_len in Hu. lia. }
  destruct (bytes_eqb (zslice pe (pe + 4) data) PE_sig) eqn:Hsig; cbn [negb].
  2:{ exists None. split; [reflexivity|]. apply layout_none. intros o s m (_ & _ & H & _).
      fold pe in H.
      assert (bytes_eqb (zslice pe (pe + 4) data) PE_sig = true) by (apply bytes_eqb_eq; exact H).
      congruence. }
  apply bytes_eqb_eq in Hsig.
  rewrite unpack_slice by lia.
  destruct (pe + 20 + 2 <=? zlen data) eqn:Hsl; cbn [Z.eqb rbind raise].
  2:{ exists None. split; [reflexivity|]. apply layout_none. intros o s m Hu.
      apply Hsig_len in Hu. lia. }
  change (le_to_Z (zslice (pe + 20) (pe + 20 + 2) data)) with (u16 data (pe + 20)).
  set (size := u16 data (pe + 20)). set (opt := pe + 24).
  assert (Hsize : forall o s m, usable data o s m -> o = opt /\ s = size).
  { intros o s m Hu. destruct (Hsig_len _ _ _ Hu) as [_ ->]. split; [reflexivity|].
    destruct Hu as (_ & _ & _ & _ & -> & _). unfold size. f_equal. lia. }
  destruct (zlen data <? size + opt) eqn:Hfit.
  { exists None. split; [reflexivity|]. apply layout_none. intros o s m Hu.
    pose proof (usable_opt_bounds _ _ _ _ Hu). destruct (Hsize _ _ _ Hu) as [-> ->]. lia. }
  destruct (size <? 68) eqn:H68.
  { exists None. split; [reflexivity|]. apply layout_none. intros o s m Hu.
    pose proof (usable_opt_bounds _ _ _ _ Hu). destruct (Hsize _ _ _ Hu) as [-> ->]. lia. }
  rewrite unpack_slice by lia.
  destruct (opt + 2 <=? zlen data) eqn:Hml; [|lia]. cbn [rbind].
  change (le_to_Z (zslice opt (opt + 2) data)) with (u16 data opt).
  set (magic := u16 data opt).
  assert (Hbad : magic <> 0x10B -> magic <> 0x20B -> forall o s m, ~ usable data o s m).
  { intros N1 N2 o s m Hu. destruct (Hsize _ _ _ Hu) as [-> ->].
    destruct Hu as (_ & _ & _ & _ & _ & _ & _ & -> & Hm). fold magic in Hm. lia. }
  assert (Hu : magic = 0x10B \/ magic = 0x20B -> usable data opt size magic).
  { intros Hm. unfold usable. fold pe. repeat split; auto; try lia.
    unfold size. f_equal. unfold opt. lia. }
  assert (Hgoal : (magic = 0x10B \/ magic = 0x20B) ->
    exists r,
      match
        (if opt + size <? opt + rva_off magic + 4
         then Ok [("checksum", mkRel (opt + 64) 4)]
         else
          let? nrva := unpack 4 (zslice (opt + rva_off magic) (opt + rva_off magic + 4) data) in
          if nrva <? 5 then Ok [("checksum", mkRel (opt + 64) 4)]
          else if opt + size <? opt + dir_off magic + 8 then Ok [("checksum", mkRel (opt + 64) 4)]
          else
            let? asz := unpack_II (zslice (opt + dir_off magic) (opt + dir_off magic + 8) data) in
            if snd asz =? 0 then Ok (dict_set "datadir_certtable" (mkRel (opt + dir_off magic) 8) [("checksum", mkRel (opt + 64) 4)])
            else if (fst asz <? size + opt) || (zlen data <? fst asz + snd asz)
            then Ok (dict_set "datadir_certtable" (mkRel (opt + dir_off magic) 8) [("checksum", mkRel (opt + 64) 4)])
            else Ok (dict_set "certtable" (mkRel (fst asz) (snd asz)) (dict_set "datadir_certtable" (mkRel (opt + dir_off magic) 8) [("checksum", mkRel (opt + 64) 4)])))
      with
      | Ok l => Ok (Some (filter (fun kv => str_mem (fst kv) ["checksum"; "datadir_certtable"; "certtable"]) l))
      | Err e => if catches SignedPEParseError e || catches StructError e then Ok None else Err e
      end = Ok r /\ layout_spec data r).
  { intros Hm. specialize (Hu Hm).
    assert (Hoff : rva_off magic = 92 /\ dir_off magic = 128 \/ rva_off magic = 108 /\ dir_off magic = 144).
    { unfold rva_off, dir_off. destruct (magic =? 0x10B); lia. }
    assert (Hno : ~ has_dir_entry data opt size magic ->
      layout_spec data (Some [("checksum", mkRel (opt + 64) 4)])).
    { intros Hn. apply (layout_some data opt size magic false None); auto.
      - split; [discriminate|contradiction].
      - intros a l. split; [discriminate|]. intros (H & _). contradiction. }
    destruct (opt + size <? opt + rva_off magic + 4) eqn:C1.
    { eexists. split; [reflexivity|]. apply Hno. unfold has_dir_entry. lia. }
    rewrite unpack_slice by lia.
    destruct (opt + rva_off magic + 4 <=? zlen data) eqn:C2; [|lia]. cbn [rbind].
    change (le_to_Z (zslice (opt + rva_off magic) (opt + rva_off magic + 4) data))
      with (u32 data (opt + rva_off magic)).
    destruct (u32 data (opt + rva_off magic) <? 5) eqn:C3.
    { eexists. split; [reflexivity|]. apply Hno. unfold has_dir_entry. lia. }
    destruct (opt + size <? opt + dir_off magic + 8) eqn:C4.
    { eexists. split; [reflexivity|]. apply Hno. unfold has_dir_entry. lia. }
    assert (Hdir : has_dir_entry data opt size magic) by (unfold has_dir_entry; lia).
    rewrite unpack_II_slice by lia. cbn [rbind fst snd].
    set (ad := u32 data (opt + dir_off magic)). set (sz := u32 data (opt + dir_off magic + 4)).
    assert (Hnt : (forall a l, ~ has_cert_table data opt size magic a l) ->
      layout_spec data (Some [("checksum", mkRel (opt + 64) 4); ("datadir_certtable", mkRel (opt + dir_off magic) 8)])).
    { intros Hn. apply (layout_some data opt size magic true None); auto.
      - split; auto.
      - intros a l. split; [discriminate|]. intros H. apply Hn in H. destruct H. }
    destruct (sz =? 0) eqn:C5.
    { eexists. split; [reflexivity|]. apply Hnt. intros a l (_ & -> & -> & H & _). fold sz in H. lia. }
    destruct ((ad <? size + opt) || (zlen data <? ad + sz)) eqn:C6.
    { eexists. split; [reflexivity|]. apply Hnt. intros a l (_ & -> & -> & _ & H1 & H2).
      fold sz in H2. fold ad in H1, H2. lia. }
    eexists. split; [reflexivity|].
    apply (layout_some data opt size magic true (Some (ad, sz))); auto.
    - split; auto.
    - intros a l. split.
      + intros H. injection H as <- <-. unfold has_cert_table. fold ad sz. repeat split; try apply Hdir; lia.
      + intros (_ & -> & -> & _). reflexivity. }
  unfold rva_off, dir_off in Hgoal.
  destruct (magic =? 0x10B) eqn:M1; cbn [rbind fst snd].
  - apply Hgoal. left. lia.
  - destruct (magic =? 0x20B) eqn:M2; cbn [rbind fst snd].
    + apply Hgoal. right. lia.
    + exists None. split; [reflexivity|]. apply layout_none. apply Hbad; lia.
Qed.
