(** Proofs about the certificate table walk (C14-C16). *)
From Verif Require Import Base Bytes Monad ModelFile ModelFingerprint ModelPE
  SpecFingerprint SpecPE ProofsFingerprint ProofsFingerprint2 ProofsFingerprint3 ProofsPE ProofsPE2.
From Coq Require Import ZifyBool ZifyNat.

Lemma fread_at {A} n (K : bytes -> M file A) b p :
  0 <= p -> 0 <= n ->
  mbind (fread n) K (mkFile b p) =
  K (zslice p (p + n) b) (mkFile b (p + zlen (zslice p (p + n) b))).
Proof.
  intros Hz Hn. unfold mbind, fread, file_read. cbn [f_bytes f_pos].
  destruct (n <? 0) eqn:C2; [lia|]. unfold zslice. now replace (p + n - p) with n by lia.
Qed.

Definition entry_of (data : bytes) (p : Z) : cert_entry :=
  mkEntry (u16 data (p + 4)) (u16 data (p + 6)) (zslice (p + 8) (p + u32 data p) data).

Lemma round8 len : len + (8 - len mod 8) mod 8 = 8 * ((len + 7) / 8).
Proof. Z.div_mod_to_equations. lia. Qed.

Lemma cert_entry_pure pos lim f :
  0 <= pos ->
  let data := f_bytes f in
  let r := cert_table_entry (zlen data) pos lim f in
  f_bytes (fst r) = data /\
  (if (zlen data <? pos + 8) || (u32 data pos <=? 8) || (lim <? pos + u32 data pos)
   then exists e, snd r = Err e /\ e_class e = SignedPEParseError
   else snd r = Ok (entry_of data pos, pos + 8 * ((u32 data pos + 7) / 8))).
Proof.
  intros Hp. cbv zeta. unfold cert_table_entry.
  destruct (zlen (f_bytes f) <? pos + 8) eqn:C1; cbn [orb].
  { split; [reflexivity|]. eexists. split; reflexivity. }
  rewrite seek_read by lia. rewrite zlen_zslice by lia.
  rewrite unpack_slice by lia. destruct (pos + 4 <=? zlen (f_bytes f)) eqn:C2; [|lia].
  rewrite bind_mres_ok. fold (u32 (f_bytes f) pos).
  replace (pos + (pos + 4 - pos)) with (pos + 4) by lia.
  rewrite fread_at by lia. rewrite zlen_zslice by lia.
  rewrite unpack_slice by lia. destruct (pos + 4 + 2 <=? zlen (f_bytes f)) eqn:C3; [|lia].
  rewrite bind_mres_ok. fold (u16 (f_bytes f) (pos + 4)).
  replace (pos + 4 + (pos + 4 + 2 - (pos + 4))) with (pos + 6) by lia.
  rewrite fread_at by lia. rewrite zlen_zslice by lia.
  rewrite unpack_slice by lia. destruct (pos + 6 + 2 <=? zlen (f_bytes f)) eqn:C4; [|lia].
  rewrite bind_mres_ok. fold (u16 (f_bytes f) (pos + 6)).
  replace (pos + 6 + (pos + 6 + 2 - (pos + 6))) with (pos + 8) by lia.
  destruct ((u32 (f_bytes f) pos <=? 8) || (lim <? pos + u32 (f_bytes f) pos)) eqn:C5.
  { split; [reflexivity|]. eexists. split; reflexivity. }
  rewrite fread_at by lia. split; [reflexivity|]. cbn [mret snd]. rewrite round8. unfold entry_of.
  now replace (pos + 8 + (u32 (f_bytes f) pos - 8)) with (pos + u32 (f_bytes f) pos) by lia.
Qed.

Lemma next_at flen pos lim f :
  0 <= pos -> flen = zlen (f_bytes f) ->
  let r := cert_table_next flen (GAt pos lim) f in
  f_bytes (fst r) = f_bytes f /\
  (lim <= pos -> snd r = Ok (GDone, None)) /\
  (pos < lim -> bad_header (f_bytes f) lim pos ->
     exists e, snd r = Err e /\ e_class e = SignedPEParseError) /\
  (pos < lim -> ~ bad_header (f_bytes f) lim pos ->
     snd r = Ok (GAt (pos + 8 * ((u32 (f_bytes f) pos + 7) / 8)) lim, Some (entry_of (f_bytes f) pos))).
Proof.
  intros Hp ->. cbv zeta. cbn [cert_table_next]. unfold cert_table_loop.
  destruct (pos <? lim) eqn:C.
  2:{ cbn. repeat split; auto; lia. }
  pose proof (cert_entry_pure pos lim f Hp) as [H1 H2]. cbv zeta in *.
  unfold mbind. destruct (cert_table_entry (zlen (f_bytes f)) pos lim f) as [f' r]. cbn [fst snd] in *.
  unfold bad_header.
  destruct ((zlen (f_bytes f) <? pos + 8) || (u32 (f_bytes f) pos <=? 8) || (lim <? pos + u32 (f_bytes f) pos)) eqn:B.
  - destruct H2 as (e & -> & He). repeat split; auto; try lia. exists e; auto.
  - subst r. cbn. repeat split; auto; lia.
Qed.

Lemma bad_header_dec data lim p : {bad_header data lim p} + {~ bad_header data lim p}.
Proof.
  unfold bad_header.
  destruct (Z_lt_dec (zlen data) (p + 8)); [left; auto|].
  destruct (Z_le_dec (u32 data p) 8); [left; auto|].
  destruct (Z_lt_dec lim (p + u32 data p)); [left; auto|]. right. lia.
Qed.

Definition ends_right (data : bytes) (lim last : Z) (x : option exn) : Prop :=
  (x = None /\ lim <= last) \/
  (exists e, x = Some e /\ e_class e = SignedPEParseError /\ last < lim /\ bad_header data lim last).

Lemma walk_from data lim : forall n pos f,
  Z.of_nat n >= lim - pos -> 0 <= pos -> f_bytes f = data ->
  exists es last x,
    terminates_with (fun k => option_map snd (cert_table_walk k (zlen data) (GAt pos lim) f)) (es, x) /\
    entries_at data lim pos es last /\ ends_right data lim last x.
Proof.
  intros n. induction n as [n IH] using lt_wf_ind. intros pos f Hn Hp Hf.
  assert (Hfl : zlen data = zlen (f_bytes f)) by congruence.
  destruct (next_at (zlen data) pos lim f Hp Hfl) as (N1 & N2 & N3 & N4). rewrite Hf in *.
  destruct (cert_table_next (zlen data) (GAt pos lim) f) as [f' r] eqn:E. cbn [fst snd] in *.
  destruct (Z_lt_dec pos lim) as [Hlt|Hge].
  - destruct (bad_header_dec data lim pos) as [Hb|Hb].
    + destruct (N3 Hlt Hb) as (e & -> & He). exists [], pos, (Some e). split; [|split].
      * exists 1%nat. intros [|m] Hm; [lia|]. cbn [cert_table_walk]. rewrite E. reflexivity.
      * reflexivity.
      * right. exists e. auto.
    + specialize (N4 Hlt Hb). subst r.
      assert (Hlen : 8 < u32 data pos) by (unfold bad_header in Hb; lia).
      assert (Hstep : pos + 8 < pos + 8 * ((u32 data pos + 7) / 8)).
      { Z.div_mod_to_equations. lia. }
      destruct (IH (Z.to_nat (lim - (pos + 8 * ((u32 data pos + 7) / 8)))) ltac:(lia)
                  (pos + 8 * ((u32 data pos + 7) / 8)) f' ltac:(lia) ltac:(lia) N1)
        as (es & last & x & [k Hk] & He & Hx).
      exists (entry_of data pos :: es), last, x. split; [|split; [|exact Hx]].
      * exists (S k). intros [|m] Hm; [lia|]. cbn [cert_table_walk]. rewrite E.
        specialize (Hk m ltac:(lia)).
        destruct (cert_table_walk m (zlen data) _ f') as [[f'' [es' x']]|]; [|discriminate].
        cbn in Hk |- *. injection Hk as -> ->. reflexivity.
      * cbn [entries_at]. split; [exact Hlt|]. split; [|exact He].
        unfold entry_at, entry_of, bad_header in *. repeat split; lia.
  - rewrite N2 in * by lia. exists [], pos, None. split; [|split].
    + exists 1%nat. intros [|m] Hm; [lia|]. cbn [cert_table_walk]. rewrite E. reflexivity.
    + reflexivity.
    + left. split; [reflexivity|lia].
Qed.

Lemma terminates_S {A} (f g : nat -> option A) a :
  (forall n, g (S n) = f (S n)) -> terminates_with f a -> terminates_with g a.
Proof.
  intros H [k Hk]. exists (S k). intros [|m] Hm; [lia|]. rewrite H. apply Hk. lia.
Qed.

(** The first step. *)
Lemma start_walk f :
  match snd (omit_sections f) with
  | Ok (Some d) =>
    match dict_get "certtable" d with
    | Some s => exists f', f_bytes f' = f_bytes f /\ forall n, cert_table (S n) f =
        option_map snd (cert_table_walk (S n) (zlen (f_bytes f)) (GAt (rel_start s) (rel_start s + rel_length s)) f')
    | None => exists e, e_class e = SignedPEParseError /\ forall n, cert_table (S n) f = Some ([], Some e)
    end
  | _ => exists e, e_class e = SignedPEParseError /\ forall n, cert_table (S n) f = Some ([], Some e)
  end.
Proof.
  destruct (omit_sections_spec f) as (r & H1 & H2 & H3).
  unfold omit_sections in *. unfold cert_table. rewrite signed_pe_init_eq in *.
  rewrite H1.
  destruct (get_authenticode_omit_sections (zlen (f_bytes f)) (mkFile (f_bytes f) (zlen (f_bytes f)))) as [f' r'] eqn:E.
  cbn [fst snd] in *. subst r'.
  destruct r as [d|].
  - destruct (dict_get "certtable" d) as [s|] eqn:Es.
    + exists f'. split; [exact H3|]. intros n. cbn [cert_table_walk cert_table_next].
      unfold mbind at 1. rewrite E. rewrite Es. reflexivity.
    + exists (mkExn SignedPEParseError "The PE file does not contain a certificate table.").
      split; [reflexivity|]. intros n. cbn [cert_table_walk cert_table_next].
      unfold mbind at 1. rewrite E, Es. reflexivity.
  - exists (mkExn SignedPEParseError "The PE file does not contain a certificate table.").
    split; [reflexivity|]. intros n. cbn [cert_table_walk cert_table_next].
    unfold mbind at 1. rewrite E. reflexivity.
Qed.

Lemma entries_located data lim : forall es p last,
  0 <= p -> lim <= zlen data -> entries_at data lim p es last ->
  exists ps, Forall2 (entry_at data lim) ps es /\
    Forall2 (fun q e => p <= q /\ 0 < zlen (ce_certificate e) /\ q + 8 + zlen (ce_certificate e) <= lim /\
               ce_certificate e = zslice (q + 8) (q + 8 + zlen (ce_certificate e)) data) ps es /\
    ForallOrdPairs before (map (fun qe => extent (fst qe) (snd qe)) (combine ps es)) /\
    p <= last.
Proof.
  induction es as [|e es IH]; intros p last Hp Hlim He; cbn [entries_at] in He.
  - subst last. exists []. repeat split; try constructor. lia.
  - destruct He as (Hlt & Hat & He).
    assert (Hl : 8 < u32 data p /\ p + u32 data p <= lim) by (unfold entry_at in Hat; lia).
    assert (Hstep : p + u32 data p <= p + 8 * ((u32 data p + 7) / 8)).
    { Z.div_mod_to_equations. lia. }
    destruct (IH (p + 8 * ((u32 data p + 7) / 8)) last ltac:(lia) Hlim He) as (ps & P1 & P2 & P3 & P4).
    exists (p :: ps). cbn [combine map].
    assert (Hcert : ce_certificate e = zslice (p + 8) (p + u32 data p) data).
    { destruct Hat as (_ & _ & ->). reflexivity. }
    assert (Hz : zlen (ce_certificate e) = u32 data p - 8) by (rewrite Hcert, zlen_zslice; lia).
    split; [constructor; assumption|]. split; [|split].
    + constructor.
      * rewrite Hz. replace (p + 8 + (u32 data p - 8)) with (p + u32 data p) by lia.
        repeat split; auto; lia.
      * clear - P2 Hstep Hl. induction P2 as [|q e0 ps es Hq _ IH]; constructor; [|exact IH].
        destruct Hq as (Q1 & Q2). split; [lia|exact Q2].
    + constructor; [|exact P3]. apply Forall_forall. intros s Hs. apply in_map_iff in Hs.
      destruct Hs as ([q e0] & <- & Hin). unfold before, extent. cbn [rel_start rel_length fst snd].
      assert (Hq : p + 8 * ((u32 data p + 7) / 8) <= q).
      { clear - P2 Hin. induction P2 as [|q1 e1 ps es Hq _ IH]; [destruct Hin|].
        destruct Hin as [Heq|Hin]; [injection Heq as -> ->; apply Hq|auto]. }
      lia.
    + lia.
Qed.

Lemma dict_get_in {V} k (v : V) d : dict_get k d = Some v -> In v (map snd d).
Proof.
  induction d as [|[k1 v1] d IH]; cbn [dict_get map In snd]; [discriminate|].
  destruct (String.eqb k k1); [intros H; injection H as <-; now left|right; auto].
Qed.

Lemma c14_table f d s :
  snd (omit_sections f) = Ok (Some d) -> dict_get "certtable" d = Some s ->
  let data := f_bytes f in
  let lim := rel_start s + rel_length s in
  exists es x ps last,
    terminates_with (fun n => cert_table n f) (es, x) /\
    entries_at data lim (rel_start s) es last /\
    Forall2 (fun p e => rel_start s <= p /\ 0 < zlen (ce_certificate e) /\
               p + 8 + zlen (ce_certificate e) <= lim /\
               ce_certificate e = zslice (p + 8) (p + 8 + zlen (ce_certificate e)) data) ps es /\
    ForallOrdPairs before (map (fun pe => extent (fst pe) (snd pe)) (combine ps es)) /\
    ((x = None /\ lim <= last) \/
     (exists e, x = Some e /\ e_class e = SignedPEParseError /\ last < lim /\ bad_header data lim last)).
Proof.
  intros H1 H2. cbv zeta. pose proof (start_walk f) as Hs. rewrite H1, H2 in Hs.
  destruct Hs as (f' & Hf & Hw).
  assert (Hsec : section_in (file_len f) s).
  { destruct (c10 _ _ H1) as (_ & Hin & _). rewrite Forall_forall in Hin. apply Hin.
    eapply dict_get_in; eassumption. }
  unfold section_in, file_len in Hsec.
  destruct (walk_from (f_bytes f) (rel_start s + rel_length s)
    (Z.to_nat (rel_length s)) (rel_start s) f' ltac:(lia) ltac:(lia) Hf)
    as (es & last & x & Ht & He & Hx).
  destruct (entries_located (f_bytes f) (rel_start s + rel_length s) es (rel_start s) last ltac:(lia) ltac:(lia) He) as (ps & P1 & P2 & P3 & P4).
  exists es, x, ps, last. split; [|split; [|split; [|split]]]; auto.
  eapply terminates_S; [|exact Ht]. exact Hw.
Qed.

Lemma c14_no_table f :
  (forall d s, snd (omit_sections f) = Ok (Some d) -> dict_get "certtable" d <> Some s) ->
  exists e, e_class e = SignedPEParseError /\ terminates_with (fun n => cert_table n f) ([], Some e).
Proof.
  intros H. pose proof (start_walk f) as Hs.
  assert (Hd : exists e, e_class e = SignedPEParseError /\
    forall n, cert_table (S n) f = Some ([], Some e)).
  { destruct (snd (omit_sections f)) as [[d|]|e] eqn:E; try exact Hs.
    destruct (dict_get "certtable" d) as [s|] eqn:Es; [|exact Hs].
    destruct (H d s eq_refl Es). }
  destruct Hd as (e & He & Hn). exists e. split; [exact He|]. exists 1%nat.
  intros [|m] Hm; [lia|apply Hn].
Qed.

(** ** C15 *)

Lemma entries_walk data lim : forall es p last f,
  0 <= p -> lim <= zlen data -> f_bytes f = data ->
  entries_at data lim p es last -> lim <= last ->
  terminates_with (fun k => option_map snd (cert_table_walk k (zlen data) (GAt p lim) f)) (es, None).
Proof.
  induction es as [|e es IH]; intros p last f Hp Hlim Hf He Hlast; cbn [entries_at] in He.
  - subst last. destruct (next_at (zlen data) p lim f Hp) as (_ & N & _); [congruence|].
    specialize (N Hlast). exists 1%nat. intros [|m] Hm; [lia|]. cbn [cert_table_walk].
    destruct (cert_table_next (zlen data) (GAt p lim) f) as [f' r]. cbn [snd] in N. subst r. reflexivity.
  - destruct He as (Hlt & (H8 & Hle & ->) & He).
    destruct (next_at (zlen data) p lim f Hp) as (N1 & _ & _ & N); [congruence|].
    rewrite Hf in *.
    assert (Hb : ~ bad_header data lim p) by (unfold bad_header; lia).
    specialize (N Hlt Hb).
    destruct (cert_table_next (zlen data) (GAt p lim) f) as [f' r] eqn:E. cbn [fst snd] in *. subst r.
    assert (Hstep : p + u32 data p <= p + 8 * ((u32 data p + 7) / 8)).
    { Z.div_mod_to_equations. lia. }
    destruct (IH (p + 8 * ((u32 data p + 7) / 8)) last f' ltac:(lia) Hlim N1 He Hlast) as [k Hk].
    exists (S k). intros [|m] Hm; [lia|]. cbn [cert_table_walk]. rewrite E.
    specialize (Hk m ltac:(lia)).
    destruct (cert_table_walk m (zlen data) _ f') as [[f'' [es' x']]|]; [|discriminate].
    cbn in Hk |- *. injection Hk as -> ->. reflexivity.
Qed.

Lemma zlen_Z_to_le n z : zlen (Z_to_le n z) = Z.of_nat n.
Proof. unfold zlen. now rewrite Z_to_le_length. Qed.

Lemma zlen_enc_entry e : zlen (enc_entry e) = 8 + zlen (ce_certificate e).
Proof. unfold enc_entry. rewrite !zlen_app, !zlen_Z_to_le. lia. Qed.

Lemma zlen_repeat {A} (x : A) n : zlen (repeat x n) = Z.of_nat n.
Proof. unfold zlen. now rewrite repeat_length. Qed.

Lemma zlen_enc_padded e :
  zlen (enc_padded e) = 8 * ((8 + zlen (ce_certificate e) + 7) / 8).
Proof.
  unfold enc_padded. rewrite zlen_app, zlen_repeat, zlen_enc_entry, <- round8.
  rewrite Z2Nat.id; [reflexivity|]. apply Z.mod_pos_bound. lia.
Qed.

Lemma zslice_prefix {A} (l m : list A) a b : 0 <= a -> b <= zlen l -> zslice a b (l ++ m) = zslice a b l.
Proof. apply zslice_within_app. Qed.

Lemma zslice_whole {A} (l : list A) n : n = zlen l -> zslice 0 n l = l.
Proof. intros ->. apply zslice_all. Qed.

(** Reading back one encoded entry that starts at [p]. *)
Lemma entry_read data lim p e rest :
  0 <= p -> encodable e ->
  zslice p lim data = enc_entry e ++ rest ->
  zslice p lim data <> [] ->
  u32 data p = 8 + zlen (ce_certificate e) /\ entry_of data p = e /\ p + 8 + zlen (ce_certificate e) <= lim.
Proof.
  intros Hp (R1 & R2 & R3 & R4) Hs Hne.
  assert (Hlen : p + 8 + zlen (ce_certificate e) <= lim).
  { assert (Hz : zlen (zslice p lim data) <= Z.max 0 (lim - p)).
    { unfold zslice. rewrite zlen_ztake. lia. }
    rewrite Hs, zlen_app, zlen_enc_entry in Hz. pose proof (zlen_nonneg rest). lia. }
  assert (Hsub : forall a b, 0 <= a -> a <= b -> b <= 8 + zlen (ce_certificate e) ->
            zslice (p + a) (p + b) data = zslice a b (enc_entry e)).
  { intros a b Ha Hab Hb. rewrite <- (zslice_zslice p lim a b data) by lia.
    rewrite Hs. apply zslice_within_app; [lia|]. rewrite zlen_enc_entry. lia. }
  assert (Hn := zlen_nonneg (ce_certificate e)).
  assert (F1 : u32 data p = 8 + zlen (ce_certificate e)).
  { unfold u32. replace p with (p + 0) at 1 by lia. rewrite Hsub by lia. unfold enc_entry.
    rewrite zslice_within_app by (rewrite ?zlen_Z_to_le; lia).
    rewrite zslice_whole by (now rewrite zlen_Z_to_le).
    apply le_to_Z_to_le. change (256 ^ Z.of_nat 4) with (2 ^ 32). lia. }
  assert (F2 : u16 data (p + 4) = ce_revision e).
  { unfold u16. replace (p + 4 + 2) with (p + 6) by lia. rewrite Hsub by lia. unfold enc_entry.
    rewrite zslice_app_r by (rewrite zlen_Z_to_le; lia). rewrite zlen_Z_to_le.
    rewrite zslice_within_app by (rewrite ?zlen_Z_to_le; lia).
    rewrite zslice_whole by (now rewrite zlen_Z_to_le).
    apply le_to_Z_to_le. change (256 ^ Z.of_nat 2) with 65536. lia. }
  assert (F3 : u16 data (p + 6) = ce_type e).
  { unfold u16. replace (p + 6 + 2) with (p + 8) by lia. rewrite Hsub by lia. unfold enc_entry.
    rewrite zslice_app_r by (rewrite zlen_Z_to_le; lia). rewrite zlen_Z_to_le.
    rewrite zslice_app_r by (rewrite zlen_Z_to_le; lia). rewrite zlen_Z_to_le.
    rewrite zslice_within_app by (rewrite ?zlen_Z_to_le; lia).
    rewrite zslice_whole by (now rewrite zlen_Z_to_le).
    apply le_to_Z_to_le. change (256 ^ Z.of_nat 2) with 65536. lia. }
  split; [exact F1|]. split; [|exact Hlen]. unfold entry_of. rewrite F1, F2, F3.
  rewrite Hsub by lia. unfold enc_entry.
  rewrite zslice_app_r by (rewrite zlen_Z_to_le; lia). rewrite zlen_Z_to_le.
  rewrite zslice_app_r by (rewrite zlen_Z_to_le; lia). rewrite zlen_Z_to_le.
  rewrite zslice_app_r by (rewrite zlen_Z_to_le; lia). rewrite zlen_Z_to_le.
  rewrite zslice_whole by lia. destruct e; reflexivity.
Qed.

Lemma entry_of_at data lim p e :
  encodable e -> u32 data p = 8 + zlen (ce_certificate e) -> entry_of data p = e ->
  p + 8 + zlen (ce_certificate e) <= lim -> entry_at data lim p e.
Proof.
  intros (_ & _ & R3 & _) H1 H2 H3. unfold entry_at. split; [lia|]. split; [lia|]. symmetry. exact H2.
Qed.

Lemma zslice_suffix {A} p lim (data a b : list A) :
  0 <= p -> zslice p lim data = a ++ b -> zslice (p + zlen a) lim data = b.
Proof.
  intros Hp H.
  assert (Hz : zlen a + zlen b <= Z.max 0 (lim - p)).
  { rewrite <- zlen_app, <- H. unfold zslice. rewrite zlen_ztake. lia. }
  pose proof (zlen_nonneg a). pose proof (zlen_nonneg b).
  destruct (Z_le_dec (p + zlen a) lim).
  - replace lim with (p + (lim - p)) by lia. rewrite <- (zslice_zslice p lim) by lia. rewrite H.
    rewrite zslice_app_r by lia. replace (zlen a - zlen a) with 0 by lia.
    unfold zslice at 1. rewrite ztake_firstn. unfold zskip.
    destruct (zlen b <=? 0) eqn:E.
    + destruct b as [|y b]; [now rewrite firstn_nil|rewrite zlen_cons in E; pose proof (zlen_nonneg b); lia].
    + cbn [Z.to_nat skipn]. apply firstn_all2. unfold zlen in *. lia.
  - assert (lim < p) by lia. assert (zlen a = 0) by lia.
    destruct a as [|x a]; [|rewrite zlen_cons in *; pose proof (zlen_nonneg a); lia].
    rewrite zlen_nil, Z.add_0_r. exact H.
Qed.

Lemma entries_of_encoding data lim table : forall es p,
  0 <= p -> Forall encodable es -> lim <= zlen data ->
  zslice p lim data = table -> table_encoding es table -> p + zlen table = lim ->
  exists last, entries_at data lim p es last /\ lim <= last.
Proof.
  intros es. revert table. induction es as [|e es IH]; intros table p Hp Henc Hlim Hs Ht Hl.
  - exists p. split; [reflexivity|].
    destruct Ht as [->|(es' & e & Hbad & _)]; [cbn in Hl; lia|destruct es'; discriminate].
  - apply Forall_inv in Henc as He. apply Forall_inv_tail in Henc.
    pose proof He as (_ & _ & R3 & _).
    assert (Hpre : exists pad rest, table = enc_entry e ++ pad ++ rest /\
      (pad = [] /\ rest = [] /\ es = [] \/
       enc_padded e = enc_entry e ++ pad /\ table_encoding es rest)).
    { destruct Ht as [->|(es' & e' & Heq & ->)].
      - exists (repeat x00 (Z.to_nat ((8 - zlen (enc_entry e) mod 8) mod 8))), (enc_table es).
        split; [unfold enc_table; cbn [map concat]; unfold enc_padded at 1; now rewrite <- app_assoc|].
        right. split; [reflexivity|now left].
      - destruct es' as [|e0 es'].
        + injection Heq as <- ->. exists [], []. split; [|left; auto].
          unfold enc_table. cbn [app map concat]. now rewrite app_nil_r.
        + injection Heq as <- ->.
          exists (repeat x00 (Z.to_nat ((8 - zlen (enc_entry e) mod 8) mod 8))), (enc_table es' ++ enc_entry e').
          split; [unfold enc_table; cbn [map concat]; unfold enc_padded at 1; now rewrite <- !app_assoc|].
          right. split; [reflexivity|]. right. exists es', e'. auto. }
    destruct Hpre as (pad & rest & Htab & Hcase).
    assert (Hne : zslice p lim data <> []).
    { rewrite Hs, Htab. intros H. apply (f_equal zlen) in H.
      rewrite zlen_app, zlen_enc_entry, zlen_nil in H. pose proof (zlen_nonneg (pad ++ rest)). lia. }
    rewrite Htab in Hs.
    destruct (entry_read _ _ _ _ _ Hp He Hs Hne) as (F1 & F2 & F3).
    pose proof (entry_of_at _ _ _ _ He F1 F2 F3) as Hat.
    destruct Hcase as [(-> & -> & ->)|(Hpad & Hrest)].
    + exists (p + 8 * ((u32 data p + 7) / 8)). cbn [entries_at]. split.
      * split; [lia|]. split; [exact Hat|reflexivity].
      * rewrite Htab, !app_nil_r, zlen_enc_entry in Hl. rewrite F1. Z.div_mod_to_equations. lia.
    + assert (Hpl : zlen (enc_entry e ++ pad) = 8 * ((u32 data p + 7) / 8)).
      { rewrite <- Hpad, zlen_enc_padded, F1. reflexivity. }
      assert (Hr : zslice (p + 8 * ((u32 data p + 7) / 8)) lim data = rest).
      { rewrite <- Hpl. apply zslice_suffix; [assumption|]. now rewrite <- app_assoc. }
      assert (Hpos : 0 <= 8 * ((u32 data p + 7) / 8)) by (rewrite <- Hpl; apply zlen_nonneg).
      assert (Hl2 : p + 8 * ((u32 data p + 7) / 8) + zlen rest = lim).
      { rewrite <- Hl, Htab, app_assoc, zlen_app, Hpl. lia. }
      destruct (IH rest (p + 8 * ((u32 data p + 7) / 8)) ltac:(lia) Henc Hlim Hr Hrest Hl2) as (last & L1 & L2).
      exists last. split; [|exact L2]. cbn [entries_at]. split; [lia|]. split; [exact Hat|exact L1].
Qed.

Lemma c15 f d s es :
  snd (omit_sections f) = Ok (Some d) -> dict_get "certtable" d = Some s ->
  Forall encodable es ->
  table_encoding es (zslice (rel_start s) (rel_start s + rel_length s) (f_bytes f)) ->
  terminates_with (fun n => cert_table n f) (es, None).
Proof.
  intros H1 H2 Henc Ht. pose proof (start_walk f) as Hs. rewrite H1, H2 in Hs.
  destruct Hs as (f' & Hf & Hw).
  assert (Hsec : section_in (file_len f) s).
  { destruct (c10 _ _ H1) as (_ & Hin & _). rewrite Forall_forall in Hin. apply Hin.
    eapply dict_get_in; eassumption. }
  unfold section_in, file_len in Hsec.
  destruct (entries_of_encoding (f_bytes f) (rel_start s + rel_length s) _ es (rel_start s) ltac:(lia) Henc ltac:(lia) eq_refl Ht) as (last & L1 & L2).
  { rewrite zlen_zslice by lia. lia. }
  apply (terminates_S (fun n => option_map snd (cert_table_walk n (zlen (f_bytes f))
    (GAt (rel_start s) (rel_start s + rel_length s)) f'))); [exact Hw|].
  eapply entries_walk; eauto; lia.
Qed.

(** ** C16 *)

Lemma next_content flen g f1 f2 :
  f_bytes f1 = f_bytes f2 ->
  f_bytes (fst (cert_table_next flen g f1)) = f_bytes f1 /\
  snd (cert_table_next flen g f1) = snd (cert_table_next flen g f2).
Proof.
  assert (Hentry : forall p lim f1 f2, f_bytes f1 = f_bytes f2 ->
    f_bytes (fst (cert_table_entry flen p lim f1)) = f_bytes f1 /\
    snd (cert_table_entry flen p lim f1) = snd (cert_table_entry flen p lim f2)).
  { clear. intros p lim f1 f2 Hb. unfold cert_table_entry.
    destruct (flen <? p + 8); [split; reflexivity|].
    destruct (Z.ltb_spec p 0).
    - unfold mbind at 1 6. unfold fseek, file_seek. destruct (Z.ltb_spec p 0); [|lia].
      split; reflexivity.
    - rewrite !seek_read by lia. rewrite <- Hb. split; [|reflexivity].
      pose proof (zlen_nonneg (zslice p (p + 4) (f_bytes f1))).
      destruct (unpack 4 _); [rewrite bind_mres_ok|reflexivity].
      rewrite fread_at by lia. pose proof (zlen_nonneg (zslice (p + zlen (zslice p (p + 4) (f_bytes f1))) (p + zlen (zslice p (p + 4) (f_bytes f1)) + 2) (f_bytes f1))).
      destruct (unpack 2 _); [rewrite bind_mres_ok|reflexivity].
      unfold mbind at 1. unfold fread at 1, file_read at 1. cbn [f_bytes f_pos Z.ltb Z.compare].
      destruct (unpack 2 _); [rewrite bind_mres_ok|reflexivity].
      destruct (_ || _); [reflexivity|].
      unfold mbind, fread, file_read. cbn [f_bytes f_pos]. destruct (_ <? 0); reflexivity. }
  assert (Hloop : forall p lim f1 f2, f_bytes f1 = f_bytes f2 ->
    f_bytes (fst (cert_table_loop flen p lim f1)) = f_bytes f1 /\
    snd (cert_table_loop flen p lim f1) = snd (cert_table_loop flen p lim f2)).
  { intros p lim g1 g2 Hb. unfold cert_table_loop. destruct (p <? lim); [|split; reflexivity].
    destruct (Hentry p lim g1 g2 Hb) as [E1 E2]. unfold mbind.
    destruct (cert_table_entry flen p lim g1) as [g1' r1], (cert_table_entry flen p lim g2) as [g2' r2].
    cbn [fst snd] in *. subst r2. destruct r1; split; auto. }
  intros Hb. destruct g as [|p lim|]; cbn [cert_table_next].
  - unfold mbind.
    pose proof (omit_sections_pure flen f1) as [O1 O2]. pose proof (omit_sections_pure flen f2) as [O3 O4].
    destruct (get_authenticode_omit_sections flen f1) as [g1 r1], (get_authenticode_omit_sections flen f2) as [g2 r2].
    cbn [fst snd] in *. rewrite <- Hb in O4. rewrite <- O2 in O4. subst r2.
    destruct r1 as [[d|]|e]; [|split; auto|split; auto].
    destruct (dict_get "certtable" d) as [s|]; [|split; auto].
    destruct (Hloop (rel_start s) (rel_start s + rel_length s) g1 g2) as [L1 L2]; [congruence|].
    split; [congruence|exact L2].
  - now apply Hloop.
  - split; reflexivity.
Qed.

Lemma c16_gen act flen : (forall k f, f_bytes (act k f) = f_bytes f) ->
  forall fuel k g f1 f2, f_bytes f1 = f_bytes f2 ->
  walk_interleaved act k fuel flen g f1 = option_map snd (cert_table_walk fuel flen g f2).
Proof.
  intros Hact. induction fuel as [|fuel IH]; intros k g f1 f2 Hb; [reflexivity|].
  cbn [walk_interleaved cert_table_walk].
  destruct (next_content flen g f2 (act k f1)) as [N1 N2]; [rewrite Hact; congruence|].
  destruct (next_content flen g (act k f1) (act k f1) eq_refl) as [N3 _]. rewrite Hact in N3.
  destruct (cert_table_next flen g f2) as [f2' r2], (cert_table_next flen g (act k f1)) as [f1' r1].
  cbn [fst snd] in *. subst r1. destruct r2 as [[g' [e|]]|e]; try reflexivity.
  rewrite (IH (S k) g' f1' f2') by congruence.
  destruct (cert_table_walk fuel flen g' f2') as [[f'' [es x]]|]; reflexivity.
Qed.

Lemma c16 act f fuel :
  (forall k f, f_bytes (act k f) = f_bytes f) ->
  walk_interleaved act 0 fuel (file_len f) GStart f = cert_table fuel f.
Proof.
  intros Hact. unfold cert_table. rewrite signed_pe_init_eq. now apply c16_gen.
Qed.

(** What the library itself does to the file between two steps keeps the content. *)
Lemma loop_file_bytes fuel : forall st st' r,
  hashes_loop fuel st = Some (st', r) -> f_bytes (fp_file st') = f_bytes (fp_file st).
Proof.
  induction fuel as [|fuel IH]; intros st st' r; cbn [hashes_loop]; [discriminate|].
  assert (Hs : f_bytes (fp_file (fst (hashes_step st))) = f_bytes (fp_file st)).
  { unfold hashes_step. destruct (next_interval _ _ _) as [iv|]; [|reflexivity].
    unfold file_seek. destruct (r_start iv <? 0); [reflexivity|].
    unfold file_read. cbn [f_bytes f_pos].
    destruct (r_end iv - r_start iv <? 0);
      (destruct (negb _); [reflexivity|];
       destruct (hash_block _ _ _ _ _) as [fgs [[]|]]; [|reflexivity];
       destruct (consume_all _ _ _ _) as [h [[]|]]; reflexivity). }
  destruct (hashes_step st) as [st1 [[|]|x]]; cbn [fst] in Hs; intros H.
  - apply IH in H. congruence.
  - injection H as <- _. exact Hs.
  - injection H as <- _. exact Hs.
Qed.

Lemma hashes_file_bytes H fuel st st' r :
  hashes H fuel st = Some (st', r) -> f_bytes (fp_file st') = f_bytes (fp_file st).
Proof.
  unfold hashes. destruct (hashes_loop fuel st) as [[st1 [[]|x]]|] eqn:E; [| |discriminate].
  - apply loop_file_bytes in E. destruct (collect_results _ _ _ _ _); intros X; injection X as <- _; exact E.
  - apply loop_file_bytes in E. intros X; injection X as <- _; exact E.
Qed.
