(** What a signature vouches for. *)
From Verif Require Import Base Bytes Monad ModelFile ModelFingerprint ModelPE SpecFingerprint SpecPE
  ModelX509 SpecX509 ProofsFingerprint ProofsPE ProofsPE2 ProofsPE3 ModelContext SpecContext ProofsContext ProofsContext2
  ModelPkcs7 ModelAuthenticode SpecPkcs7 SpecAuthenticode ProofsSigner ProofsSigner2 ProofsVerify ProofsVerify2 ProofsVerify3
  ProofsVerify5 SpecSignedPE ProofsSignedPE ProofsSignedPE2 ProofsSignedPE3 SpecWhole ProofsWhole2.

(** *** Layouts with the same hashed bytes *)

Lemma before_ext secs secs' : forall n,
  (forall j, (j < n)%nat -> omitted secs (Z.of_nat j) = omitted secs' (Z.of_nat j)) ->
  omitted_before secs n = omitted_before secs' n.
Proof.
  induction n as [|n IH]; intros H; [reflexivity|]. cbn [omitted_before]. rewrite IH by (intros; apply H; lia).
  now rewrite H by lia.
Qed.
Lemma before_gap secs n : forall m, (n <= m)%nat ->
  (forall j, (n <= j < m)%nat -> omitted secs (Z.of_nat j) = false) -> omitted_before secs m = omitted_before secs n.
Proof.
  induction m as [|m IH]; intros Hle H.
  - now replace n with 0%nat by lia.
  - destruct (Nat.eq_dec n (S m)) as [->|Hn]; [reflexivity|]. cbn [omitted_before].
    rewrite H by lia. apply IH; [lia|]. intros j Hj. apply H. lia.
Qed.

Lemma omitted_layout opt magic dir tab j :
  omitted (map snd (dict_of_layout opt magic dir tab)) j =
  in_section j (mkRel (opt + 64) 4) || (dir && in_section j (mkRel (opt + dir_off magic) 8)) ||
  match tab with Some (a, l) => in_section j (mkRel a l) | None => false end.
Proof.
  unfold dict_of_layout, omitted. destruct dir, tab as [[a l]|]; cbn [map app existsb snd andb];
    repeat match goal with |- context [in_section ?x ?y] => destruct (in_section x y) end; reflexivity.
Qed.

Definition table_start (len : Z) (tab : option (Z * Z)) : Z := match tab with Some (a, _) => a | None => len end.

Lemma dir_off_after magic : rva_off magic + 4 <= dir_off magic /\ 68 <= rva_off magic.
Proof. unfold rva_off, dir_off. destruct (magic =? 0x10B); lia. Qed.

Section layouts.
Context (x y : bytes) (o1 s1 m1 o2 s2 m2 : Z) (dir1 dir2 : bool) (tab1 tab2 : option (Z * Z)).
Hypotheses (U1 : SpecPE.usable x o1 s1 m1) (U2 : SpecPE.usable y o2 s2 m2)
  (D1 : dir1 = true <-> has_dir_entry x o1 s1 m1) (D2 : dir2 = true <-> has_dir_entry y o2 s2 m2)
  (T1 : forall a l, tab1 = Some (a, l) <-> has_cert_table x o1 s1 m1 a l)
  (T2 : forall a l, tab2 = Some (a, l) <-> has_cert_table y o2 s2 m2 a l).
Let secs1 := map snd (dict_of_layout o1 m1 dir1 tab1).
Let secs2 := map snd (dict_of_layout o2 m2 dir2 tab2).
Hypothesis K : kept secs1 x = kept secs2 y.

Lemma bytes_at n :
  Z.of_nat n < zlen x -> Z.of_nat n < zlen y ->
  (forall j, (j <= n)%nat -> omitted secs1 (Z.of_nat j) = omitted secs2 (Z.of_nat j)) ->
  omitted secs1 (Z.of_nat n) = false -> nth_error x n = nth_error y n.
Proof.
  intros H1 H2 Ho Hn. unfold zlen in *.
  apply (c13_rank secs1 secs2 x y n K); [lia|lia|exact Hn|now rewrite <- Ho by lia|].
  apply before_ext. intros j Hj. apply Ho. lia.
Qed.

Lemma same_headers : o1 = o2 /\ s1 = s2 /\ m1 = m2 /\ dir1 = dir2.
Proof.
  pose proof (usable_opt_bounds _ _ _ _ U1) as (B1 & B2 & B3).
  pose proof (usable_opt_bounds _ _ _ _ U2) as (C1 & C2 & C3).
  pose proof (layout_sections _ _ _ _ _ _ U1 D1 T1) as (L1 & L2 & L3).
  pose proof (layout_sections _ _ _ _ _ _ U2 D2 T2) as (M1 & M2 & M3).
  assert (Hno1 : forall j, j < o1 + 64 -> omitted secs1 j = false).
  { intros j Hj. unfold secs1. rewrite omitted_layout. unfold in_section. cbn [rel_start rel_length].
    destruct tab1 as [[a l]|]; [destruct (L3 a l eq_refl) as (? & ? & ? & ?)|]; destruct dir1; lia. }
  assert (Hno2 : forall j, j < o2 + 64 -> omitted secs2 j = false).
  { intros j Hj. unfold secs2. rewrite omitted_layout. unfold in_section. cbn [rel_start rel_length].
    destruct tab2 as [[a l]|]; [destruct (M3 a l eq_refl) as (? & ? & ? & ?)|]; destruct dir2; lia. }
  assert (Hpre : forall n, Z.of_nat n < o1 + 64 -> Z.of_nat n < o2 + 64 -> nth_error x n = nth_error y n).
  { intros n H1 H2. apply bytes_at; [lia|lia| |now apply Hno1].
    intros j Hj. rewrite Hno1, Hno2 by lia. reflexivity. }
  destruct U1 as (U1a & U1b & U1c & U1d & U1e & U1f & U1g & U1h & U1i).
  destruct U2 as (U2a & U2b & U2c & U2d & U2e & U2f & U2g & U2h & U2i).
  assert (Ho : o1 = o2).
  { assert (u32 x 60 = u32 y 60) by (unfold u32; f_equal; apply zslice_ext; [lia|]; intros i Hi; apply Hpre; lia). lia. }
  assert (Hs : s1 = s2).
  { subst s1 s2. rewrite <- Ho. unfold u16. f_equal. apply zslice_ext; [lia|]. intros i Hi. apply Hpre; lia. }
  assert (Hm : m1 = m2).
  { subst m1 m2. rewrite <- Ho. unfold u16. f_equal. apply zslice_ext; [lia|]. intros i Hi. apply Hpre; lia. }
  split; [exact Ho|]. split; [exact Hs|]. split; [exact Hm|].
  pose proof bytes_at as BA. clear U1d U1e U1h U2d U2e U2h. subst o2 s2 m2.
  pose proof (dir_off_after m1) as [R1 R2].
  assert (Hiff : has_dir_entry x o1 s1 m1 <-> has_dir_entry y o1 s1 m1).
  { unfold has_dir_entry.
    assert (Hr : rva_off m1 + 4 <= s1 -> u32 x (o1 + rva_off m1) = u32 y (o1 + rva_off m1)); [|split; intros (? & ? & ?); specialize (Hr H); lia].
    intros Hfit. unfold u32. f_equal. apply zslice_ext; [lia|]. intros i Hi.
    assert (Hsame : forall j, j < o1 + dir_off m1 -> j < o1 + s1 -> omitted secs1 j = in_section j (mkRel (o1 + 64) 4) /\ omitted secs2 j = in_section j (mkRel (o1 + 64) 4)).
    { intros j Hj Hj'. unfold secs1, secs2. rewrite !omitted_layout. unfold in_section. cbn [rel_start rel_length].
      destruct tab1 as [[a l]|], tab2 as [[a' l']|]; try destruct (L3 _ _ eq_refl) as (? & ? & ? & ?);
        try destruct (M3 _ _ eq_refl) as (? & ? & ? & ?); destruct dir1, dir2; lia. }
    apply BA; [lia|lia| |].
    - intros j Hj. destruct (Hsame (Z.of_nat j)) as [-> ->]; [lia|lia|reflexivity].
    - destruct (Hsame (Z.of_nat i)) as [-> _]; [lia|lia|]. unfold in_section. cbn [rel_start rel_length]. lia. }
  destruct dir1, dir2; auto; exfalso; intuition congruence.
Qed.

Lemma same_before n :
  Z.of_nat n < zlen x -> Z.of_nat n < zlen y ->
  Z.of_nat n < table_start (zlen x) tab1 -> Z.of_nat n < table_start (zlen y) tab2 ->
  omitted secs1 (Z.of_nat n) = false -> nth_error x n = nth_error y n.
Proof.
  destruct same_headers as (Ho & Hs & Hm & Hd). intros H1 H2 H3 H4 Hn.
  apply bytes_at; auto. intros j Hj. unfold secs1, secs2. rewrite !omitted_layout. rewrite Ho, Hm, Hd. f_equal.
  unfold table_start, in_section in *. destruct tab1 as [[a l]|], tab2 as [[a' l']|]; cbn [rel_start rel_length] in *; lia.
Qed.

(** Both tables are at the end. *)
Lemma same_start a1 l1 a2 l2 :
  tab1 = Some (a1, l1) -> tab2 = Some (a2, l2) -> a1 + l1 = zlen x -> a2 + l2 = zlen y -> a1 = a2.
Proof.
  intros E1 E2 F1 F2. destruct same_headers as (Ho & Hs & Hm & Hd).
  pose proof (layout_sections _ _ _ _ _ _ U1 D1 T1) as (_ & _ & L3).
  pose proof (layout_sections _ _ _ _ _ _ U2 D2 T2) as (_ & _ & M3).
  destruct (L3 _ _ E1) as (G1 & G2 & G3 & G4). destruct (M3 _ _ E2) as (N1 & N2 & N3 & N4).
  pose proof (usable_opt_bounds _ _ _ _ U1) as (B1 & B2 & B3). pose proof (usable_opt_bounds _ _ _ _ U2) as (C1 & C2 & C3).
  assert (Hcut : forall secs (d : bytes) a, (a <= length d)%nat ->
    (forall j, (a <= j < length d)%nat -> omitted secs (Z.of_nat j) = true) ->
    (length (kept secs d) + omitted_before secs a = a)%nat).
  { intros secs d a Ha Hom. pose proof (kept_prefix_length secs d a Ha) as Hk.
    assert (kept secs d = kept secs (firstn a d)) as ->; [|exact Hk].
    rewrite <- (firstn_skipn a d) at 1. unfold kept. rewrite kept_from_app.
    rewrite (kept_from_none (0 + zlen (firstn a d))); [now rewrite app_nil_r|].
    intros j Hj. unfold zlen in *. rewrite firstn_length, skipn_length in *.
    rewrite <- (Z2Nat.id j) by lia. apply Hom. lia. }
  assert (Hom : forall secs a l j, tab1 = Some (a, l) /\ secs = secs1 \/ tab2 = Some (a, l) /\ secs = secs2 ->
    a <= j < a + l -> omitted secs j = true).
  { intros secs a l j [[Ht ->]|[Ht ->]] Hj; unfold secs1, secs2; rewrite omitted_layout, Ht; unfold in_section; cbn [rel_start rel_length]; lia. }
  pose proof (Hcut secs1 x (Z.to_nat a1)) as K1. pose proof (Hcut secs2 y (Z.to_nat a2)) as K2.
  unfold zlen in *.
  specialize (K1 ltac:(lia)). specialize (K2 ltac:(lia)).
  assert (W1 : forall j, (Z.to_nat a1 <= j < length x)%nat -> omitted secs1 (Z.of_nat j) = true).
  { intros j Hj. apply (Hom _ a1 l1); [now left|lia]. }
  assert (W2 : forall j, (Z.to_nat a2 <= j < length y)%nat -> omitted secs2 (Z.of_nat j) = true).
  { intros j Hj. apply (Hom _ a2 l2); [now right|lia]. }
  specialize (K1 W1). specialize (K2 W2). rewrite K in K1.
  assert (Hsame : forall j, j < a1 -> j < a2 -> omitted secs1 j = omitted secs2 j).
  { intros j Hj Hj'. unfold secs1, secs2. rewrite !omitted_layout, E1, E2, Ho, Hm, Hd. f_equal.
    unfold in_section; cbn [rel_start rel_length]; lia. }
  assert (Hgap : forall j, o1 + s1 <= j -> (j < a1 -> omitted secs1 j = false) /\ (j < a2 -> omitted secs2 j = false)).
  { intros j Hj. pose proof (layout_sections _ _ _ _ _ _ U1 D1 T1) as (Q1 & Q2 & _).
    pose proof (layout_sections _ _ _ _ _ _ U2 D2 T2) as (Q3 & Q4 & _).
    specialize (Q2 G1). specialize (Q4 N1). unfold secs1, secs2. rewrite !omitted_layout, E1, E2.
    unfold in_section. cbn [rel_start rel_length]. split; lia. }
  destruct (Z.lt_trichotomy a1 a2) as [Hlt|[Heq|Hlt]]; [|exact Heq|]; exfalso.
  - assert (omitted_before secs2 (Z.to_nat a2) = omitted_before secs2 (Z.to_nat a1)).
    { apply before_gap; [lia|]. intros j Hj. apply Hgap; lia. }
    assert (omitted_before secs2 (Z.to_nat a1) = omitted_before secs1 (Z.to_nat a1)).
    { apply before_ext. intros j Hj. symmetry. apply Hsame; lia. }
    lia.
  - assert (omitted_before secs1 (Z.to_nat a1) = omitted_before secs1 (Z.to_nat a2)).
    { apply before_gap; [lia|]. intros j Hj. apply Hgap; lia. }
    assert (omitted_before secs1 (Z.to_nat a2) = omitted_before secs2 (Z.to_nat a2)).
    { apply before_ext. intros j Hj. apply Hsame; lia. }
    lia.
Qed.
End layouts.

(** *** What an accepted file has *)

Lemma accepted load E depth fuel mode expected ign v w out :
  known_names E expected -> verify_result load E depth fuel mode expected ign v w = Ok out ->
  exists l sel, terminates_with (fun k => iterate load depth true ign k (w_file w)) (l, None) /\
    chosen mode l sel /\ incl sel l /\ out <> [] /\ incl (map fst out) sel /\
    (conjunctive mode -> map fst out = sel).
Proof.
  unfold verify_result. intros Hk H.
  destruct (iterate load depth true ign fuel (w_file w)) as [[l x]|] eqn:Ei.
  2: { exfalso. rewrite iterate_eq in Ei. unfold pe_open_verify in H. rewrite signed_pe_init_eq in H.
       unfold pe_verify, signed_datas, iter_signed_datas, mbind in H. cbn [w_file] in H.
       destruct (iter_loop _ _ _ _ _ _ _ _) as [[? [? ?]]|]; discriminate. }
  destruct (open_eq load E depth fuel mode expected ign v w l x Ei) as (w1 & _ & Hw). rewrite (Hw fuel (le_n _)) in H.
  destruct x as [e|]; [discriminate H|]. destruct l as [|a0 l]; [discriminate H|]. rewrite <- (Hw fuel (le_n _)) in H. clear Hw w1.
  assert (Hit : terminates_with (fun k => iterate load depth true ign k (w_file w)) (a0 :: l, None)).
  { exists fuel. intros m Hm. eapply iterate_mono; eassumption. }
  destruct (verified load E depth mode expected ign v w (a0 :: l) Hit) as (sel & hash & Hc & Hn & Hin & Hdue & Hall & _);
    [discriminate|assumption|].
  destruct (pe_open_verify load E depth fuel mode expected ign v w) as [[w' d'] r] eqn:Ev. cbn [snd] in H. subst r.
  destruct (Hall fuel w' d' (Ok out) Ev) as [[Hx _]|(p & Ho & _)]; [discriminate Hx|].
  exists (a0 :: l), sel. split; [exact Hit|]. split; [exact Hc|]. split; [exact Hin|].
  assert (Hconj : conjunctive mode -> map fst out = sel).
  { intros Hm. apply conj_mode_spec in Hm. rewrite Hm in Ho. inversion Ho as [o Hv Hb| | | |]; subst o.
    match type of Hv with _ = verdicts ?one ?l0 ?w0 =>
      assert (G : map fst (verdicts one l0 w0) = l0) end.
    { clear. generalize (at_position p w). induction sel as [|a sel IH]; intros u; cbn [verdicts map fst]; [reflexivity|]. now rewrite IH. }
    rewrite <- Hv, map_map in G. cbn [fst] in G. exact G. }
  apply outcome_ok in Ho as [Ho1 Ho2]; [|destruct sel; [now elim Hn|discriminate]]. split; [assumption|]. split; [|exact Hconj].
  intros a Ha. apply in_map_iff in Ha as ([a' ch] & <- & Ha). apply Ho2, in_verdicts_any in Ha. apply Ha.
Qed.

Lemma no_names E : known_names E None.
Proof. intros d k h H. discriminate H. Qed.
Lemma at_zero f : snd (omit_sections f) = snd (omit_sections (mkFile (f_bytes f) 0)).
Proof.
  destruct f as [d p]. destruct (c08 d p) as (r & H & _ & H0). cbn [f_bytes]. now rewrite H, H0.
Qed.

Theorem c57_one load E depth fuel mode ign v w out load' depth' fuel' mode' ign' v' w' out' a c a' c' :
  verify_result load E depth fuel mode None ign v w = Ok out ->
  verify_result load' E depth' fuel' mode' None ign' v' w' = Ok out' ->
  In (a, c) out -> In (a', c') out' ->
  digest_of a = digest_of a' -> sp_digest (asd_spc a) = sp_digest (asd_spc a') ->
  exists d d', snd (omit_sections (w_file w)) = Ok (Some d) /\ snd (omit_sections (w_file w')) = Ok (Some d') /\
    e_hash E (digest_of a) (kept (map snd d) (f_bytes (w_file w))) =
    e_hash E (digest_of a) (kept (map snd d') (f_bytes (w_file w'))).
Proof.
  intros H H' Ha Ha' Hd Hs.
  destruct (c22 _ _ _ _ _ _ _ _ _ _ (no_names E) H) as [_ F]. destruct (c22 _ _ _ _ _ _ _ _ _ _ (no_names E) H') as [_ F'].
  rewrite Forall_forall in F, F'. specialize (F _ Ha). specialize (F' _ Ha'). cbn [fst] in F, F'.
  destruct F as (d & O & Hh). destruct F' as (d' & O' & Hh').
  exists d, d'. rewrite !(at_zero (w_file _)). split; [exact O|]. split; [exact O'|]. congruence.
Qed.

Theorem c57_modified load E depth fuel fuel' mode ign v v' w w' out out' d n :
  file_len (w_file w) = file_len (w_file w') ->
  snd (omit_sections (w_file w)) = Ok (Some d) -> snd (omit_sections (w_file w')) = Ok (Some d) ->
  (forall i, omitted (map snd d) (Z.of_nat i) = true ->
     nth_error (f_bytes (w_file w)) i = nth_error (f_bytes (w_file w')) i) ->
  nth_error (f_bytes (w_file w)) n <> nth_error (f_bytes (w_file w')) n ->
  verify_result load E depth fuel "all" None ign v w = Ok out ->
  verify_result load E depth fuel' mode None ign v' w' = Ok out' ->
  exists alg x y, In alg accepted_digest_algorithms /\
    x = kept (map snd d) (f_bytes (w_file w)) /\ y = kept (map snd d) (f_bytes (w_file w')) /\
    x <> y /\ e_hash E alg x = e_hash E alg y.
Proof.
  intros Hl O O' Hin Hn H H'.
  destruct (accepted _ _ _ _ _ _ _ _ _ _ (no_names E) H) as (l & sel & Hit & Hc & _ & _ & _ & Hall).
  destruct (accepted _ _ _ _ _ _ _ _ _ _ (no_names E) H') as (l' & sel' & Hit' & Hc' & Hsub & Hne & Hincl & _).
  specialize (Hall (or_introl eq_refl)).
  assert (Hsel : sel = l) by (apply Hc; discriminate). rewrite Hsel in Hall.
  assert (Hll : l = l').
  { destruct (table_terminates (w_file w)) as (es & tail & Ht).
    assert (Ht' : terminates_with (fun k => cert_table k (w_file w')) (es, tail)).
    { destruct Ht as [N HN]. exists N. intros m Hm. rewrite <- (table_same (w_file w) (w_file w')); [now apply HN|exact Hl|congruence|].
      intros d0 s Hd0 Hs. rewrite O in Hd0. injection Hd0 as <-.
      destruct (c10 _ _ O) as (_ & Hsec & _). rewrite Forall_forall in Hsec.
      assert (Hs' : In s (map snd d)).
      { apply dict_get_in in Hs. change s with (snd ("certtable"%string, s)). now apply in_map. }
      split; [apply Hsec in Hs'; unfold section_in in Hs'; lia|].
      intros i Hi. apply Hin. unfold omitted. apply existsb_exists. exists s. split; [exact Hs'|]. unfold in_section. lia. }
    destruct (iterate_same load depth true ign _ _ _ _ Ht Ht') as (r & [N1 I1] & [N2 I2]).
    destruct Hit as [N3 I3], Hit' as [N4 I4].
    specialize (I1 (N1 + N2 + N3 + N4)%nat ltac:(lia)). specialize (I2 (N1 + N2 + N3 + N4)%nat ltac:(lia)).
    specialize (I3 (N1 + N2 + N3 + N4)%nat ltac:(lia)). specialize (I4 (N1 + N2 + N3 + N4)%nat ltac:(lia)). congruence. }
  subst l'.
  destruct out' as [|[a c'] out']; [now elim Hne|].
  assert (Ha : In a l) by (apply Hsub, Hincl; now left).
  assert (Hacc : In (digest_of a) accepted_digest_algorithms) by exact (proj1 (table_accepted _ _ _ _ _ _ _ Hit Ha)).
  rewrite <- Hall in Ha. apply in_map_iff in Ha as ([a1 c] & Ea & Ha). cbn in Ea. subst a1.
  destruct (c57_one _ _ _ _ _ _ _ _ _ _ _ _ _ _ _ _ _ _ _ _ _ H H' Ha (or_introl eq_refl) eq_refl eq_refl) as (d1 & d2 & P1 & P2 & Hh).
  assert (d1 = d) as -> by congruence. assert (d2 = d) as -> by congruence.
  exists (digest_of a). do 2 eexists. split; [exact Hacc|]. split; [reflexivity|]. split; [reflexivity|]. split; [|exact Hh].
  intros Hk. apply Hn. rewrite (c12_sensitive _ _ _ Hl O O') in Hk.
  destruct (omitted (map snd d) (Z.of_nat n)) eqn:Eo; [now apply Hin|].
  destruct (Nat.lt_ge_cases n (length (f_bytes (w_file w)))) as [Hlt|Hge]; [now apply Hk|].
  assert (length (f_bytes (w_file w)) = length (f_bytes (w_file w'))) by (unfold file_len, zlen in Hl; lia).
  rewrite (proj2 (nth_error_None _ _)) by lia. rewrite (proj2 (nth_error_None _ _)) by lia. reflexivity.
Qed.

Lemma layout_of f d : snd (omit_sections f) = Ok (Some d) ->
  exists opt size magic dir tab, SpecPE.usable (f_bytes f) opt size magic /\
    (dir = true <-> has_dir_entry (f_bytes f) opt size magic) /\
    (forall a l, tab = Some (a, l) <-> has_cert_table (f_bytes f) opt size magic a l) /\
    d = dict_of_layout opt magic dir tab.
Proof.
  intros H. destruct (omit_sections_spec f) as (r & H1 & H2 & _). assert (r = Some d) as -> by congruence.
  inversion H2 as [|opt size magic dir tab U D T Hd]; subst. exists opt, size, magic, dir, tab. auto.
Qed.
Lemma layout_table opt magic dir tab s :
  dict_get "certtable" (dict_of_layout opt magic dir tab) = Some s -> tab = Some (rel_start s, rel_length s).
Proof.
  unfold dict_of_layout. destruct dir, tab as [[a l]|]; cbn; intros H; try discriminate; injection H as <-; reflexivity.
Qed.

Theorem c57_end f f' d d' s s' :
  snd (omit_sections f) = Ok (Some d) -> snd (omit_sections f') = Ok (Some d') ->
  kept (map snd d) (f_bytes f) = kept (map snd d') (f_bytes f') ->
  dict_get "certtable" d = Some s -> dict_get "certtable" d' = Some s' ->
  rel_start s + rel_length s = file_len f -> rel_start s' + rel_length s' = file_len f' ->
  rel_start s = rel_start s' /\ dict_get "checksum" d = dict_get "checksum" d' /\
  dict_get "datadir_certtable" d = dict_get "datadir_certtable" d' /\
  forall n, Z.of_nat n < rel_start s -> omitted (map snd d) (Z.of_nat n) = false ->
    nth_error (f_bytes f) n = nth_error (f_bytes f') n.
Proof.
  intros O O' Hk Hs Hs' He He'.
  destruct (layout_of _ _ O) as (o1 & z1 & m1 & dir1 & tab1 & U1 & D1 & T1 & ->).
  destruct (layout_of _ _ O') as (o2 & z2 & m2 & dir2 & tab2 & U2 & D2 & T2 & ->).
  pose proof (layout_table _ _ _ _ _ Hs) as E1. pose proof (layout_table _ _ _ _ _ Hs') as E2.
  pose proof (same_start _ _ _ _ _ _ _ _ _ _ _ _ U1 U2 D1 D2 T1 T2 Hk _ _ _ _ E1 E2 He He') as Hst.
  pose proof (same_headers _ _ _ _ _ _ _ _ _ _ _ _ U1 U2 D1 D2 T1 T2 Hk) as (-> & _ & -> & ->).
  split; [exact Hst|]. split; [reflexivity|]. split; [unfold dict_of_layout; destruct dir2, tab1 as [[? ?]|], tab2 as [[? ?]|]; reflexivity|].
  intros n Hn Ho.
  pose proof (layout_sections _ _ _ _ _ _ U1 D1 T1) as (_ & _ & L3). destruct (L3 _ _ E1) as (_ & G2 & _ & G4).
  pose proof (layout_sections _ _ _ _ _ _ U2 D2 T2) as (_ & _ & M3). destruct (M3 _ _ E2) as (_ & N2 & _ & N4).
  eapply (same_before _ _ _ _ _ _ _ _ _ _ _ _ U1 U2 D1 D2 T1 T2 Hk); try assumption; try lia.
  - rewrite E1. cbn. lia.
  - rewrite E2. cbn. lia.
Qed.

Theorem c57_end_to_end load E depth fuel mode ign v w out load' depth' fuel' mode' ign' v' w' out' a c a' c' d d' s s' :
  verify_result load E depth fuel mode None ign v w = Ok out ->
  verify_result load' E depth' fuel' mode' None ign' v' w' = Ok out' ->
  In (a, c) out -> In (a', c') out' ->
  digest_of a = digest_of a' -> sp_digest (asd_spc a) = sp_digest (asd_spc a') ->
  snd (omit_sections (w_file w)) = Ok (Some d) -> snd (omit_sections (w_file w')) = Ok (Some d') ->
  dict_get "certtable" d = Some s -> dict_get "certtable" d' = Some s' ->
  rel_start s + rel_length s = file_len (w_file w) -> rel_start s' + rel_length s' = file_len (w_file w') ->
  (let x := kept (map snd d) (f_bytes (w_file w)) in let y := kept (map snd d') (f_bytes (w_file w')) in
   x <> y /\ e_hash E (digest_of a) x = e_hash E (digest_of a) y) \/
  (rel_start s = rel_start s' /\ dict_get "checksum" d = dict_get "checksum" d' /\
   dict_get "datadir_certtable" d = dict_get "datadir_certtable" d' /\
   forall n, Z.of_nat n < rel_start s -> omitted (map snd d) (Z.of_nat n) = false ->
     nth_error (f_bytes (w_file w)) n = nth_error (f_bytes (w_file w')) n).
Proof.
  intros H H' Ha Ha' Hd Hsp O O' Hs Hs' He He'.
  destruct (c57_one _ _ _ _ _ _ _ _ _ _ _ _ _ _ _ _ _ _ _ _ _ H H' Ha Ha' Hd Hsp) as (d1 & d2 & P1 & P2 & Hh).
  assert (d1 = d) as -> by congruence. assert (d2 = d') as -> by congruence.
  destruct (list_eq_dec Byte.byte_eq_dec (kept (map snd d) (f_bytes (w_file w))) (kept (map snd d') (f_bytes (w_file w')))) as [Hk|Hk].
  - right. exact (c57_end _ _ _ _ _ _ O O' Hk Hs Hs' He He').
  - left. split; [exact Hk|exact Hh].
Qed.

(** *** What does not matter *)

Theorem c58_checksum load E depth mode expected ign v w w' d s :
  w_stores w = w_stores w' -> w_contexts w = w_contexts w' ->
  file_len (w_file w) = file_len (w_file w') ->
  snd (omit_sections (w_file w)) = Ok (Some d) -> dict_get "checksum" d = Some s ->
  (forall n, in_section (Z.of_nat n) s = false -> nth_error (f_bytes (w_file w)) n = nth_error (f_bytes (w_file w')) n) ->
  exists N, forall fuel, (N <= fuel)%nat ->
    verify_result load E depth fuel mode expected ign v w = verify_result load E depth fuel mode expected ign v w'.
Proof.
  intros Hst Hc Hl O Hs Hsame.
  destruct (c12_insensitive (w_file w) (w_file w') d Hl O) as [O' Hk].
  { intros n _ Hn. apply Hsame. apply Hn. now left. }
  destruct (table_terminates (w_file w)) as (es & tail & Ht).
  assert (Hdis : forall t i, dict_get "certtable" d = Some t -> in_section i t = true -> 0 <= rel_start t /\ in_section i s = false).
  { intros t i Htb Hi. destruct (layout_of _ _ O) as (o1 & z1 & m1 & dir1 & tab1 & U1 & D1 & T1 & ->).
    pose proof (layout_table _ _ _ _ _ Htb) as E1.
    pose proof (layout_sections _ _ _ _ _ _ U1 D1 T1) as (_ & _ & L3). destruct (L3 _ _ E1) as (_ & G2 & G3 & G4).
    pose proof (usable_opt_bounds _ _ _ _ U1) as (B1 & B2 & B3).
    assert (s = mkRel (o1 + 64) 4) as ->.
    { unfold dict_of_layout in Hs. destruct dir1, tab1 as [[? ?]|]; cbn in Hs; congruence. }
    unfold in_section in *. cbn [rel_start rel_length] in *. lia. }
  assert (Ht' : terminates_with (fun k => cert_table k (w_file w')) (es, tail)).
  { destruct Ht as [N HN]. exists N. intros m Hm. rewrite <- (table_same (w_file w) (w_file w')); [now apply HN|exact Hl|congruence|].
    intros d0 t Hd0 Htb. rewrite O in Hd0. injection Hd0 as <-. split.
    - destruct (c10 _ _ O) as (_ & Hsec & _). rewrite Forall_forall in Hsec. apply dict_get_in in Htb.
      assert (In t (map snd d)) as Hin by (change t with (snd ("certtable"%string, t)); now apply in_map).
      apply Hsec in Hin. unfold section_in in Hin. lia.
    - intros i Hi. apply Hsame. apply (Hdis t); [exact Htb|]. unfold in_section. lia. }
  assert (Hauth : forall alg h, authentihash_of E (f_bytes (w_file w)) alg h <-> authentihash_of E (f_bytes (w_file w')) alg h).
  { intros alg h. unfold authentihash_of. rewrite <- !at_zero. rewrite O, O'.
    split; intros (d0 & Hd0 & ->); injection Hd0 as <-; exists d; now rewrite Hk. }
  destruct (determined load E depth mode expected ign v w w' es tail Hst Hc Ht Ht' Hauth) as [N HN].
  exists N. intros fuel Hf. apply HN. exact Hf.
Qed.
