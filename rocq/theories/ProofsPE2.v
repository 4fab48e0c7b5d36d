(** Proofs about the omitted sections and the authentihash (C08-C13). *)
From Verif Require Import Base Bytes Monad ModelFile ModelFingerprint ModelPE
  SpecFingerprint SpecPE ProofsFingerprint ProofsFingerprint2 ProofsFingerprint3 ProofsPE.
From Coq Require Import ZifyBool ZifyNat Sorting.Permutation.

Lemma signed_pe_init_eq f : signed_pe_init f = (mkFile (f_bytes f) (zlen (f_bytes f)), zlen (f_bytes f)).
Proof. reflexivity. Qed.

Lemma omit_sections_spec f :
  exists r, snd (omit_sections f) = Ok r /\ layout_spec (f_bytes f) r /\
    f_bytes (fst (omit_sections f)) = f_bytes f.
Proof.
  unfold omit_sections. rewrite signed_pe_init_eq.
  destruct (omit_sections_pure (zlen (f_bytes f)) (mkFile (f_bytes f) (zlen (f_bytes f)))) as [H1 H2].
  destruct (omit_layout (f_bytes f)) as (r & Hr & Hl). exists r.
  cbn [f_bytes] in *. rewrite H2. auto.
Qed.

Lemma layout_fun data r1 r2 : layout_spec data r1 -> layout_spec data r2 -> r1 = r2.
Proof.
  intros H1 H2.
  destruct H1 as [N1|o1 s1 m1 d1 t1 U1 D1 T1], H2 as [N2|o2 s2 m2 d2 t2 U2 D2 T2].
  - reflexivity.
  - destruct (N1 _ _ _ U2).
  - destruct (N2 _ _ _ U1).
  - destruct (usable_fun _ _ _ _ _ _ _ U1 U2) as (<- & <- & <-).
    assert (d1 = d2) as <-.
    { destruct d1, d2; auto; [symmetry; apply D2, D1; reflexivity|apply D1, D2; reflexivity]. }
    assert (t1 = t2) as <-; [|reflexivity].
    destruct t1 as [[a1 l1]|], t2 as [[a2 l2]|]; auto.
    + symmetry. apply T2, T1. reflexivity.
    + symmetry. apply T2, T1. reflexivity.
    + apply T1, T2. reflexivity.
Qed.

(** ** C08 *)

Lemma c08 data p :
  exists r, snd (omit_sections (mkFile data p)) = Ok r /\
    f_bytes (fst (omit_sections (mkFile data p))) = data /\
    forall p', snd (omit_sections (mkFile data p')) = Ok r.
Proof.
  destruct (omit_sections_spec (mkFile data p)) as (r & H1 & H2 & H3). exists r.
  split; [exact H1|]. split; [exact H3|]. intros p'.
  destruct (omit_sections_spec (mkFile data p')) as (r' & H1' & H2' & H3').
  rewrite H1'. f_equal. eapply layout_fun; eauto.
Qed.

(** ** C09 *)

Lemma c09 f :
  (snd (omit_sections f) = Ok None <->
     forall opt size magic, ~ usable (f_bytes f) opt size magic) /\
  (forall opt size magic, usable (f_bytes f) opt size magic ->
     exists d, snd (omit_sections f) = Ok (Some d) /\
       dict_get "checksum" d = Some (mkRel (opt + 64) 4) /\
       (forall s, dict_get "datadir_certtable" d = Some s <->
          has_dir_entry (f_bytes f) opt size magic /\ s = mkRel (opt + dir_off magic) 8) /\
       (forall s, dict_get "certtable" d = Some s <->
          has_cert_table (f_bytes f) opt size magic (rel_start s) (rel_length s)) /\
       (forall k, In k (map fst d) -> In k ["checksum"; "datadir_certtable"; "certtable"])).
Proof.
  destruct (omit_sections_spec f) as (r & H1 & H2 & _). rewrite H1. split.
  - destruct H2 as [N|o s m d t U D T]; split; auto; [discriminate|].
    intros N. destruct (N _ _ _ U).
  - intros o s m U.
    destruct H2 as [N|o2 s2 m2 d t U2 D T]; [destruct (N _ _ _ U)|].
    destruct (usable_fun _ _ _ _ _ _ _ U U2) as (<- & <- & <-).
    eexists. split; [reflexivity|]. unfold dict_of_layout.
    assert (Htd : t <> None -> d = true).
    { intros Ht. destruct t as [[a l]|]; [|congruence].
      destruct (proj1 (T a l) eq_refl) as (Hd & _). now apply D. }
    split; [reflexivity|]. split; [|split; [|]].
    + intros sec. split.
      * intros H. destruct d; cbn in H; [|destruct t as [[a l]|]; cbn in H; discriminate].
        injection H as <-. split; [now apply D|reflexivity].
      * intros [Hd ->]. apply D in Hd. subst d. reflexivity.
    + intros sec. split.
      * intros Hg. destruct t as [[a l]|].
        -- rewrite Htd in Hg by congruence. cbn in Hg. injection Hg as <-. cbn. now apply T.
        -- destruct d; discriminate.
      * intros Hc. apply T in Hc. subst t. rewrite Htd by congruence. cbn. destruct sec; reflexivity.
    + intros k Hk. destruct d, t as [[a l]|]; cbn in Hk |- *; intuition.
Qed.

(** ** C10 *)

Lemma layout_sections data opt size magic dir tab :
  usable data opt size magic ->
  (dir = true <-> has_dir_entry data opt size magic) ->
  (forall a l, tab = Some (a, l) <-> has_cert_table data opt size magic a l) ->
  68 <= dir_off magic /\
  (dir = true -> dir_off magic + 8 <= size) /\
  (forall a l, tab = Some (a, l) -> dir = true /\ 0 < l /\ opt + size <= a /\ a + l <= zlen data).
Proof.
  intros U D T. split; [|split].
  - unfold dir_off. destruct (_ =? _); lia.
  - intros Hd. apply D in Hd. apply Hd.
  - intros a l Ht. pose proof (proj1 (T a l) Ht) as (Hd & Ea & El & Hz & H1 & H2).
    split; [now apply D|]. pose proof (u32_range data (opt + dir_off magic + 4)). lia.
Qed.

Lemma c10_layout data d :
  layout_spec data (Some d) ->
  (exists n, (1 <= n)%nat /\ map fst d = firstn n ["checksum"; "datadir_certtable"; "certtable"]) /\
  Forall (section_in (zlen data)) (map snd d) /\
  ForallOrdPairs before (map snd d).
Proof.
  intros H. inversion H as [|opt size magic dir tab U D T Hd]; subst.
  destruct (layout_sections _ _ _ _ _ _ U D T) as (L1 & L2 & L3).
  pose proof (usable_opt_bounds _ _ _ _ U) as (B1 & B2 & B3).
  unfold dict_of_layout, section_in, before.
  destruct tab as [[a l]|].
  - destruct (L3 a l eq_refl) as (-> & L4 & L5 & L6). specialize (L2 eq_refl). cbn. split.
    { exists 3%nat. split; [lia|reflexivity]. }
    split; repeat constructor; cbn; lia.
  - destruct dir; cbn.
    + specialize (L2 eq_refl). split; [exists 2%nat; split; [lia|reflexivity]|].
      split; repeat constructor; cbn; lia.
    + split; [exists 1%nat; split; [lia|reflexivity]|].
      split; repeat constructor; cbn; lia.
Qed.

Lemma c10 f d :
  snd (omit_sections f) = Ok (Some d) ->
  (exists n, (1 <= n)%nat /\ map fst d = firstn n ["checksum"; "datadir_certtable"; "certtable"]) /\
  Forall (section_in (file_len f)) (map snd d) /\
  ForallOrdPairs before (map snd d).
Proof.
  intros H. destruct (omit_sections_spec f) as (r & H1 & H2 & _).
  assert (r = Some d) as -> by congruence. now apply c10_layout.
Qed.

(** ** C11 *)

Lemma kept_from_app i secs a b :
  kept_from i secs (a ++ b) = kept_from i secs a ++ kept_from (i + zlen a) secs b.
Proof.
  revert i; induction a as [|x a IH]; intros i; cbn [app kept_from].
  - now rewrite zlen_nil, Z.add_0_r.
  - rewrite IH, zlen_cons. replace (i + 1 + zlen a) with (i + (1 + zlen a)) by lia.
    destruct (omitted secs i); reflexivity.
Qed.

Lemma kept_from_id i secs a :
  (forall j, i <= j < i + zlen a -> omitted secs j = false) -> kept_from i secs a = a.
Proof.
  revert i; induction a as [|x a IH]; intros i H; cbn [kept_from]; [reflexivity|].
  rewrite zlen_cons in H. pose proof (zlen_nonneg a).
  rewrite H by lia. f_equal. apply IH. intros j Hj. apply H. lia.
Qed.

Lemma kept_from_none i secs a :
  (forall j, i <= j < i + zlen a -> omitted secs j = true) -> kept_from i secs a = [].
Proof.
  revert i; induction a as [|x a IH]; intros i H; cbn [kept_from]; [reflexivity|].
  rewrite zlen_cons in H. pose proof (zlen_nonneg a).
  rewrite H by lia. apply IH. intros j Hj. apply H. lia.
Qed.

(** Sections in increasing order from [start] on, within [len]. *)
Fixpoint chained (start : Z) (secs : list relrange) (len : Z) : Prop :=
  match secs with
  | [] => start <= len
  | s :: secs' => start <= rel_start s /\ 0 < rel_length s /\
                  chained (rel_start s + rel_length s) secs' len
  end.

Lemma chained_le secs : forall start len, chained start secs len -> start <= len.
Proof.
  induction secs as [|s secs IH]; intros start len; cbn [chained]; [auto|].
  intros (H1 & H2 & H3). apply IH in H3. lia.
Qed.

Lemma chained_not_omitted secs : forall start len j,
  chained start secs len -> j < start -> omitted secs j = false.
Proof.
  induction secs as [|s secs IH]; intros start len j; cbn [chained]; [reflexivity|].
  intros (H1 & H2 & H3) Hj. unfold omitted. cbn [existsb].
  fold (omitted secs j). rewrite (IH _ _ j H3) by lia. unfold in_section. lia.
Qed.

Lemma slices_gaps data all secs : forall start,
  0 <= start -> chained start secs (zlen data) ->
  (forall j, start <= j -> omitted all j = omitted secs j) ->
  slices data (gap_ranges start secs (zlen data)) =
  kept_from start all (zslice start (zlen data) data).
Proof.
  induction secs as [|s secs IH]; intros start H0 Hc Ho; cbn [gap_ranges chained] in *.
  - unfold slices, slice. cbn. rewrite app_nil_r. symmetry. apply kept_from_id.
    intros j Hj. rewrite Ho by lia. reflexivity.
  - destruct Hc as (H1 & H2 & H3). pose proof (chained_le _ _ _ H3) as H4.
    unfold slices. cbn [map concat]. fold (slices data (gap_ranges (rel_start s + rel_length s) secs (zlen data))).
    rewrite IH; [|lia|exact H3|].
    2:{ intros j Hj. rewrite Ho by lia. unfold omitted. cbn [existsb]. unfold in_section at 1.
        replace (j <? rel_start s + rel_length s) with false by lia. now rewrite andb_false_r. }
    unfold slice. cbn [r_start r_end].
    rewrite <- (zslice_app start (rel_start s) (zlen data)) by lia.
    rewrite <- (zslice_app (rel_start s) (rel_start s + rel_length s) (zlen data)) by lia.
    rewrite !kept_from_app, !zlen_zslice by lia.
    rewrite (kept_from_id start); [|rewrite zlen_zslice by lia].
    2:{ intros j Hj. rewrite Ho by lia. unfold omitted. cbn [existsb].
        fold (omitted secs j). rewrite (chained_not_omitted _ _ _ j H3) by lia.
        unfold in_section. lia. }
    rewrite (kept_from_none (start + (rel_start s - start))); [|rewrite zlen_zslice by lia].
    2:{ intros j Hj. rewrite Ho by lia. unfold omitted. cbn [existsb].
        fold (omitted secs j). unfold in_section. lia. }
    cbn [app]. f_equal. f_equal. lia.
Qed.

Lemma gap_ranges_valid len secs : forall start,
  0 <= start -> chained start secs len -> Forall (valid_range len) (gap_ranges start secs len).
Proof.
  induction secs as [|s secs IH]; intros start H0 Hc; cbn [gap_ranges chained] in *.
  - constructor; [|constructor]. unfold valid_range. cbn. lia.
  - destruct Hc as (H1 & H2 & H3). pose proof (chained_le _ _ _ H3).
    constructor; [unfold valid_range; cbn; lia|]. apply IH; [lia|assumption].
Qed.

Lemma ord_chained secs len :
  0 <= len -> Forall (section_in len) secs -> ForallOrdPairs before secs ->
  chained 0 secs len.
Proof.
  intros Hlen Hin Hord.
  assert (H : forall start, 0 <= start -> start <= len ->
    Forall (fun s => start <= rel_start s) secs -> chained start secs len); [|apply H; auto].
  2:{ lia. }
  2:{ eapply Forall_impl; [|exact Hin]. unfold section_in. intros s Hs. lia. }
  induction Hord as [|s secs Hb Hord IH]; intros start H0 Hl Hs; cbn [chained]; [assumption|].
  apply Forall_inv in Hs as Hs1. apply Forall_inv in Hin as Hi1. apply Forall_inv_tail in Hin.
  unfold section_in in Hi1. split; [lia|]. split; [lia|]. apply IH; try lia; assumption.
Qed.

Lemma rel_sort_ord secs len :
  Forall (section_in len) secs -> ForallOrdPairs before secs -> rel_sort secs = secs.
Proof.
  intros Hin Hord. induction Hord as [|s secs Hb Hord IH]; [reflexivity|].
  apply Forall_inv in Hin as Hi1. apply Forall_inv_tail in Hin. specialize (IH Hin).
  cbn [rel_sort fold_right]. fold (rel_sort secs). rewrite IH.
  destruct secs as [|s2 secs]; [reflexivity|]. cbn [rel_insert].
  apply Forall_inv in Hb. unfold before, section_in in *. unfold rel_leb.
  replace (rel_start s <? rel_start s2) with true by lia. reflexivity.
Qed.

(** The state after [add_authenticode_hashers]. *)
Lemma add_authenticode_spec st names :
  fp_len st = zlen (f_bytes (fp_file st)) ->
  (snd (omit_sections (fp_file st)) = Ok None /\
   exists p, add_authenticode_hashers st names = (with_file st (mkFile (f_bytes (fp_file st)) p), Ok false)) \/
  (exists d ranges p, snd (omit_sections (fp_file st)) = Ok (Some d) /\
     slices (f_bytes (fp_file st)) ranges = kept (map snd d) (f_bytes (fp_file st)) /\
     Forall (valid_range (fp_len st)) ranges /\ ranges <> [] /\
     add_authenticode_hashers st names =
       (mkFp (fp_heap st ++ [ranges]) (mkFile (f_bytes (fp_file st)) p) (fp_block st) (fp_len st)
          (fp_fingers st ++ [mkFinger (length (fp_heap st)) (map (fun n => mkHasher n []) names) "authentihash"]),
        Ok true)).
Proof.
  intros Hlen. unfold add_authenticode_hashers.
  destruct (omit_sections_spec (fp_file st)) as (r & H1 & H2 & H3). unfold omit_sections in *.
  destruct (signed_pe_init (fp_file st)) as [f1 flen].
  destruct (get_authenticode_omit_sections flen f1) as [[b p] res]. cbn [fst snd f_bytes] in *.
  subst res b. destruct r as [d|]; [|left; split; [reflexivity|exists p; reflexivity]].
  right. destruct (c10_layout _ _ H2) as (_ & Hin & Hord).
  pose proof (rel_sort_ord _ _ Hin Hord) as Hs.
  pose proof (ord_chained _ _ (zlen_nonneg _) Hin Hord) as Hc.
  exists d, (gap_ranges 0 (map snd d) (fp_len st)), p. rewrite Hs.
  split; [reflexivity|]. split.
  { rewrite Hlen. rewrite (slices_gaps _ (map snd d)) by (auto; lia).
    unfold kept. now rewrite zslice_all. }
  split; [rewrite Hlen; apply gap_ranges_valid; [lia|exact Hc]|].
  assert (Hne : gap_ranges 0 (map snd d) (fp_len st) <> []) by (destruct (map snd d); discriminate).
  split; [exact Hne|].
  cbn [fp_heap with_heap with_file fp_len]. unfold add_hashers, with_heap, with_file.
  cbn [fp_heap fp_file fp_block fp_len fp_fingers].
  rewrite app_length. cbn [length]. replace (length (fp_heap st) + 1 - 1)%nat with (length (fp_heap st)) by lia.
  assert (Hg : heap_get (fp_heap st ++ [gap_ranges 0 (map snd d) (fp_len st)]) (length (fp_heap st))
               = gap_ranges 0 (map snd d) (fp_len st)).
  { unfold heap_get. rewrite app_nth2, Nat.sub_diag by lia. reflexivity. }
  rewrite Hg. destruct (gap_ranges 0 (map snd d) (fp_len st)); [congruence|reflexivity].
Qed.

Lemma expected_get H data qs k :
  dict_get k (expected H data qs) =
  option_map (fun q => inner_of H (q_names q) (slices data (q_ranges q)))
    (find (fun q => String.eqb (q_desc q) k) (rev qs)).
Proof.
  unfold expected. rewrite dict_get_of_list, <- map_rev.
  apply (dict_get_map_find q_desc (fun q => inner_of H (q_names q) (slices data (q_ranges q)))).
Qed.

Lemma find_map {A B} (p : B -> bool) (g : A -> B) l :
  find p (map g l) = option_map g (find (fun a => p (g a)) l).
Proof. induction l as [|a l IH]; cbn; [reflexivity|]. destruct (p (g a)); auto. Qed.

Lemma find_app_split {A} (p : A -> bool) l1 l2 :
  find p (l1 ++ l2) = match find p l1 with Some a => Some a | None => find p l2 end.
Proof. induction l1 as [|a l1 IH]; cbn; [reflexivity|]. destruct (p a); auto. Qed.

Lemma inner_of_get H names b n :
  dict_get n (inner_of H names b) = if in_dec string_dec n names then Some (H n b) else None.
Proof. unfold inner_of. rewrite dict_get_of_list. apply (dict_get_names n names (fun x => H x b)). Qed.

Lemma c11_ok H h f bs cs1 names cs2 d st1 b :
  0 < bs -> distinct_lists h (cs1 ++ cs2) ->
  (forall c, In c (cs1 ++ cs2) -> Forall (valid_range (file_len f)) (requested h (file_len f) c)) ->
  (forall c, In c cs2 -> c_desc c <> "authentihash") ->
  snd (omit_sections f) = Ok (Some d) ->
  add_authenticode_hashers (do_calls (fp_new h f bs) cs1) names = (st1, b) ->
  b = Ok true /\
  exists st' r,
    terminates_with (fun n => hashes H n (do_calls st1 cs2)) (st', Ok r) /\
    NoDup (map fst r) /\
    (exists inner, dict_get "authentihash" r = Some inner /\ NoDup (map fst inner) /\
       forall n, dict_get n inner =
         if in_dec string_dec n names then Some (H n (kept (map snd d) (f_bytes f))) else None) /\
    (forall k, k <> "authentihash" ->
       match last_call k (cs1 ++ cs2) with
       | None => dict_get k r = None
       | Some c => exists inner, dict_get k r = Some inner /\ NoDup (map fst inner) /\
           forall n, dict_get n inner =
             if in_dec string_dec n (c_hashers c)
             then Some (H n (slices (f_bytes f) (requested h (file_len f) c))) else None
       end).
Proof.
  intros Hbs Hdist Hvalid Hdesc Homit Hadd.
  set (st0 := fp_new h f bs) in *.
  assert (Hpl : passed_lists (cs1 ++ cs2) = passed_lists cs1 ++ passed_lists cs2)
    by (unfold passed_lists; apply flat_map_app).
  destruct Hdist as [Hnd Hlt]. rewrite Hpl in Hnd, Hlt. apply Forall_app in Hlt as [Hlt1 Hlt2].
  assert (Hnd1 : NoDup (passed_lists cs1)).
  { clear - Hnd. induction (passed_lists cs1) as [|a l IH]; [constructor|].
    inversion Hnd as [|x y Hx Hy]; subst. constructor; [|auto].
    intros Hin. apply Hx. apply in_or_app. now left. }
  destruct (calls_init st0 cs1 eq_refl (conj Hnd1 Hlt1)) as (Hinv & Hf & Hb & Hl & [ext Hext] & Hrefs & _).
  set (st := do_calls st0 cs1) in *.
  assert (Hlen : fp_len st = zlen (f_bytes (fp_file st))) by (rewrite Hf, Hl; reflexivity).
  assert (Hfb : f_bytes (fp_file st) = f_bytes f) by (rewrite Hf; reflexivity).
  assert (Hom : snd (omit_sections (fp_file st)) = Ok (Some d)).
  { rewrite <- Homit. destruct (omit_sections_spec (fp_file st)) as (r1 & -> & L1 & _).
    destruct (omit_sections_spec f) as (r2 & -> & L2 & _). f_equal. rewrite Hfb in L1.
    eapply layout_fun; eauto. }
  destruct (add_authenticode_spec st names Hlen) as [[Hbad _]|(d' & ranges & p & Hd' & Hsl & Hva & Hne & Heq)];
    [congruence|].
  assert (d' = d) as -> by congruence. clear Hd'.
  rewrite Heq in Hadd. injection Hadd as <- <-. split; [reflexivity|].
  set (st1 := mkFp (fp_heap st ++ [ranges]) _ _ _ _) in *.
  set (qa := mkReq ranges names "authentihash").
  assert (Hinv1 : init_inv (map (req_of h (file_len f)) cs1 ++ [qa]) st1).
  { destruct Hinv as [[Hwf1 Hwf2] Hfs]. constructor.
    - unfold st1. cbn [fp_heap fp_fingers]. split.
      + unfold refs. rewrite map_app. cbn [map fg_ref].
        assert (Hperm : NoDup (length (fp_heap st) :: map fg_ref (fp_fingers st))).
        { constructor; [|assumption]. intros Hin. rewrite Forall_forall in Hwf2.
          specialize (Hwf2 _ Hin). lia. }
        eapply Permutation_NoDup; [|exact Hperm]. apply Permutation_cons_append.
      + unfold refs. rewrite map_app. apply Forall_app. split.
        * eapply Forall_impl; [|exact Hwf2]. intros a Ha. cbn in Ha. rewrite app_length; cbn; lia.
        * constructor; [|constructor]. cbn. rewrite app_length; cbn; lia.
    - unfold st1. cbn [fp_heap fp_fingers]. apply Forall2_app.
      + assert (Hlt' : forall fg, In fg (fp_fingers st) -> (fg_ref fg < length (fp_heap st))%nat).
        { intros fg Hfg. rewrite Forall_forall in Hwf2. apply Hwf2. now apply in_map. }
        change (map (req_of (fp_heap st0) (fp_len st0)) cs1) with (map (req_of h (file_len f)) cs1) in Hfs.
        clear - Hfs Hlt'. induction Hfs as [|q fg qs fgs Hq Hfs IH]; constructor.
        * destruct Hq as (H1 & H2 & H3). repeat split; auto.
          unfold rem, heap_get in *. rewrite app_nth1; auto. apply Hlt'; now left.
        * apply IH. intros fg' Hfg'. apply Hlt'. now right.
      + constructor; [|constructor]. repeat split. unfold rem, heap_get. cbn [fg_ref].
        rewrite app_nth2, Nat.sub_diag by lia. reflexivity. }
  destruct (calls_inv_gen h (file_len f) cs2 st1 (map (req_of h (file_len f)) cs1 ++ [qa]) (passed_lists cs1)) as
    (I1 & I2 & I3 & I4 & I5 & _).
  { exists (ext ++ [ranges]). unfold st1. cbn [fp_heap]. rewrite Hext. cbn. now rewrite app_assoc. }
  { unfold st1. cbn [fp_len]. rewrite Hl. reflexivity. }
  { exact Hinv1. }
  { intros i Hi Hi2. unfold st1 in Hi. cbn [fp_fingers] in Hi. unfold refs in Hi.
    rewrite map_app in Hi. apply in_app_or in Hi. destruct Hi as [Hi|[<-|[]]]; [now apply Hrefs|].
    cbn [fg_ref] in Hi2. rewrite Hext in Hi2. cbn in Hi2. rewrite app_length in Hi2. lia. }
  { exact Hnd. }
  { exact Hlt2. }
  cbn zeta in *. rewrite <- app_assoc in I5.
  set (qs := map (req_of h (file_len f)) cs1 ++ [qa] ++ map (req_of h (file_len f)) cs2) in *.
  destruct (hashes_complete H (f_bytes f) qs (do_calls st1 cs2)) as (st' & Hterm).
  { now apply init_inv_inv. }
  { rewrite I2. unfold st1. cbn [fp_file f_bytes]. exact Hfb. }
  { rewrite I3. unfold st1. cbn [fp_block]. rewrite Hb. exact Hbs. }
  { unfold qs. apply Forall_app. split; [|apply Forall_app; split].
    - apply Forall_forall. intros q Hq. apply in_map_iff in Hq. destruct Hq as (c & <- & Hc).
      cbn [req_of q_ranges]. eapply Forall_impl; [|apply Hvalid; apply in_or_app; now left].
      unfold valid_range, readable_range, file_len. intros r0 Hr0. lia.
    - constructor; [|constructor]. cbn [qa q_ranges]. eapply Forall_impl; [|exact Hva].
      rewrite Hlen, Hfb. unfold valid_range, readable_range. intros r0 Hr0. lia.
    - apply Forall_forall. intros q Hq. apply in_map_iff in Hq. destruct Hq as (c & <- & Hc).
      cbn [req_of q_ranges]. eapply Forall_impl; [|apply Hvalid; apply in_or_app; now right].
      unfold valid_range, readable_range, file_len. intros r0 Hr0. lia. }
  exists st', (expected H (f_bytes f) qs). split; [exact Hterm|].
  split; [apply dict_of_list_NoDup|].
  assert (Hrev : rev qs = map (req_of h (file_len f)) (rev cs2) ++ [qa] ++ map (req_of h (file_len f)) (rev cs1)).
  { unfold qs. rewrite !rev_app_distr, !map_rev. cbn [rev app]. now rewrite <- app_assoc. }
  assert (Hnone : find (fun q => String.eqb (q_desc q) "authentihash") (map (req_of h (file_len f)) (rev cs2)) = None).
  { rewrite find_map. cbn [req_of q_desc].
    destruct (find _ (rev cs2)) as [c|] eqn:E; [|reflexivity].
    apply find_some in E. destruct E as [E1 E2]. apply String.eqb_eq in E2.
    apply in_rev in E1. now apply Hdesc in E1. }
  split.
  - rewrite expected_get, Hrev, find_app_split, Hnone. cbn [find app qa q_desc]. cbn [String.eqb Ascii.eqb Bool.eqb].
    rewrite ?String.eqb_refl. cbn [option_map q_names q_ranges].
    eexists. split; [reflexivity|]. split; [apply dict_of_list_NoDup|].
    intros n. rewrite inner_of_get. rewrite Hfb in Hsl. unfold qa. cbn [q_names q_ranges]. rewrite Hsl. reflexivity.
  - intros k Hk.
    assert (Hf2 : find (fun q => String.eqb (q_desc q) k) (rev qs) =
                  option_map (req_of h (file_len f)) (last_call k (cs1 ++ cs2))).
    { rewrite Hrev, !find_app_split. unfold last_call. rewrite rev_app_distr, find_app_split.
      rewrite !find_map. cbn [req_of q_desc].
      destruct (find _ (rev cs2)) as [c|]; [reflexivity|]. cbn [option_map find].
      unfold qa. cbn [q_desc]. destruct (String.eqb_spec "authentihash" k); [congruence|]. reflexivity. }
    rewrite expected_get, Hf2. destruct (last_call k (cs1 ++ cs2)) as [c|]; [|reflexivity].
    cbn [option_map req_of q_names q_ranges].
    eexists. split; [reflexivity|]. split; [apply dict_of_list_NoDup|].
    intros n. now rewrite inner_of_get.
Qed.

Lemma c11_false st names :
  fp_len st = file_len (fp_file st) ->
  snd (omit_sections (fp_file st)) = Ok None ->
  snd (add_authenticode_hashers st names) = Ok false /\
  same_but_pos (fst (add_authenticode_hashers st names)) st.
Proof.
  intros Hlen Hno. destruct (add_authenticode_spec st names Hlen) as [[_ [p Hp]]|(d & r & p & Hd & _)];
    [|congruence].
  rewrite Hp. split; [reflexivity|]. unfold same_but_pos. cbn. auto.
Qed.

Lemma do_calls_keeps cs : forall st,
  fp_file (do_calls st cs) = fp_file st /\ fp_len (do_calls st cs) = fp_len st.
Proof.
  induction cs as [|c cs IH]; intros st; [split; reflexivity|]. cbn [do_calls fold_left].
  destruct (IH (do_call st c)) as [I1 I2]. unfold do_calls in *. rewrite I1, I2.
  unfold do_call, add_hashers. destruct (c_ranges c) as [r|]; [|split; reflexivity].
  destruct (heap_get (fp_heap st) r); split; reflexivity.
Qed.

Lemma c11_unparsable h f bs cs names :
  snd (omit_sections f) = Ok None ->
  let st := do_calls (fp_new h f bs) cs in
  snd (add_authenticode_hashers st names) = Ok false /\
  same_but_pos (fst (add_authenticode_hashers st names)) st.
Proof.
  intros Hno. cbv zeta. destruct (do_calls_keeps cs (fp_new h f bs)) as [K1 K2].
  apply c11_false.
  - rewrite K1, K2. reflexivity.
  - rewrite K1. exact Hno.
Qed.

(** ** C12 *)

Lemma kept_from_agree secs : forall d1 d2 i,
  length d1 = length d2 ->
  (kept_from i secs d1 = kept_from i secs d2 <->
   forall n, (n < length d1)%nat -> omitted secs (i + Z.of_nat n) = false ->
     nth_error d1 n = nth_error d2 n).
Proof.
  induction d1 as [|x d1 IH]; intros d2 i Hl; destruct d2 as [|y d2]; try discriminate Hl.
  - cbn. split; [lia|auto].
  - injection Hl as Hl. specialize (IH d2 (i + 1) Hl). cbn [kept_from]. destruct (omitted secs i) eqn:E.
    + rewrite IH. split; intros H n Hn Ho.
      * destruct n as [|n]; [rewrite Z.add_0_r in Ho; congruence|]. cbn [nth_error].
        apply H; [cbn in Hn; lia|]. rewrite <- Ho. f_equal. lia.
      * specialize (H (S n)). cbn [nth_error] in H. apply H; [cbn; lia|].
        rewrite <- Ho. f_equal. lia.
    + split.
      * intros H. injection H as <- H. rewrite IH in H. intros n Hn Ho.
        destruct n as [|n]; [reflexivity|]. cbn [nth_error]. apply H; [cbn in Hn; lia|].
        rewrite <- Ho. f_equal. lia.
      * intros H. f_equal.
        -- specialize (H 0%nat). cbn in H. rewrite Z.add_0_r in H. specialize (H ltac:(lia) E). congruence.
        -- apply IH. intros n Hn Ho. specialize (H (S n)). cbn [nth_error] in H. apply H; [cbn; lia|].
           rewrite <- Ho. f_equal. lia.
Qed.

Lemma c12_iff secs d1 d2 :
  length d1 = length d2 ->
  (kept secs d1 = kept secs d2 <->
   forall n, (n < length d1)%nat -> omitted secs (Z.of_nat n) = false ->
     nth_error d1 n = nth_error d2 n).
Proof. intros Hl. apply (kept_from_agree secs d1 d2 0 Hl). Qed.

Lemma usable_transfer d1 d2 opt size magic dir tab :
  length d1 = length d2 ->
  usable d1 opt size magic ->
  (dir = true <-> has_dir_entry d1 opt size magic) ->
  (forall a l, tab = Some (a, l) <-> has_cert_table d1 opt size magic a l) ->
  (forall n, (n < length d1)%nat ->
     in_section (Z.of_nat n) (mkRel (opt + 64) 4) = false ->
     match tab with Some (a, l) => in_section (Z.of_nat n) (mkRel a l) = false | None => True end ->
     nth_error d1 n = nth_error d2 n) ->
  layout_spec d2 (Some (dict_of_layout opt magic dir tab)).
Proof.
  intros Hl U D T Hag.
  destruct (layout_sections _ _ _ _ _ _ U D T) as (L1 & L2 & L3).
  pose proof (usable_opt_bounds _ _ _ _ U) as (B1 & B2 & B3).
  assert (Hz : zlen d2 = zlen d1) by (unfold zlen; now rewrite Hl).
  assert (Hsl : forall a b, 0 <= a -> b <= opt + size -> (b <= opt + 64 \/ opt + 68 <= a) ->
            zslice a b d2 = zslice a b d1).
  { intros a b Ha Hb Hc. symmetry. apply zslice_ext; [assumption|]. intros i Hi.
    destruct (Z.ltb_spec (Z.of_nat i) (zlen d1)).
    - apply Hag; [unfold zlen in *; lia|unfold in_section; cbn; lia|].
      destruct tab as [[ta tl]|]; [|exact I]. specialize (L3 _ _ eq_refl).
      unfold in_section; cbn. lia.
    - transitivity (@None byte); [|symmetry]; apply nth_error_None; unfold zlen in *; lia. }
  pose proof (u32_range d1 60) as Hpe.
  assert (Ho : opt = u32 d1 60 + 24) by apply U.
  assert (E60 : u32 d2 60 = u32 d1 60).
  { unfold u32. rewrite Hsl by lia. reflexivity. }
  assert (Esz : u16 d2 (opt - 4) = u16 d1 (opt - 4)).
  { unfold u16. rewrite Hsl by lia. reflexivity. }
  assert (Emg : u16 d2 opt = u16 d1 opt).
  { unfold u16. rewrite Hsl by lia. reflexivity. }
  assert (U2 : usable d2 opt size magic).
  { destruct U as (U1 & U2 & U3 & U4 & U5 & U6 & U7 & U8 & U9).
    unfold usable. rewrite E60, Esz, Emg, Hz.
    rewrite (Hsl 0 2) by lia. rewrite (Hsl (u32 d1 60) (u32 d1 60 + 4)) by lia. auto 12. }
  assert (Hrv : 68 <= rva_off magic) by (unfold rva_off; destruct (_ =? _); lia).
  assert (Ed : has_dir_entry d2 opt size magic <-> has_dir_entry d1 opt size magic).
  { unfold has_dir_entry.
    assert (rva_off magic + 4 <= size -> u32 d2 (opt + rva_off magic) = u32 d1 (opt + rva_off magic)).
    { intros. unfold u32. rewrite Hsl by lia. reflexivity. }
    split; intros (X1 & X2 & X3); rewrite H in * by lia; auto. }
  apply (layout_some d2 opt size magic dir tab U2).
  - now rewrite Ed.
  - intros a l. rewrite T. unfold has_cert_table. rewrite Ed, Hz.
    assert (has_dir_entry d1 opt size magic ->
      u32 d2 (opt + dir_off magic) = u32 d1 (opt + dir_off magic) /\
      u32 d2 (opt + dir_off magic + 4) = u32 d1 (opt + dir_off magic + 4)).
    { intros (X1 & X2 & X3). unfold u32. split; rewrite Hsl by lia; reflexivity. }
    split; intros (X1 & X2); destruct (H X1) as [Y1 Y2]; rewrite Y1, Y2 in *; auto.
Qed.

Lemma c12_insensitive f1 f2 d :
  file_len f1 = file_len f2 ->
  snd (omit_sections f1) = Ok (Some d) ->
  (forall n, (n < length (f_bytes f1))%nat ->
     (forall s, dict_get "checksum" d = Some s \/ dict_get "certtable" d = Some s ->
        in_section (Z.of_nat n) s = false) ->
     nth_error (f_bytes f1) n = nth_error (f_bytes f2) n) ->
  snd (omit_sections f2) = Ok (Some d) /\
  kept (map snd d) (f_bytes f2) = kept (map snd d) (f_bytes f1).
Proof.
  intros Hlen H Hag.
  assert (Hl : length (f_bytes f1) = length (f_bytes f2)) by (unfold file_len, zlen in Hlen; lia).
  destruct (omit_sections_spec f1) as (r & H1 & H2 & _).
  assert (r = Some d) as -> by congruence.
  inversion H2 as [|opt size magic dir tab U D T Hd]; subst d.
  destruct (layout_sections _ _ _ _ _ _ U D T) as (_ & _ & L3).
  assert (Hck : dict_get "checksum" (dict_of_layout opt magic dir tab) = Some (mkRel (opt + 64) 4)) by reflexivity.
  assert (Hct : dict_get "certtable" (dict_of_layout opt magic dir tab) =
                match tab with Some (a, l) => Some (mkRel a l) | None => None end).
  { unfold dict_of_layout. destruct tab as [[a l]|]; destruct dir; reflexivity. }
  rewrite Hck, Hct in Hag.
  assert (Hag' : forall n, (n < length (f_bytes f1))%nat ->
     in_section (Z.of_nat n) (mkRel (opt + 64) 4) = false ->
     match tab with Some (a, l) => in_section (Z.of_nat n) (mkRel a l) = false | None => True end ->
     nth_error (f_bytes f1) n = nth_error (f_bytes f2) n).
  { intros n Hn N1 N2. apply Hag; [assumption|]. intros s [Hs|Hs]; [congruence|].
    destruct tab as [[a l]|]; [congruence|discriminate]. }
  pose proof (usable_transfer _ _ _ _ _ _ _ Hl U D T Hag') as Hlay.
  destruct (omit_sections_spec f2) as (r & H1' & H2' & _).
  split; [rewrite H1'; f_equal; eapply layout_fun; eauto|].
  symmetry. apply c12_iff; [assumption|]. intros n Hn Ho. apply Hag'; [assumption| |].
  - unfold omitted, dict_of_layout in Ho. cbn [map app existsb snd] in Ho.
    now apply orb_false_iff in Ho.
  - destruct tab as [[a l]|]; [|exact I]. specialize (L3 a l eq_refl). destruct L3 as [-> _].
    unfold omitted, dict_of_layout in Ho. cbn [map app existsb snd] in Ho.
    apply orb_false_iff in Ho as [_ Ho]. apply orb_false_iff in Ho as [_ Ho].
    now apply orb_false_iff in Ho as [Ho _].
Qed.

(** ** C13 *)

Lemma kept_from_nth secs : forall data i0 n,
  (n < length data)%nat -> omitted secs (i0 + Z.of_nat n) = false ->
  nth_error (kept_from i0 secs data) (length (kept_from i0 secs (firstn n data))) = nth_error data n.
Proof.
  induction data as [|x data IH]; intros i0 n Hn Ho; [cbn in Hn; lia|].
  destruct n as [|n].
  - cbn [firstn kept_from length nth_error]. rewrite Z.add_0_r in Ho. rewrite Ho. reflexivity.
  - cbn [firstn kept_from nth_error]. specialize (IH (i0 + 1) n).
    destruct (omitted secs i0); cbn [length nth_error]; apply IH; try (cbn in Hn; lia);
      rewrite <- Ho; f_equal; lia.
Qed.

Lemma kept_prefix_length secs data n :
  (n <= length data)%nat ->
  (length (kept secs (firstn n data)) + omitted_before secs n = n)%nat.
Proof.
  induction n as [|n IH]; intros Hn; [reflexivity|].
  specialize (IH ltac:(lia)). unfold kept in *.
  assert (Hx : exists x, firstn (S n) data = firstn n data ++ [x]).
  { clear IH. revert data Hn. induction n as [|n IH]; intros data Hn.
    - destruct data as [|x data]; [cbn in Hn; lia|]. exists x. reflexivity.
    - destruct data as [|x data]; [cbn in Hn; lia|]. cbn in Hn.
      destruct (IH data ltac:(lia)) as [y Hy]. exists y. cbn [firstn app] in *. now rewrite Hy. }
  destruct Hx as [x Hx]. rewrite Hx, kept_from_app, app_length.
  assert (Hlen : zlen (firstn n data) = Z.of_nat n) by (unfold zlen; rewrite firstn_length; lia).
  rewrite Hlen. cbn [kept_from omitted_before]. change (0 + Z.of_nat n) with (Z.of_nat n).
  destruct (omitted secs (Z.of_nat n)); cbn [length]; lia.
Qed.

Lemma c13_rank s1 s2 d1 d2 n :
  kept s1 d1 = kept s2 d2 ->
  (n < length d1)%nat -> (n < length d2)%nat ->
  omitted s1 (Z.of_nat n) = false -> omitted s2 (Z.of_nat n) = false ->
  omitted_before s1 n = omitted_before s2 n ->
  nth_error d1 n = nth_error d2 n.
Proof.
  intros Hk H1 H2 O1 O2 Hr.
  rewrite <- (kept_from_nth s1 d1 0 n H1 O1), <- (kept_from_nth s2 d2 0 n H2 O2).
  fold (kept s1 d1) (kept s2 d2). rewrite Hk. f_equal.
  pose proof (kept_prefix_length s1 d1 n ltac:(lia)).
  pose proof (kept_prefix_length s2 d2 n ltac:(lia)). unfold kept in *. lia.
Qed.

Lemma c13_partial f1 f2 d1 d2 n :
  snd (omit_sections f1) = Ok (Some d1) -> snd (omit_sections f2) = Ok (Some d2) ->
  kept (map snd d1) (f_bytes f1) = kept (map snd d2) (f_bytes f2) ->
  (n < length (f_bytes f1))%nat -> (n < length (f_bytes f2))%nat ->
  omitted (map snd d1) (Z.of_nat n) = false -> omitted (map snd d2) (Z.of_nat n) = false ->
  omitted_before (map snd d1) n = omitted_before (map snd d2) n ->
  nth_error (f_bytes f1) n = nth_error (f_bytes f2) n.
Proof. intros _ _. apply c13_rank. Qed.

Lemma c12_sensitive f1 f2 (d : dict relrange) : file_len f1 = file_len f2 ->
  snd (omit_sections f1) = Ok (Some d) -> snd (omit_sections f2) = Ok (Some d) ->
  (kept (map snd d) (f_bytes f1) = kept (map snd d) (f_bytes f2) <->
   forall n, (n < length (f_bytes f1))%nat -> omitted (map snd d) (Z.of_nat n) = false ->
     nth_error (f_bytes f1) n = nth_error (f_bytes f2) n).
Proof.
  intros Hl _ _. apply c12_iff. unfold file_len, zlen in Hl. lia.
Qed.
