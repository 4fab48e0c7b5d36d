(** Proofs about the fingerprinter model. *)
From Verif Require Import Base Bytes ModelFile ModelFingerprint SpecFingerprint.
From Coq Require Import ZifyBool ZifyNat.

(** ** Heap *)

Lemma heap_set_length h r l : length (heap_set h r l) = length h.
Proof. revert r; induction h as [|x h IH]; intros [|r]; cbn; auto. Qed.

Lemma heap_get_set_same h r l : (r < length h)%nat -> heap_get (heap_set h r l) r = l.
Proof.
  unfold heap_get; revert r; induction h as [|x h IH]; intros [|r] Hr; cbn in *; try lia.
  - reflexivity.
  - apply IH; lia.
Qed.

Lemma heap_get_set_other h r r' l : r <> r' -> heap_get (heap_set h r l) r' = heap_get h r'.
Proof.
  unfold heap_get; revert r r'; induction h as [|x h IH]; intros [|r] [|r'] Hr; cbn;
    try congruence; auto.
Qed.

(** ** Minimum *)

Lemma min_of_spec l x :
  (forall y, In y (x :: l) -> min_of x l <= y) /\ In (min_of x l) (x :: l).
Proof.
  unfold min_of; revert x; induction l as [|a l IH]; intros x; cbn [fold_left].
  - split; [intros y [->|[]]; lia|now left].
  - destruct (IH (Z.min x a)) as [IH1 IH2]. split.
    + intros y Hy. assert (fold_left Z.min l (Z.min x a) <= Z.min x a) by (apply IH1; now left).
      destruct Hy as [<-|[<-|Hy]]; [lia|lia|]. apply IH1; now right.
    + destruct IH2 as [H|H].
      * rewrite <- H. destruct (Z.min_spec x a) as [[_ ->]|[_ ->]]; cbn; auto.
      * cbn; auto.
Qed.

(** ** The interval *)

(** What the current range of a finger looks like relative to the interval [s,e). *)
Definition fits (s e : Z) (rs : list range) : Prop :=
  match rs with
  | [] => True
  | r :: _ => (r_start r = s /\ e <= r_end r) \/ (s < r_start r /\ e <= r_start r)
  end.

Definition rem (h : heap) (fg : finger) : list range := heap_get h (fg_ref fg).

Lemma in_currents h fgs r :
  In r (currents h fgs) <-> exists fg, In fg fgs /\ current_range h fg = Some r.
Proof.
  induction fgs as [|fg fgs IH]; cbn [currents].
  - split; [easy|]. intros (? & [] & _).
  - destruct (current_range h fg) as [r'|] eqn:E.
    + cbn [In]. rewrite IH. split.
      * intros [<-|(fg' & Hin & Hc)]; [exists fg; cbn; auto|exists fg'; cbn; auto].
      * intros (fg' & [<-|Hin] & Hc); [left; congruence|right; eauto].
    + rewrite IH. split.
      * intros (fg' & Hin & Hc); exists fg'; cbn; auto.
      * intros (fg' & [<-|Hin] & Hc); [congruence|eauto].
Qed.

Lemma next_interval_None h bs fgs :
  next_interval h bs fgs = None <-> Forall (fun fg => rem h fg = []) fgs.
Proof.
  unfold next_interval. destruct (currents h fgs) as [|c cs] eqn:E.
  - split; [intros _|reflexivity]. apply Forall_forall. intros fg Hin.
    unfold rem. destruct (heap_get h (fg_ref fg)) as [|r rs] eqn:Er; [reflexivity|].
    assert (In r (currents h fgs)) as Hr.
    { apply in_currents. exists fg. split; [assumption|]. unfold current_range. now rewrite Er. }
    rewrite E in Hr. destruct Hr.
  - split; [discriminate|]. intros Hall. exfalso.
    assert (In c (currents h fgs)) as Hc by (rewrite E; now left).
    apply in_currents in Hc. destruct Hc as (fg & Hin & Hc).
    rewrite Forall_forall in Hall. specialize (Hall fg Hin). unfold rem in Hall.
    unfold current_range in Hc. rewrite Hall in Hc. discriminate.
Qed.

Lemma next_interval_Some h bs fgs iv :
  next_interval h bs fgs = Some iv ->
  (exists fg r rs, In fg fgs /\ rem h fg = r :: rs /\ r_start r = r_start iv) /\
  Forall (fun fg => fits (r_start iv) (r_end iv) (rem h fg)) fgs /\
  (forall fg r rs, In fg fgs -> rem h fg = r :: rs -> r_start iv <= r_start r) /\
  (r_end iv = r_start iv + bs \/
   (r_end iv - r_start iv <= bs /\
    exists fg r rs, In fg fgs /\ rem h fg = r :: rs /\
      (r_end r = r_end iv \/ (r_start r = r_end iv /\ r_start iv < r_start r)))).
Proof.
  unfold next_interval. destruct (currents h fgs) as [|c cs] eqn:E; [discriminate|].
  set (ms := min_of (r_start c) (map r_start cs)).
  set (ends := map r_end cs ++ filter (fun x => negb (x =? ms)) (map r_start (c :: cs))).
  set (me := min_of (r_end c) ends).
  intros Hiv; injection Hiv as <-. cbn [r_start r_end].
  set (e := if me - ms >? bs then ms + bs else me).
  assert (He : e <= me /\ (e = ms + bs \/ (e - ms <= bs /\ e = me))).
  { unfold e. destruct (me - ms >? bs) eqn:D; lia. }
  assert (Hcur : forall fg r rs, In fg fgs -> rem h fg = r :: rs -> In r (c :: cs)).
  { intros fg r rs Hin Hr. rewrite <- E. apply in_currents. exists fg. split; [assumption|].
    unfold current_range. unfold rem in Hr. now rewrite Hr. }
  assert (Hback : forall r, In r (c :: cs) ->
    exists fg rs, In fg fgs /\ rem h fg = r :: rs).
  { intros r Hr. rewrite <- E in Hr. apply in_currents in Hr.
    destruct Hr as (fg & Hin & Hc). unfold current_range in Hc. exists fg. unfold rem.
    destruct (heap_get h (fg_ref fg)) as [|r' rs']; [discriminate|]. injection Hc as ->. eauto. }
  destruct (min_of_spec (map r_start cs) (r_start c)) as [Hs1 Hs2].
  fold ms in Hs1, Hs2. change (r_start c :: map r_start cs) with (map r_start (c :: cs)) in Hs1, Hs2.
  destruct (min_of_spec ends (r_end c)) as [He1 He2]. fold me in He1, He2.
  assert (Hms : forall r, In r (c :: cs) -> ms <= r_start r).
  { intros r Hr. apply Hs1. now apply in_map. }
  assert (Hme1 : forall r, In r (c :: cs) -> me <= r_end r).
  { intros r Hr. apply He1. unfold ends. destruct Hr as [->|Hr]; [now left|right].
    apply in_or_app; left. now apply in_map. }
  assert (Hme2 : forall r, In r (c :: cs) -> ms < r_start r -> me <= r_start r).
  { intros r Hr Hlt. apply He1. right. unfold ends. apply in_or_app; right.
    apply filter_In. split; [now apply in_map|lia]. }
  repeat split.
  - apply in_map_iff in Hs2. destruct Hs2 as (r & Hr1 & Hr2).
    destruct (Hback r Hr2) as (fg & rs & H1 & H2). eauto 6.
  - apply Forall_forall. intros fg Hin. unfold fits.
    destruct (rem h fg) as [|r rs] eqn:Er; [exact I|].
    specialize (Hcur fg r rs Hin Er). specialize (Hms r Hcur). specialize (Hme1 r Hcur).
    specialize (Hme2 r Hcur). lia.
  - intros fg r rs Hin Er. apply Hms. eauto.
  - destruct He as [_ [He|[Hle He]]]; [now left|right]. split; [exact Hle|].
    rewrite He. destruct He2 as [He2|He2].
    + destruct (Hback c (or_introl eq_refl)) as (fg & rs & H1 & H2).
      exists fg, c, rs. auto.
    + unfold ends in He2. apply in_app_or in He2. destruct He2 as [He2|He2].
      * apply in_map_iff in He2. destruct He2 as (r & Hr1 & Hr2).
        destruct (Hback r (or_intror Hr2)) as (fg & rs & H1 & H2). exists fg, r, rs. auto.
      * apply filter_In in He2. destruct He2 as [He2 Hne].
        apply in_map_iff in He2. destruct He2 as (r & Hr1 & Hr2).
        destruct (Hback r Hr2) as (fg & rs & H1 & H2). exists fg, r, rs.
        repeat split; auto. right. specialize (Hms r Hr2). lia.
Qed.

(** ** Feeding and consuming *)

Definition fed_finger (h : heap) (block : bytes) (s : Z) (fg : finger) : finger :=
  match rem h fg with
  | [] => fg
  | r :: _ => if s =? r_start r then finger_update fg block else fg
  end.

Definition eaten (s e : Z) (rs : list range) : list range :=
  match rs with
  | [] => []
  | r :: rest =>
    if s =? r_start r then
      if r_end r =? e then rest else mkRange e (r_end r) :: rest
    else rs
  end.

Lemma fed_finger_ref h block s fg : fg_ref (fed_finger h block s fg) = fg_ref fg.
Proof.
  unfold fed_finger; destruct (rem h fg) as [|r ?]; [reflexivity|].
  now destruct (s =? r_start r).
Qed.

Lemma hash_block_fits h fgs block s e :
  Forall (fun fg => fits s e (rem h fg)) fgs ->
  hash_block h fgs block s e = (map (fed_finger h block s) fgs, Ok tt).
Proof.
  induction 1 as [|fg fgs Hfg _ IH]; cbn [hash_block map]; [reflexivity|].
  unfold current_range, fed_finger at 1. unfold rem in *.
  destruct (heap_get h (fg_ref fg)) as [|r rs].
  - now rewrite IH.
  - cbn [fits] in Hfg.
    destruct ((r_start r <? s) || ((s =? r_start r) && (r_end r <? e))
              || ((s <? r_start r) && (r_start r <? e))) eqn:C; [lia|].
    now rewrite IH.
Qed.

Lemma finger_consume_fits h fg s e :
  (fg_ref fg < length h)%nat ->
  fits s e (rem h fg) ->
  exists h', finger_consume h fg s e = Ok h' /\
    heap_get h' (fg_ref fg) = eaten s e (rem h fg) /\
    length h' = length h /\
    forall r, r <> fg_ref fg -> heap_get h' r = heap_get h r.
Proof.
  intros Hlen Hfits. unfold finger_consume, rem, eaten in *.
  destruct (heap_get h (fg_ref fg)) as [|old rest] eqn:E.
  - exists h. rewrite E. auto.
  - cbn [fits] in Hfits.
    destruct (s <? r_start old) eqn:C1.
    + destruct (r_start old <? e) eqn:C2; [lia|].
      destruct (s =? r_start old) eqn:C3; [lia|]. exists h. rewrite E. auto.
    + destruct (r_start old <? s) eqn:C2; [lia|].
      destruct (s =? r_start old) eqn:C3; [|lia].
      destruct (r_end old =? e) eqn:C4.
      * eexists; split; [reflexivity|]. rewrite heap_get_set_same, heap_set_length by assumption.
        repeat split; auto. intros r Hr. apply heap_get_set_other. congruence.
      * destruct (e <? r_end old) eqn:C5; [|lia].
        eexists; split; [reflexivity|]. rewrite heap_get_set_same, heap_set_length by assumption.
        repeat split; auto. intros r Hr. apply heap_get_set_other. congruence.
Qed.

Definition refs (fgs : list finger) : list nat := map fg_ref fgs.

Definition wf_refs (h : heap) (fgs : list finger) : Prop :=
  NoDup (refs fgs) /\ Forall (fun r => (r < length h)%nat) (refs fgs).

Lemma consume_all_fits h fgs s e :
  wf_refs h fgs ->
  Forall (fun fg => fits s e (rem h fg)) fgs ->
  exists h', consume_all h fgs s e = (h', Ok tt) /\
    length h' = length h /\
    (forall fg, In fg fgs -> rem h' fg = eaten s e (rem h fg)) /\
    (forall r, ~ In r (refs fgs) -> heap_get h' r = heap_get h r).
Proof.
  intros [Hnd Hin] Hfits. revert h Hin Hfits.
  induction fgs as [|fg fgs IH]; intros h Hin Hfits; cbn [consume_all].
  - exists h. repeat split; auto. intros fg [].
  - inversion Hnd as [|x l Hnotin Hnd']; subst. inversion Hin as [|x l Hlt Hin']; subst.
    inversion Hfits as [|x l Hf Hfits']; subst.
    destruct (finger_consume_fits h fg s e Hlt Hf) as (h1 & E1 & G1 & L1 & O1).
    rewrite E1.
    assert (Hsame : forall fg', In fg' fgs -> rem h1 fg' = rem h fg').
    { intros fg' Hfg'. unfold rem. apply O1. intros Heq. apply Hnotin. rewrite <- Heq.
      now apply in_map. }
    destruct (IH Hnd' h1) as (h2 & E2 & L2 & G2 & O2).
    + now rewrite L1.
    + rewrite Forall_forall in *. intros fg' Hfg'. rewrite Hsame by assumption. auto.
    + exists h2. split; [exact E2|]. split; [congruence|]. split.
      * intros fg' [<-|Hfg'].
        -- unfold rem at 1. rewrite O2 by assumption. exact G1.
        -- rewrite G2, Hsame by assumption. reflexivity.
      * intros r Hr. cbn in Hr. rewrite O2, O1; [reflexivity| |]; intuition.
Qed.

(** ** One iteration *)

Definition readable (s e len : Z) : Prop := 0 <= s <= e /\ (s = e \/ e <= len).

Lemma file_read_block s n f :
  0 <= s ->
  zlen (snd (file_read n (mkFile (f_bytes f) s))) = n <->
  readable s (s + n) (file_len f).
Proof.
  intros Hs. unfold file_read, readable, file_len. cbn [f_bytes f_pos snd].
  pose proof (zlen_nonneg (f_bytes f)) as Hl.
  destruct (n <? 0) eqn:C.
  - rewrite zlen_zskip by assumption. lia.
  - rewrite zlen_ztake, zlen_zskip by assumption. lia.
Qed.

Lemma file_read_slice s n f :
  0 <= n -> snd (file_read n (mkFile (f_bytes f) s)) = zslice s (s + n) (f_bytes f).
Proof.
  intros Hn. unfold file_read, zslice. cbn [f_bytes f_pos snd].
  destruct (n <? 0) eqn:C; [lia|]. f_equal; lia.
Qed.

(** Everything about one iteration, for fingers with distinct range lists. *)
Inductive step_spec (st : fpst) : fpst * res bool -> Prop :=
| step_done :
    Forall (fun fg => rem (fp_heap st) fg = []) (fp_fingers st) ->
    step_spec st (st, Ok false)
| step_fail s e x f' :
    next_interval (fp_heap st) (fp_block st) (fp_fingers st) = Some (mkRange s e) ->
    ~ readable s e (file_len (fp_file st)) ->
    f_bytes f' = f_bytes (fp_file st) ->
    (x = mkExn ValueError "negative seek value" /\ s < 0 \/
     x = mkExn RuntimeError "Short read on file." /\ 0 <= s) ->
    step_spec st (with_file st f', Err x)
| step_go s e h' f' :
    next_interval (fp_heap st) (fp_block st) (fp_fingers st) = Some (mkRange s e) ->
    readable s e (file_len (fp_file st)) ->
    f_bytes f' = f_bytes (fp_file st) ->
    length h' = length (fp_heap st) ->
    (forall fg, In fg (fp_fingers st) -> rem h' fg = eaten s e (rem (fp_heap st) fg)) ->
    (forall r, ~ In r (refs (fp_fingers st)) -> heap_get h' r = heap_get (fp_heap st) r) ->
    step_spec st
      (mkFp h' f' (fp_block st) (fp_len st)
         (map (fed_finger (fp_heap st) (zslice s e (f_bytes (fp_file st))) s) (fp_fingers st)),
       Ok true).

Lemma refs_fed h block s fgs : refs (map (fed_finger h block s) fgs) = refs fgs.
Proof.
  unfold refs. rewrite map_map. apply map_ext. intros fg. apply fed_finger_ref.
Qed.

Lemma rem_fed h h' block s fg : rem h' (fed_finger h block s fg) = rem h' fg.
Proof. unfold rem. now rewrite fed_finger_ref. Qed.

Lemma hashes_step_spec st :
  wf_refs (fp_heap st) (fp_fingers st) -> step_spec st (hashes_step st).
Proof.
  intros Hwf. unfold hashes_step.
  destruct (next_interval (fp_heap st) (fp_block st) (fp_fingers st)) as [[s e]|] eqn:Hiv.
  2:{ apply step_done. now apply next_interval_None in Hiv. }
  cbn [r_start r_end]. unfold file_seek.
  destruct (s <? 0) eqn:Hs.
  { eapply step_fail; [exact Hiv| |reflexivity|left; split; [reflexivity|lia]].
    unfold readable; lia. }
  pose proof (file_read_block s (e - s) (fp_file st)) as Hblk.
  pose proof (file_read_slice s (e - s) (fp_file st)) as Hsl.
  destruct (file_read (e - s) (mkFile (f_bytes (fp_file st)) s)) as [f2 block] eqn:Hread.
  assert (Hf2 : f_bytes f2 = f_bytes (fp_file st)).
  { unfold file_read in Hread. injection Hread as <- _. reflexivity. }
  cbn [snd] in Hblk, Hsl. replace (s + (e - s)) with e in Hblk, Hsl by lia.
  specialize (Hblk ltac:(lia)).
  destruct (negb (zlen block =? e - s)) eqn:Hshort.
  { eapply step_fail; [exact Hiv| |exact Hf2|right; split; [reflexivity|lia]].
    intros Hr. apply Hblk in Hr. lia. }
  assert (Hr : readable s e (file_len (fp_file st))) by (apply Hblk; lia).
  assert (Hb : block = zslice s e (f_bytes (fp_file st))).
  { apply Hsl. unfold readable in Hr; lia. }
  apply next_interval_Some in Hiv as Hiv'. cbn [r_start r_end] in Hiv'.
  destruct Hiv' as (_ & Hfits & _ & _).
  cbn [with_file fp_heap fp_fingers].
  rewrite hash_block_fits by assumption. cbn [with_fingers with_file with_heap fp_heap fp_fingers fp_file fp_block fp_len].
  assert (Hwf' : wf_refs (fp_heap st)
                   (map (fed_finger (fp_heap st) block s) (fp_fingers st))).
  { unfold wf_refs in *. now rewrite refs_fed. }
  destruct (consume_all_fits (fp_heap st)
              (map (fed_finger (fp_heap st) block s) (fp_fingers st)) s e Hwf')
    as (h' & Ec & Lc & Gc & Oc).
  { apply Forall_forall. intros fg Hfg. apply in_map_iff in Hfg.
    destruct Hfg as (fg0 & <- & Hfg0). rewrite rem_fed.
    rewrite Forall_forall in Hfits; auto. }
  rewrite Ec. subst block. unfold with_heap, with_fingers, with_file.
  cbn [fp_heap fp_fingers fp_file fp_block fp_len]. apply step_go; auto.
  - intros fg Hfg. specialize (Gc (fed_finger (fp_heap st) (zslice s e (f_bytes (fp_file st))) s fg)).
    rewrite !rem_fed in Gc. apply Gc. now apply in_map.
  - intros r Hr0. apply Oc. now rewrite refs_fed.
Qed.

(** ** The invariant *)

(** A finger asked to hash [req] has been fed [fed] and still has [rs] to do. *)
Definition progress (data : bytes) (req rs : list range) (fed : bytes) : Prop :=
  exists done,
    Forall (readable_range (zlen data)) done /\
    ((req = done ++ rs /\ fed = slices data done) \/
     exists s0 s e rest,
       req = done ++ mkRange s0 e :: rest /\ rs = mkRange s e :: rest /\
       0 <= s0 <= s /\ (s0 = s \/ s <= zlen data) /\ s <= e /\
       fed = slices data done ++ zslice s0 s data).

Lemma slices_app data a b : slices data (a ++ b) = slices data a ++ slices data b.
Proof. unfold slices. now rewrite map_app, concat_app. Qed.

Lemma progress_init data req : progress data req req [].
Proof. exists []. split; [constructor|]. left. auto. Qed.

Lemma progress_eat data req r rs fed s e :
  progress data req (r :: rs) fed -> r_start r = s -> e <= r_end r ->
  readable s e (zlen data) ->
  progress data req (eaten s e (r :: rs)) (fed ++ zslice s e data).
Proof.
  intros (dn & Hdone & H) Hrs Hre [Hr1 Hr2]. cbn [eaten].
  destruct (s =? r_start r) eqn:C; [|lia]. clear C.
  destruct H as [[Hreq Hfed]|(s0 & s1 & e1 & rest & Hreq & Hrs' & H0 & H1 & He & Hfed)].
  - destruct (r_end r =? e) eqn:C.
    + exists (dn ++ [r]). split.
      * apply Forall_app. split; [assumption|]. constructor; [|constructor].
        unfold readable_range. lia.
      * left. split; [rewrite <- app_assoc; exact Hreq|].
        rewrite Hfed, slices_app. f_equal. unfold slices; cbn. rewrite app_nil_r.
        unfold slice. f_equal; lia.
    + exists dn. split; [assumption|]. right. exists s, e, (r_end r), rs.
      repeat split; try lia; auto.
      * rewrite Hreq. repeat f_equal. destruct r; cbn in *; congruence.
      * now rewrite Hfed.
  - injection Hrs' as -> ->. cbn [r_start r_end] in *. subst s1.
    assert (Hz : zslice s0 s data ++ zslice s e data = zslice s0 e data) by (apply zslice_app; lia).
    destruct (e1 =? e) eqn:C.
    + assert (e1 = e) by lia; subst e1. exists (dn ++ [mkRange s0 e]). split.
      * apply Forall_app. split; [assumption|]. constructor; [|constructor].
        unfold readable_range; cbn. lia.
      * left. split; [rewrite <- app_assoc; exact Hreq|].
        rewrite Hfed, slices_app, <- app_assoc, Hz. f_equal.
        unfold slices, slice; cbn. now rewrite app_nil_r.
    + exists dn. split; [assumption|]. right. exists s0, e, e1, rest.
      repeat split; try lia; auto. rewrite Hfed, <- app_assoc. now rewrite Hz.
Qed.

Lemma progress_done data req fed :
  progress data req [] fed ->
  Forall (readable_range (zlen data)) req /\ fed = slices data req.
Proof.
  intros (dn & Hdone & [[Hreq Hfed]|(s0 & s1 & e1 & rest & _ & Hrs' & _)]); [|discriminate].
  rewrite app_nil_r in Hreq. subst. auto.
Qed.

(** A request: ranges, hasher names, description. *)
Record request := mkReq { q_ranges : list range; q_names : list string; q_desc : string }.

Definition finger_inv (data : bytes) (h : heap) (q : request) (fg : finger) : Prop :=
  exists fed,
    fg_hashers fg = map (fun n => mkHasher n fed) (q_names q) /\
    fg_desc fg = q_desc q /\
    progress data (q_ranges q) (rem h fg) fed.

(** [data] is the content the file has or will have; the file holds a prefix of it. *)
Record inv (data : bytes) (qs : list request) (st : fpst) : Prop := mkInv {
  inv_refs : wf_refs (fp_heap st) (fp_fingers st);
  inv_fingers : Forall2 (finger_inv data (fp_heap st)) qs (fp_fingers st) }.

Definition prefix_of (a data : bytes) : Prop := exists ext, data = a ++ ext.

Lemma prefix_len a data : prefix_of a data -> zlen a <= zlen data.
Proof. intros [ext ->]. rewrite zlen_app. pose proof (zlen_nonneg ext); lia. Qed.

Lemma prefix_slice a data s e :
  prefix_of a data -> readable s e (zlen a) -> zslice s e a = zslice s e data.
Proof.
  intros [ext ->] [H1 H2]. destruct H2 as [->|H2].
  - now rewrite !zslice_empty.
  - symmetry. apply zslice_within_app; lia.
Qed.

Lemma inv_with_file data qs st f : inv data qs st -> inv data qs (with_file st f).
Proof. intros [H1 H2]. now constructor. Qed.

Lemma inv_step data qs st st' b :
  inv data qs st -> prefix_of (f_bytes (fp_file st)) data ->
  hashes_step st = (st', Ok b) -> inv data qs st'.
Proof.
  intros [Hwf Hfs] Hpre Hstep. pose proof (hashes_step_spec st Hwf) as Hspec.
  rewrite Hstep in Hspec.
  inversion Hspec as [Hall|s e x f' _ _ _ _|s e h' f' Hiv Hr Hfb Hlen Hrem Hoth]; subst.
  - now constructor.
  - apply next_interval_Some in Hiv. cbn [r_start r_end] in Hiv.
    destruct Hiv as (_ & Hfits & _ & _).
    constructor; cbn [fp_heap fp_fingers].
    + unfold wf_refs in *. rewrite refs_fed. now rewrite Hlen.
    + assert (Hin : forall fg, In fg (fp_fingers st) ->
                fits s e (rem (fp_heap st) fg) /\
                rem h' fg = eaten s e (rem (fp_heap st) fg)).
      { intros fg Hfg. rewrite Forall_forall in Hfits. auto. }
      clear - Hfs Hin Hr Hpre.
      assert (Hr' : readable s e (zlen data)).
      { pose proof (prefix_len _ _ Hpre). unfold readable, file_len in *; lia. }
      assert (Hz : zslice s e (f_bytes (fp_file st)) = zslice s e data).
      { apply prefix_slice; assumption. }
      rewrite Hz. clear Hz.
      induction Hfs as [|q fg qs fgs Hq Hfs IH]; cbn [map]; constructor.
      * destruct (Hin fg (or_introl eq_refl)) as [Hfit Hre].
        destruct Hq as (fed & Hh & Hd & Hp).
        unfold finger_inv. rewrite rem_fed, Hre.
        unfold fed_finger. destruct (rem (fp_heap st) fg) as [|r rs] eqn:Er.
        -- exists fed. auto.
        -- cbn [fits] in Hfit. destruct (s =? r_start r) eqn:C.
           ++ exists (fed ++ zslice s e data). cbn [finger_update fg_hashers fg_desc].
              split; [|split; [exact Hd|]].
              ** rewrite Hh, map_map. reflexivity.
              ** apply progress_eat; auto; lia.
           ++ exists fed. repeat split; auto. cbn [eaten]. rewrite C. exact Hp.
      * apply IH. intros fg' Hfg'. apply Hin. now right.
Qed.

Lemma step_file_bytes st st' r :
  wf_refs (fp_heap st) (fp_fingers st) ->
  hashes_step st = (st', r) ->
  f_bytes (fp_file st') = f_bytes (fp_file st) /\ fp_block st' = fp_block st /\
  fp_len st' = fp_len st.
Proof.
  intros Hwf Hstep. pose proof (hashes_step_spec st Hwf) as Hspec. rewrite Hstep in Hspec.
  inversion Hspec; subst; cbn; auto.
Qed.

(** ** The loop: partial correctness *)

Lemma loop_inv data qs fuel st st' r :
  inv data qs st -> prefix_of (f_bytes (fp_file st)) data ->
  hashes_loop fuel st = Some (st', r) ->
  inv data qs st' /\ f_bytes (fp_file st') = f_bytes (fp_file st) /\
  fp_block st' = fp_block st /\ fp_len st' = fp_len st /\
  match r with
  | Ok _ => Forall (fun fg => rem (fp_heap st') fg = []) (fp_fingers st')
  | Err x => exists s e,
      next_interval (fp_heap st') (fp_block st') (fp_fingers st') = Some (mkRange s e) /\
      ~ readable s e (file_len (fp_file st')) /\
      (x = mkExn ValueError "negative seek value" /\ s < 0 \/
       x = mkExn RuntimeError "Short read on file." /\ 0 <= s)
  end.
Proof.
  revert st. induction fuel as [|fuel IH]; intros st Hinv Hpre Hloop; [discriminate|].
  cbn [hashes_loop] in Hloop.
  destruct (hashes_step st) as [st1 rb] eqn:Hstep.
  pose proof (inv_refs _ _ _ Hinv) as Hwf.
  pose proof (step_file_bytes st st1 rb Hwf Hstep) as (Hb & Hbl & Hln).
  pose proof (hashes_step_spec st Hwf) as Hspec. rewrite Hstep in Hspec.
  destruct rb as [[|]|x].
  - assert (Hinv1 : inv data qs st1) by (eapply inv_step; eauto).
    destruct (IH st1) as (H1 & H2 & H3 & H4 & H5); auto; [now rewrite Hb|].
    split; [exact H1|]. rewrite <- Hb, <- Hbl, <- Hln. auto.
  - injection Hloop as <- <-. inversion Hspec; subst. auto.
  - injection Hloop as <- <-.
    inversion Hspec as [|s e x' f' Hiv Hnr Hfb Hx|]; subst.
    split; [now apply inv_with_file|]. cbn [with_file fp_file fp_block fp_len fp_heap fp_fingers].
    repeat split; auto. exists s, e. unfold file_len in *. rewrite Hfb. auto.
Qed.

(** ** Termination *)

Definition weight (r : range) : Z := Z.max 0 (r_end r - r_start r) + 1.
Definition weights (rs : list range) : Z := fold_right (fun r a => weight r + a) 0 rs.
Definition total (h : heap) (fgs : list finger) : Z :=
  fold_right (fun fg a => weights (rem h fg) + a) 0 fgs.

Arguments weight : simpl never.
Arguments weights : simpl never.
Arguments total : simpl never.

Lemma weights_cons r rs : weights (r :: rs) = weight r + weights rs.
Proof. reflexivity. Qed.

Lemma total_cons h fg fgs : total h (fg :: fgs) = weights (rem h fg) + total h fgs.
Proof. reflexivity. Qed.

Lemma weights_nonneg rs : 0 <= weights rs.
Proof. induction rs as [|r rs IH]; rewrite ?weights_cons; unfold weight; [reflexivity|lia]. Qed.

Lemma total_nonneg h fgs : 0 <= total h fgs.
Proof.
  induction fgs as [|fg fgs IH]; [reflexivity|]. rewrite total_cons.
  pose proof (weights_nonneg (rem h fg)); lia.
Qed.

(** All ranges still to do have start <= end. *)
Definition forward (h : heap) (fgs : list finger) : Prop :=
  Forall (fun fg => Forall (fun r => r_start r <= r_end r) (rem h fg)) fgs.

Lemma eaten_weight s e rs :
  s <= e -> fits s e rs -> weights (eaten s e rs) <= weights rs.
Proof.
  intros Hse Hf. destruct rs as [|r rs]; cbn; [lia|]. cbn in Hf.
  destruct (s =? r_start r) eqn:C; [|cbn; lia].
  destruct (r_end r =? e) eqn:C2; rewrite ?weights_cons; unfold weight; cbn [r_start r_end]; lia.
Qed.

Lemma eaten_forward s e rs :
  s <= e -> fits s e rs -> Forall (fun r => r_start r <= r_end r) rs ->
  Forall (fun r => r_start r <= r_end r) (eaten s e rs).
Proof.
  intros Hse Hf Hfw. destruct rs as [|r rs]; cbn; [constructor|]. cbn in Hf.
  inversion Hfw; subst.
  destruct (s =? r_start r) eqn:C; [|assumption].
  destruct (r_end r =? e) eqn:C2; [assumption|]. constructor; cbn; [lia|assumption].
Qed.

(** Either no remaining range is reversed, or there is at most one finger. *)
Definition tame (h : heap) (fgs : list finger) : Prop :=
  forward h fgs \/ (length fgs <= 1)%nat.

Lemma tame_step st st' :
  wf_refs (fp_heap st) (fp_fingers st) -> 0 < fp_block st ->
  tame (fp_heap st) (fp_fingers st) ->
  hashes_step st = (st', Ok true) ->
  wf_refs (fp_heap st') (fp_fingers st') /\ fp_block st' = fp_block st /\
  tame (fp_heap st') (fp_fingers st') /\
  total (fp_heap st') (fp_fingers st') < total (fp_heap st) (fp_fingers st).
Proof.
  intros Hwf Hbs Htame Hstep. pose proof (hashes_step_spec st Hwf) as Hspec.
  rewrite Hstep in Hspec.
  inversion Hspec as [Hall|s e x f' _ _ _ _|s e h' f' Hiv Hr Hfb Hlen Hrem Hoth]; subst.
  cbn [fp_heap fp_fingers fp_block].
  split; [unfold wf_refs in *; rewrite refs_fed; now rewrite Hlen|]. split; [reflexivity|].
  apply next_interval_Some in Hiv. cbn [r_start r_end] in Hiv.
  destruct Hiv as ((fg0 & r0 & rs0 & Hin0 & Hrem0 & Hst0) & Hfits & Hmin & Hend).
  destruct Hr as [Hse _]. rewrite Forall_forall in Hfits.
  set (g := fed_finger (fp_heap st) (zslice s e (f_bytes (fp_file st))) s).
  split.
  { unfold tame. destruct Htame as [Hfw|Hone]; [left|right; now rewrite map_length].
    unfold forward in *. rewrite Forall_forall in Hfw.
    apply Forall_forall. intros fg Hfg. apply in_map_iff in Hfg.
    destruct Hfg as (fg1 & <- & Hfg1). unfold g. rewrite rem_fed, Hrem by assumption.
    apply eaten_forward; auto; lia. }
  (* the finger that gets smaller *)
  assert (Hdec : exists fg, In fg (fp_fingers st) /\
            weights (rem h' fg) < weights (rem (fp_heap st) fg)).
  { assert (Hcase : s < e \/ s = e) by lia. destruct Hcase as [Hlt|Heq].
    - exists fg0. split; [assumption|]. rewrite Hrem, Hrem0 by assumption.
      specialize (Hfits fg0 Hin0). rewrite Hrem0 in Hfits. cbn in Hfits.
      cbn [eaten]. destruct (s =? r_start r0) eqn:C; [|lia].
      destruct (r_end r0 =? e) eqn:C2; rewrite ?weights_cons; unfold weight; cbn [r_start r_end]; lia.
    - subst e. destruct Hend as [Hend|[_ (fg1 & r1 & rs1 & Hin1 & Hrem1 & Hend)]]; [lia|].
      exists fg1. split; [assumption|]. rewrite Hrem, Hrem1 by assumption.
      assert (Hr1 : r_start r1 <= r_end r1).
      { destruct Htame as [Hfw|Hone].
        - unfold forward in Hfw. rewrite Forall_forall in Hfw.
          specialize (Hfw fg1 Hin1). rewrite Hrem1 in Hfw. now apply Forall_inv in Hfw.
        - assert (fg1 = fg0).
          { destruct (fp_fingers st) as [|a [|b l]]; cbn in *; try lia; try contradiction.
            destruct Hin0 as [<-|[]], Hin1 as [<-|[]]. reflexivity. }
          subst fg1. rewrite Hrem0 in Hrem1. injection Hrem1 as -> ->. lia. }
      specialize (Hmin fg1 r1 rs1 Hin1 Hrem1).
      cbn [eaten]. destruct (s =? r_start r1) eqn:C; [|lia].
      destruct (r_end r1 =? s) eqn:C2; [|lia]. rewrite weights_cons; unfold weight; lia. }
  assert (Hle : forall fg, In fg (fp_fingers st) ->
            weights (rem h' fg) <= weights (rem (fp_heap st) fg)).
  { intros fg Hfg. rewrite Hrem by assumption. apply eaten_weight; auto; lia. }
  unfold g. clear g. generalize (zslice s e (f_bytes (fp_file st))) as blk; intros blk.
  clear - Hdec Hle.
  assert (Hall : forall l, (forall fg, In fg l -> weights (rem h' fg) <= weights (rem (fp_heap st) fg)) ->
    total h' (map (fed_finger (fp_heap st) blk s) l)
    <= total (fp_heap st) l).
  { intros l. induction l as [|fg l IH]; intros Hl; cbn [map]; [unfold total; cbn; lia|]. rewrite !total_cons, rem_fed.
    pose proof (Hl fg (or_introl eq_refl)). specialize (IH (fun x Hx => Hl x (or_intror Hx))). lia. }
  destruct Hdec as (fg & Hin & Hlt).
  induction (fp_fingers st) as [|fg1 l IH]; [destruct Hin|].
  cbn [map]. rewrite !total_cons, rem_fed. destruct Hin as [->|Hin].
  - pose proof (Hall l (fun x Hx => Hle x (or_intror Hx))). lia.
  - pose proof (Hle fg1 (or_introl eq_refl)).
    specialize (IH Hin (fun x Hx => Hle x (or_intror Hx))). lia.
Qed.

Lemma loop_fuel_mono n m st a :
  (n <= m)%nat -> hashes_loop n st = Some a -> hashes_loop m st = Some a.
Proof.
  revert m st. induction n as [|n IH]; intros m st Hle Hn; [discriminate|].
  destruct m as [|m]; [lia|]. cbn [hashes_loop] in *.
  destruct (hashes_step st) as [st1 [[|]|x]]; auto. apply IH; [lia|assumption].
Qed.

Lemma loop_terminates st :
  wf_refs (fp_heap st) (fp_fingers st) -> 0 < fp_block st ->
  tame (fp_heap st) (fp_fingers st) ->
  exists n a, hashes_loop n st = Some a.
Proof.
  intros Hwf Hbs Hfw.
  remember (Z.to_nat (total (fp_heap st) (fp_fingers st))) as k eqn:Hk.
  assert (Hk' : (Z.to_nat (total (fp_heap st) (fp_fingers st)) <= k)%nat) by lia.
  clear Hk. revert st Hwf Hbs Hfw Hk'.
  induction k as [|k IH]; intros st Hwf Hbs Hfw Hk'.
  - destruct (hashes_step st) as [st1 [[|]|x]] eqn:Hstep.
    + destruct (tame_step st st1 Hwf Hbs Hfw Hstep) as (_ & _ & _ & Hlt).
      pose proof (total_nonneg (fp_heap st1) (fp_fingers st1)). lia.
    + exists 1%nat. cbn. rewrite Hstep. eauto.
    + exists 1%nat. cbn. rewrite Hstep. eauto.
  - destruct (hashes_step st) as [st1 [[|]|x]] eqn:Hstep.
    + destruct (tame_step st st1 Hwf Hbs Hfw Hstep) as (Hwf1 & Hbs1 & Hfw1 & Hlt).
      pose proof (total_nonneg (fp_heap st1) (fp_fingers st1)).
      destruct (IH st1) as (n & a & Hn); auto; [lia|lia|].
      exists (S n), a. cbn. now rewrite Hstep.
    + exists 1%nat. cbn. rewrite Hstep. eauto.
    + exists 1%nat. cbn. rewrite Hstep. eauto.
Qed.
