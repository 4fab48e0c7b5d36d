(** API-level lemmas behind properties C01-C07. *)
From Verif Require Import Base Bytes ModelFile ModelFingerprint SpecFingerprint
  ProofsFingerprint ProofsFingerprint2.
From Coq Require Import ZifyBool ZifyNat.

(** ** C01, C02 *)

Lemma c01 H h f bs cs :
  0 < bs -> distinct_lists h cs ->
  (forall c, In c cs -> Forall (valid_range (file_len f)) (requested h (file_len f) c)) ->
  exists st' r,
    terminates_with (fun n => hashes H n (do_calls (fp_new h f bs) cs)) (st', Ok r) /\
    results_are H (fun c => slices (f_bytes f) (requested h (file_len f) c)) cs r.
Proof.
  intros Hbs Hdist Hvalid.
  destruct (calls_inv (f_bytes f) (fp_new h f bs) cs eq_refl Hdist)
    as (Hinv & Hf & Hb & Hl & _).
  destruct (hashes_complete H (f_bytes f) _ _ Hinv) as (st' & Hst).
  - rewrite Hf. reflexivity.
  - rewrite Hb. exact Hbs.
  - apply Forall_forall. intros q Hq. apply in_map_iff in Hq. destruct Hq as (c & <- & Hc).
    eapply Forall_impl; [|exact (Hvalid c Hc)]. unfold valid_range, readable_range, file_len. lia.
  - eexists _, _. split; [exact Hst|]. apply expected_results_are.
Qed.

Lemma c02 H h f bs cs fuel st' r :
  distinct_lists h cs ->
  hashes H fuel (do_calls (fp_new h f bs) cs) = Some (st', Ok r) ->
  (forall c, In c cs -> Forall (readable_range (file_len f)) (requested h (file_len f) c)) /\
  results_are H (fun c => slices (f_bytes f) (requested h (file_len f) c)) cs r.
Proof.
  intros Hdist Hh.
  destruct (calls_inv (f_bytes f) (fp_new h f bs) cs eq_refl Hdist)
    as (Hinv & Hf & Hb & Hl & _).
  assert (Hfb : f_bytes (fp_file (do_calls (fp_new h f bs) cs)) = f_bytes f)
    by (rewrite Hf; reflexivity).
  destruct (hashes_sound _ _ _ _ _ _ _ Hinv Hfb Hh) as (-> & Hread & _).
  - split; [|apply expected_results_are]. intros c Hc. rewrite Forall_forall in Hread.
    apply (Hread (req_of h (file_len f) c)). now apply in_map.
Qed.

(** ** C03 *)

Lemma dict_ext {V} (a b : dict V) :
  (forall k, dict_get k a = dict_get k b) -> forall k, dict_get k a = dict_get k b.
Proof. auto. Qed.

Lemma c03 H h1 h2 f1 f2 bs1 bs2 cs1 cs2 n1 n2 st1 st2 r1 r2 c1 c2 :
  f_bytes f1 = f_bytes f2 ->
  distinct_lists h1 cs1 -> distinct_lists h2 cs2 ->
  hashes H n1 (do_calls (fp_new h1 f1 bs1) cs1) = Some (st1, Ok r1) ->
  hashes H n2 (do_calls (fp_new h2 f2 bs2) cs2) = Some (st2, Ok r2) ->
  last_call (c_desc c1) cs1 = Some c1 -> last_call (c_desc c2) cs2 = Some c2 ->
  c_hashers c1 = c_hashers c2 ->
  requested h1 (file_len f1) c1 = requested h2 (file_len f2) c2 ->
  exists d1 d2,
    dict_get (c_desc c1) r1 = Some d1 /\ dict_get (c_desc c2) r2 = Some d2 /\
    forall n, dict_get n d1 = dict_get n d2.
Proof.
  intros Hf Hd1 Hd2 Hh1 Hh2 Hl1 Hl2 Hhs Hreq.
  destruct (c02 _ _ _ _ _ _ _ _ Hd1 Hh1) as [_ [_ R1]].
  destruct (c02 _ _ _ _ _ _ _ _ Hd2 Hh2) as [_ [_ R2]].
  specialize (R1 (c_desc c1)). rewrite Hl1 in R1. destruct R1 as (d1 & G1 & _ & V1).
  specialize (R2 (c_desc c2)). rewrite Hl2 in R2. destruct R2 as (d2 & G2 & _ & V2).
  exists d1, d2. repeat (split; [assumption|]). intros n. rewrite V1, V2.
  rewrite Hreq, Hf, Hhs. reflexivity.
Qed.

(** ** C04: reset *)

Lemma same_but_pos_with_file a b f :
  same_but_pos a b -> same_but_pos (with_file a f) (with_file b f).
Proof. unfold same_but_pos; cbn; intuition. Qed.

Lemma hashes_step_pos a b :
  same_but_pos a b ->
  same_but_pos (fst (hashes_step a)) (fst (hashes_step b)) /\
  snd (hashes_step a) = snd (hashes_step b).
Proof.
  destruct a as [ha [fa pa] ba la ga], b as [hb [fb pb] bb lb gb]. unfold same_but_pos. cbn.
  intros (<- & <- & <- & <- & <-). unfold hashes_step. cbn [fp_heap fp_block fp_fingers fp_file].
  destruct (next_interval ha ba ga) as [iv|]; [|cbn; repeat split; auto].
  unfold file_seek. cbn [f_bytes]. destruct (r_start iv <? 0); [cbn; repeat split; auto|].
  destruct (file_read (r_end iv - r_start iv) (mkFile fa (r_start iv))) as [f2 blk].
  cbn [with_file fp_heap fp_block fp_len fp_fingers fp_file].
  destruct (negb (zlen blk =? r_end iv - r_start iv)); [cbn; repeat split; auto|].
  destruct (hash_block ha ga blk (r_start iv) (r_end iv)) as [g [u|x]]; [|cbn; repeat split; auto].
  cbn [with_fingers fp_heap fp_block fp_len fp_fingers fp_file].
  destruct (consume_all ha g (r_start iv) (r_end iv)) as [h' [v|x]]; cbn; repeat split; auto.
Qed.

Lemma hashes_loop_pos n : forall a b, same_but_pos a b ->
  match hashes_loop n a, hashes_loop n b with
  | None, None => True
  | Some (a', ra), Some (b', rb) => same_but_pos a' b' /\ ra = rb
  | _, _ => False
  end.
Proof.
  induction n as [|n IH]; intros a b Hab; cbn [hashes_loop]; [exact I|].
  destruct (hashes_step_pos a b Hab) as [H1 H2].
  destruct (hashes_step a) as [a1 ra], (hashes_step b) as [b1 rb]. cbn in H1, H2. subst rb.
  destruct ra as [[|]|x]; auto. now apply IH.
Qed.

Lemma hashes_pos H n a b : same_but_pos a b ->
  match hashes H n a, hashes H n b with
  | None, None => True
  | Some (a', ra), Some (b', rb) => same_but_pos a' b' /\ ra = rb
  | _, _ => False
  end.
Proof.
  intros Hab. unfold hashes. pose proof (hashes_loop_pos n a b Hab) as Hl.
  destruct (hashes_loop n a) as [[a1 ra]|], (hashes_loop n b) as [[b1 rb]|]; try contradiction; auto.
  destruct Hl as [Hl <-]. destruct ra as [u|x]; [|auto].
  destruct Hl as (E1 & E2 & E3 & E4 & E5). rewrite E1, E4, E5.
  destruct (collect_results H (fp_heap b1) (fp_len b1) (fp_fingers b1) []); [|unfold same_but_pos; repeat split; auto].
  unfold same_but_pos; cbn; repeat split; auto.
Qed.

Lemma do_calls_pos cs : forall a b, same_but_pos a b -> same_but_pos (do_calls a cs) (do_calls b cs).
Proof.
  induction cs as [|c cs IH]; intros a b Hab; [exact Hab|]. cbn. apply IH.
  destruct Hab as (E1 & E2 & E3 & E4 & E5). unfold do_call, add_hashers, same_but_pos.
  rewrite E1, E4, E5, E3. destruct (c_ranges c) as [r|]; [destruct (heap_get (fp_heap b) r)|];
    cbn; repeat split; auto.
Qed.

(** A fingerprinter state reachable by construction and any number of completed rounds. *)
Inductive history (H : string -> bytes -> bytes) (data : bytes) (bs : Z) : fpst -> Prop :=
| history_new h p : history H data bs (fp_new h (mkFile data p) bs)
| history_round st cs n st' r :
    history H data bs st -> distinct_lists (fp_heap st) cs ->
    hashes H n (do_calls st cs) = Some (st', Ok r) -> history H data bs st'
| history_heap st h :  (* the caller does what it likes with its own lists *)
    history H data bs st -> history H data bs (with_heap st h).

Lemma history_reset H data bs st :
  history H data bs st ->
  fp_fingers st = [] /\ f_bytes (fp_file st) = data /\ fp_block st = bs /\ fp_len st = zlen data.
Proof.
  induction 1 as [h p|st cs n st' r Hh IH Hd Hr|st h Hh IH]; cbn; auto.
  destruct IH as (I1 & I2 & I3 & I4).
  destruct (calls_inv data st cs I1 Hd) as (Hinv & Hf & Hb & Hl & _).
  assert (Hfb : f_bytes (fp_file (do_calls st cs)) = data) by (rewrite Hf; exact I2).
  destruct (hashes_sound _ _ _ _ _ _ _ Hinv Hfb Hr) as (_ & _ & S1 & S2 & S3 & S4 & _).
  - repeat split; congruence.
Qed.

Lemma c04_reset H data bs st :
  history H data bs st ->
  (exists st', terminates_with (fun n => hashes H n st) (st', Ok [])) /\
  forall cs n,
    option_map snd (hashes H n (do_calls st cs)) =
    option_map snd (hashes H n (do_calls (fp_new (fp_heap st) (fp_file st) bs) cs)).
Proof.
  intros Hh. destruct (history_reset _ _ _ _ Hh) as (I1 & I2 & I3 & I4). split.
  - exists st, 1%nat. intros [|m] Hm; [lia|]. unfold hashes. cbn [hashes_loop]. unfold hashes_step.
    rewrite I1. cbn. rewrite I1. cbn. destruct st; cbn in *; subst; reflexivity.
  - intros cs n.
    assert (Hs : same_but_pos (do_calls st cs) (do_calls (fp_new (fp_heap st) (fp_file st) bs) cs)).
    { apply do_calls_pos. unfold same_but_pos, fp_new, file_seek_end; cbn.
      unfold file_len. rewrite I2. auto. }
    pose proof (hashes_pos H n _ _ Hs) as Hp.
    destruct (hashes H n (do_calls st cs)) as [[a ra]|],
      (hashes H n (do_calls (fp_new (fp_heap st) (fp_file st) bs) cs)) as [[b rb]|];
      try contradiction; [|reflexivity].
    destruct Hp as [_ ->]. reflexivity.
Qed.

(** ** C04: resumption *)

Lemma interrupted_inv H data qs st st' :
  interrupted H data st st' -> inv data qs st ->
  inv data qs st' /\ fp_block st' = fp_block st.
Proof.
  induction 1 as [st|st view ext fuel x st1 st' Hd Hh Hi IH]; intros Hinv; [auto|].
  assert (Hinv0 : inv data qs (set_content st view)) by (now apply inv_with_file).
  assert (Hpre : prefix_of (f_bytes (fp_file (set_content st view))) data) by (exists ext; exact Hd).
  destruct (hashes_error _ _ _ _ _ _ _ Hinv0 Hpre Hh) as (Hinv1 & Hb & _).
  - destruct (IH Hinv1) as [I1 I2]. split; [exact I1|]. rewrite I2, Hb. reflexivity.
Qed.

Lemma c04_resume H h f0 bs cs data st' :
  0 < bs -> distinct_lists h cs ->
  (forall c, In c cs -> Forall (valid_range (zlen data)) (requested h (file_len f0) c)) ->
  interrupted H data (do_calls (fp_new h f0 bs) cs) st' ->
  exists st'' r,
    terminates_with (fun n => hashes H n (set_content st' data)) (st'', Ok r) /\
    terminates_with
      (fun n => option_map snd (hashes H n (set_content (do_calls (fp_new h f0 bs) cs) data)))
      (Ok r) /\
    results_are H (fun c => slices data (requested h (file_len f0) c)) cs r.
Proof.
  intros Hbs Hdist Hvalid Hint.
  destruct (calls_inv data (fp_new h f0 bs) cs eq_refl Hdist) as (Hinv & Hf & Hb & Hl & _).
  set (qs := map (req_of (fp_heap (fp_new h f0 bs)) (fp_len (fp_new h f0 bs))) cs) in *.
  assert (Hread : Forall (fun q => Forall (readable_range (zlen data)) (q_ranges q)) qs).
  { apply Forall_forall. intros q Hq. apply in_map_iff in Hq. destruct Hq as (c & <- & Hc).
    eapply Forall_impl; [|exact (Hvalid c Hc)]. unfold valid_range, readable_range. lia. }
  destruct (interrupted_inv _ _ _ _ _ Hint Hinv) as [Hinv' Hb'].
  destruct (hashes_complete H data qs (set_content st' data)) as (st1 & T1).
  { now apply inv_with_file. } { reflexivity. } { cbn. rewrite Hb', Hb. exact Hbs. } { exact Hread. }
  destruct (hashes_complete H data qs (set_content (do_calls (fp_new h f0 bs) cs) data)) as (st2 & T2).
  { now apply inv_with_file. } { reflexivity. } { cbn. rewrite Hb. exact Hbs. } { exact Hread. }
  exists st1, (expected H data qs). split; [exact T1|]. split; [|apply expected_results_are].
  destruct T2 as (n & T2). exists n. intros m Hm. now rewrite T2.
Qed.

(** Every failure along the way is the documented short read. *)
Lemma c04_failures H h f0 bs cs data st' view ext fuel st'' x :
  distinct_lists h cs ->
  (forall c, In c cs -> Forall (valid_range (zlen data)) (requested h (file_len f0) c)) ->
  interrupted H data (do_calls (fp_new h f0 bs) cs) st' ->
  data = view ++ ext ->
  hashes H fuel (set_content st' view) = Some (st'', Err x) ->
  x = mkExn RuntimeError "Short read on file.".
Proof.
  intros Hdist Hvalid Hint Hd Hh.
  destruct (calls_inv data (fp_new h f0 bs) cs eq_refl Hdist) as (Hinv & Hf & Hb & Hl & _).
  destruct (interrupted_inv _ _ _ _ _ Hint Hinv) as [Hinv' Hb'].
  assert (Hinv0 : inv data (map (req_of (fp_heap (fp_new h f0 bs)) (fp_len (fp_new h f0 bs))) cs)
                    (set_content st' view)) by (now apply inv_with_file).
  assert (Hpre : prefix_of (f_bytes (fp_file (set_content st' view))) data) by (exists ext; exact Hd).
  destruct (hashes_error _ _ _ _ _ _ _ Hinv0 Hpre Hh)
    as (Hinv1 & _ & _ & _ & s & e & Hiv & _ & [[_ Hneg]|[-> _]]); [|reflexivity].
  exfalso. apply next_interval_Some in Hiv. cbn [r_start r_end] in Hiv.
  destruct Hiv as ((fg & r & rs & Hin & Hrem & Hs) & _).
  destruct Hinv1 as [_ Hfs].
  destruct (Forall2_in_r _ _ _ _ Hfs Hin) as (q & Hq & fed & _ & _ & Hp).
  apply in_map_iff in Hq. destruct Hq as (c & <- & Hc).
  assert (Hr : Forall (readable_range (zlen data)) (rem (fp_heap st'') fg)).
  { eapply progress_rem_readable; [apply Z.le_refl| |exact Hp].
    eapply Forall_impl; [|exact (Hvalid c Hc)]. unfold valid_range, readable_range. lia. }
  rewrite Hrem in Hr. inversion Hr as [|a l Ha _]; subst. unfold readable_range in Ha. lia.
Qed.

(** ** C05 *)

Lemma hash_of_hashes H st st' r :
  terminates_with (fun n => hashes H n st) (st', Ok r) ->
  terminates_with (fun n => hash H n st)
    (st', match r with
          | [(_, d)] => Ok d
          | _ => raise RuntimeError "Can't return a single hash, use hashes() instead"
          end).
Proof.
  intros [n Hn]. exists n. intros m Hm. unfold hash. rewrite Hn by assumption.
  destruct r as [|[k d] [|]]; reflexivity.
Qed.

Lemma c05_one H h f bs c :
  0 < bs -> distinct_lists h [c] ->
  Forall (valid_range (file_len f)) (requested h (file_len f) c) ->
  exists st' d,
    terminates_with (fun n => hash H n (do_calls (fp_new h f bs) [c])) (st', Ok d) /\
    NoDup (map fst d) /\
    forall n, dict_get n d =
      if in_dec string_dec n (c_hashers c)
      then Some (H n (slices (f_bytes f) (requested h (file_len f) c))) else None.
Proof.
  intros Hbs Hdist Hvalid.
  destruct (calls_inv (f_bytes f) (fp_new h f bs) [c] eq_refl Hdist)
    as (Hinv & Hf & Hb & Hl & _).
  destruct (hashes_complete H (f_bytes f) _ _ Hinv) as (st' & Hst).
  - rewrite Hf. reflexivity.
  - rewrite Hb. exact Hbs.
  - cbn. constructor; [|constructor]. cbn.
    eapply Forall_impl; [|exact Hvalid]. unfold valid_range, readable_range, file_len. lia.
  - apply hash_of_hashes in Hst.
    change (expected H (f_bytes f) (map (req_of (fp_heap (fp_new h f bs)) (fp_len (fp_new h f bs))) [c]))
      with [(c_desc c, inner_of H (c_hashers c) (slices (f_bytes f) (requested h (file_len f) c)))] in Hst.
    cbv iota in Hst. eexists _, _. split; [exact Hst|].
    split; [apply dict_of_list_NoDup|]. intros n. unfold inner_of. rewrite dict_get_of_list.
    apply (dict_get_names n (c_hashers c)
             (fun x => H x (slices (f_bytes f) (requested h (file_len f) c)))).
Qed.

Lemma c05_other H h f bs cs st' r :
  terminates_with (fun n => hashes H n (do_calls (fp_new h f bs) cs)) (st', Ok r) ->
  length r <> 1%nat ->
  exists st'' x, terminates_with (fun n => hash H n (do_calls (fp_new h f bs) cs)) (st'', Err x) /\
    e_class x = RuntimeError.
Proof.
  intros Ht Hlen. apply hash_of_hashes in Ht. destruct r as [|[k d] [|]].
  - eexists _, _. split; [exact Ht|reflexivity].
  - cbn in Hlen; lia.
  - eexists _, _. split; [exact Ht|reflexivity].
Qed.

(** ** C06 *)

Lemma c06_consumed H h f bs cs fuel st' r :
  distinct_lists h cs ->
  hashes H fuel (do_calls (fp_new h f bs) cs) = Some (st', Ok r) ->
  forall i, (i < length h)%nat ->
    heap_get (fp_heap st') i = if in_dec Nat.eq_dec i (passed_lists cs) then [] else heap_get h i.
Proof.
  intros Hdist Hh i Hi.
  destruct (calls_inv (f_bytes f) (fp_new h f bs) cs eq_refl Hdist)
    as (Hinv & Hf & Hb & Hl & [ext Hext] & Hr1 & Hr2).
  assert (Hfb : f_bytes (fp_file (do_calls (fp_new h f bs) cs)) = f_bytes f)
    by (rewrite Hf; reflexivity).
  destruct (hashes_sound _ _ _ _ _ _ _ Hinv Hfb Hh) as (_ & _ & _ & _ & _ & _ & Hin & Hout).
  cbn [fp_new fp_heap] in *.
  assert (Hsame : heap_get (fp_heap (do_calls (fp_new h f bs) cs)) i = heap_get h i).
  { rewrite Hext. unfold heap_get. now apply app_nth1. }
  destruct (in_dec Nat.eq_dec i (refs (fp_fingers (do_calls (fp_new h f bs) cs)))) as [Hi'|Hi'].
  - rewrite Hin by assumption. specialize (Hr1 i Hi' Hi).
    destruct (in_dec Nat.eq_dec i (passed_lists cs)); [reflexivity|contradiction].
  - rewrite Hout, Hsame by assumption.
    destruct (in_dec Nat.eq_dec i (passed_lists cs)) as [Hp|]; [|reflexivity].
    destruct (heap_get h i) as [|x l] eqn:E; [reflexivity|].
    exfalso. apply Hi', Hr2; [assumption|]. rewrite E. discriminate.
Qed.

(** ** C07 *)

Lemma terminates_unique {A} (f : nat -> option A) a b n :
  terminates_with f a -> (forall i j x, (i <= j)%nat -> f i = Some x -> f j = Some x) ->
  f n = Some b -> a = b.
Proof.
  intros [m Hm] Hmono Hn. specialize (Hmono n (Nat.max n m) b ltac:(lia) Hn).
  rewrite Hm in Hmono by lia. congruence.
Qed.

Definition forward_call (h : heap) (len : Z) (c : call) : Prop :=
  Forall (fun r => r_start r <= r_end r) (requested h len c).

Lemma do_calls_fingers_length st cs :
  length (fp_fingers (do_calls st cs)) = (length (fp_fingers st) + length cs)%nat.
Proof.
  revert st; induction cs as [|c cs IH]; intros st; cbn; [lia|].
  change (fold_left do_call cs (do_call st c)) with (do_calls (do_call st c) cs).
  rewrite IH. unfold do_call, add_hashers.
  destruct (c_ranges c) as [r|]; [destruct (heap_get (fp_heap st) r)|]; cbn;
    rewrite app_length; cbn; lia.
Qed.

(** With a positive block size, a request without reversed ranges, or with a single finger,
    ends; it raises exactly if some range is not readable. *)
Lemma c07_positive H h f bs cs :
  0 < bs -> distinct_lists h cs ->
  Forall (forward_call h (file_len f)) cs \/ (length cs <= 1)%nat ->
  exists st' r, terminates_with (fun n => hashes H n (do_calls (fp_new h f bs) cs)) (st', r) /\
    ((exists x, r = Err x /\ (e_class x = RuntimeError \/ e_class x = ValueError)) <->
     exists c rg, In c cs /\ In rg (requested h (file_len f) c) /\
                  ~ readable_range (file_len f) rg).
Proof.
  intros Hbs Hdist Hshape.
  destruct (calls_inv (f_bytes f) (fp_new h f bs) cs eq_refl Hdist)
    as (Hinv & Hf & Hb & Hl & _).
  assert (Htame : tame (fp_heap (do_calls (fp_new h f bs) cs)) (fp_fingers (do_calls (fp_new h f bs) cs))).
  { destruct Hshape as [Hfw|Hone].
    - left. eapply inv_forward; [exact Hinv|]. apply Forall_forall. intros q Hq.
      apply in_map_iff in Hq. destruct Hq as (c & <- & Hc). rewrite Forall_forall in Hfw.
      exact (Hfw c Hc).
    - right. rewrite do_calls_fingers_length. cbn. exact Hone. }
  assert (Hbs' : 0 < fp_block (do_calls (fp_new h f bs) cs)) by (rewrite Hb; exact Hbs).
  destruct (hashes_terminates H _ (inv_refs _ _ _ Hinv) Hbs' Htame) as ([st' r] & Ht).
  exists st', r. split; [exact Ht|]. destruct Ht as [n Hn]. specialize (Hn n (le_n n)).
  assert (Hpre : prefix_of (f_bytes (fp_file (do_calls (fp_new h f bs) cs))) (f_bytes f)).
  { exists []. rewrite app_nil_r, Hf. reflexivity. }
  destruct r as [r|x].
  - split; [intros (x & Hx & _); discriminate|].
    intros (c & rg & Hc & Hrg & Hnr). exfalso. apply Hnr.
    destruct (c02 _ _ _ _ _ _ _ _ Hdist Hn) as [Hread _].
    specialize (Hread c Hc). rewrite Forall_forall in Hread. auto.
  - destruct (hashes_error _ _ _ _ _ _ _ Hinv Hpre Hn) as (_ & _ & _ & _ & s & e & _ & _ & Hx).
    split.
    + intros _.
      assert (Hdec : {Forall (fun c => Forall (readable_range (file_len f)) (requested h (file_len f) c)) cs} +
                     {~ Forall (fun c => Forall (readable_range (file_len f)) (requested h (file_len f) c)) cs}).
      { apply Forall_dec. intros c. apply Forall_dec. intros rg. unfold readable_range.
        destruct (Z_le_dec 0 (r_start rg)), (Z_le_dec (r_start rg) (r_end rg)),
          (Z.eq_dec (r_start rg) (r_end rg)), (Z_le_dec (r_end rg) (file_len f));
          solve [left; lia | right; lia]. }
      destruct Hdec as [Hall|Hnot].
      * exfalso. destruct (hashes_complete H (f_bytes f) _ _ Hinv) as (st2 & n2 & Hn2).
        { rewrite Hf. reflexivity. } { rewrite Hb. exact Hbs. }
        { apply Forall_forall. intros q Hq. apply in_map_iff in Hq.
          destruct Hq as (c & <- & Hc). rewrite Forall_forall in Hall. exact (Hall c Hc). }
        specialize (Hn2 (Nat.max n n2) ltac:(lia)).
        assert (Hm : hashes H (Nat.max n n2) (do_calls (fp_new h f bs) cs) = Some (st', Err x)).
        { unfold hashes in Hn |- *.
          destruct (hashes_loop n (do_calls (fp_new h f bs) cs)) as [a|] eqn:El; [|discriminate].
          now rewrite (loop_fuel_mono n (Nat.max n n2) _ _ ltac:(lia) El). }
        congruence.
      * apply Exists_Forall_neg in Hnot.
        -- apply Exists_exists in Hnot. destruct Hnot as (c & Hc & Hnot).
           apply Exists_Forall_neg in Hnot.
           ++ apply Exists_exists in Hnot. destruct Hnot as (rg & Hrg & Hnot). eauto.
           ++ intros rg. unfold readable_range. lia.
        -- intros c.
           assert (Hd : {Forall (readable_range (file_len f)) (requested h (file_len f) c)} +
                        {~ Forall (readable_range (file_len f)) (requested h (file_len f) c)}).
           { apply Forall_dec. intros rg. unfold readable_range.
             destruct (Z_le_dec 0 (r_start rg)), (Z_le_dec (r_start rg) (r_end rg)),
               (Z.eq_dec (r_start rg) (r_end rg)), (Z_le_dec (r_end rg) (file_len f));
               solve [left; lia | right; lia]. }
           destruct Hd; auto.
    + intros _. exists x. split; [reflexivity|].
      destruct Hx as [[-> _]|[-> _]]; cbn; auto.
Qed.

Lemma requested_nonempty h len c : requested h len c <> [].
Proof.
  unfold requested. destruct (c_ranges c) as [r|]; [|discriminate].
  destruct (nth_error h r) as [[|]|]; discriminate.
Qed.

Lemma Forall2_in_l {A B} (P : A -> B -> Prop) l l' a :
  Forall2 P l l' -> In a l -> exists b, In b l' /\ P a b.
Proof.
  induction 1 as [|x y l l' Hxy H IH]; [easy|]. intros [<-|Ha]; [exists y; cbn; auto|].
  destruct (IH Ha) as (b & Hb & Hp). exists b; cbn; auto.
Qed.

(** A negative block size makes [hashes] raise at once. *)
Lemma c07_negative H h f bs cs :
  bs < 0 -> distinct_lists h cs -> cs <> [] ->
  exists st' x, terminates_with (fun n => hashes H n (do_calls (fp_new h f bs) cs)) (st', Err x) /\
    (e_class x = RuntimeError \/ e_class x = ValueError).
Proof.
  intros Hbs Hdist Hne.
  destruct (calls_init (fp_new h f bs) cs eq_refl Hdist) as ([Hwf Hfs] & Hf & Hb & Hl & _).
  cbn [fp_new fp_block] in Hb. rewrite <- Hb in Hbs.
  set (st := do_calls (fp_new h f bs) cs) in *. clearbody st.
  assert (Hsome : exists fg r rs, In fg (fp_fingers st) /\ rem (fp_heap st) fg = r :: rs).
  { assert (Hc : exists c, In c cs) by (destruct cs as [|c cs']; [congruence|exists c; now left]).
    destruct Hc as (c & Hc).
    destruct (Forall2_in_l _ _ _ _ Hfs (in_map _ _ _ Hc)) as (fg & Hin & _ & _ & Hq).
    cbn [req_of q_ranges] in Hq.
    destruct (rem (fp_heap st) fg) as [|r rs] eqn:Er.
    - symmetry in Hq. now apply requested_nonempty in Hq.
    - exists fg, r, rs. auto. }
  pose proof (hashes_step_spec st Hwf) as Hspec.
  destruct (hashes_step st) as [st1 rb] eqn:Hstep.
  inversion Hspec as [Hall|s e x f' Hiv Hnr Hfb Hx|s e h' f' Hiv Hr Hfb Hlen Hrem Hoth]; subst.
  - exfalso. destruct Hsome as (fg & r & rs & Hin & Hr). rewrite Forall_forall in Hall.
    rewrite Hall in Hr by assumption. discriminate.
  - exists (with_file st f'), x. split.
    + exists 1%nat. intros [|m] Hm; [lia|]. unfold hashes. cbn [hashes_loop]. now rewrite Hstep.
    + destruct Hx as [[-> _]|[-> _]]; cbn; auto.
  - exfalso. apply next_interval_Some in Hiv. cbn [r_start r_end] in Hiv.
    destruct Hiv as (_ & _ & _ & Hend). unfold readable in Hr.
    destruct Hend as [->|[Hle _]]; lia.
Qed.

(** Block size zero never ends unless all requested ranges are empty. *)
Definition has_work (st : fpst) : Prop :=
  exists fg r, In fg (fp_fingers st) /\ In r (rem (fp_heap st) fg) /\ r_start r < r_end r.

Lemma zero_step st :
  fp_block st = 0 -> wf_refs (fp_heap st) (fp_fingers st) ->
  (forall fg r, In fg (fp_fingers st) -> In r (rem (fp_heap st) fg) ->
     0 <= r_start r <= r_end r) ->
  has_work st ->
  exists st', hashes_step st = (st', Ok true) /\
    fp_block st' = 0 /\ wf_refs (fp_heap st') (fp_fingers st') /\
    (forall fg r, In fg (fp_fingers st') -> In r (rem (fp_heap st') fg) ->
       0 <= r_start r <= r_end r) /\
    has_work st'.
Proof.
  intros Hb Hwf Hok (fg & r & Hin & Hr & Hlt).
  pose proof (hashes_step_spec st Hwf) as Hspec.
  destruct (hashes_step st) as [st1 rb] eqn:Hstep.
  assert (Hiv_se : forall s e, next_interval (fp_heap st) (fp_block st) (fp_fingers st) = Some (mkRange s e) ->
            0 <= s /\ s = e).
  { intros s e Hiv. apply next_interval_Some in Hiv. cbn [r_start r_end] in Hiv.
    destruct Hiv as ((fg0 & r0 & rs0 & Hin0 & Hrem0 & Hs0) & _ & Hmin & Hend).
    pose proof (Hok fg0 r0 Hin0) as Hok0. rewrite Hrem0 in Hok0.
    specialize (Hok0 (or_introl eq_refl)). split; [lia|]. rewrite Hb in Hend.
    destruct Hend as [->|[Hle (fg1 & r1 & rs1 & Hin1 & Hrem1 & Hend)]]; [lia|].
    pose proof (Hok fg1 r1 Hin1) as Hok1. rewrite Hrem1 in Hok1.
    specialize (Hok1 (or_introl eq_refl)). specialize (Hmin fg1 r1 rs1 Hin1 Hrem1). lia. }
  inversion Hspec as [Hall|s e x f' Hiv Hnr Hfb Hx|s e h' f' Hiv Hrd Hfb Hlen Hrem Hoth]; subst.
  - exfalso. rewrite Forall_forall in Hall. rewrite Hall in Hr by assumption. destruct Hr.
  - exfalso. destruct (Hiv_se _ _ Hiv) as [H0 ->]. apply Hnr. unfold readable. lia.
  - destruct (Hiv_se _ _ Hiv) as [H0 ->]. eexists. split; [reflexivity|].
    cbn [fp_block fp_heap fp_fingers]. split; [exact Hb|].
    split; [unfold wf_refs in *; rewrite refs_fed; now rewrite Hlen|].
    assert (Heat : forall rs x, In x (eaten e e rs) -> In x rs).
    { intros rs x. destruct rs as [|y rs]; cbn; [easy|].
      destruct (e =? r_start y) eqn:C; [|easy]. destruct (r_end y =? e) eqn:C2; [now right|].
      intros [<-|Hx]; [left|now right]. destruct y as [ys ye]; cbn in *. f_equal; lia. }
    split.
    + intros fg1 r1 Hin1 Hr1. apply in_map_iff in Hin1. destruct Hin1 as (fg2 & <- & Hin2).
      rewrite rem_fed, Hrem in Hr1 by assumption. apply Heat in Hr1. eauto.
    + exists (fed_finger (fp_heap st) (zslice e e (f_bytes (fp_file st))) e fg), r.
      split; [now apply in_map|]. split; [|exact Hlt].
      cbn [fp_heap]. rewrite rem_fed, Hrem by assumption.
      destruct (rem (fp_heap st) fg) as [|y rs]; [destruct Hr|]. cbn.
      destruct (e =? r_start y) eqn:C; [|exact Hr].
      destruct (r_end y =? e) eqn:C2.
      * destruct Hr as [->|Hr]; [lia|exact Hr].
      * destruct Hr as [->|Hr]; [left|now right]. destruct r as [rs0 re0]; cbn in *. f_equal; lia.
Qed.

Lemma zero_diverges st :
  fp_block st = 0 -> wf_refs (fp_heap st) (fp_fingers st) ->
  (forall fg r, In fg (fp_fingers st) -> In r (rem (fp_heap st) fg) ->
     0 <= r_start r <= r_end r) ->
  has_work st -> forall n, hashes_loop n st = None.
Proof.
  intros Hb Hwf Hok Hw n. revert st Hb Hwf Hok Hw.
  induction n as [|n IH]; intros st Hb Hwf Hok Hw; [reflexivity|].
  destruct (zero_step st Hb Hwf Hok Hw) as (st' & Hs & Hb' & Hwf' & Hok' & Hw').
  cbn [hashes_loop]. rewrite Hs. auto.
Qed.

Lemma c07_zero H h f cs :
  distinct_lists h cs ->
  (forall c rg, In c cs -> In rg (requested h (file_len f) c) -> 0 <= r_start rg <= r_end rg) ->
  (exists c rg, In c cs /\ In rg (requested h (file_len f) c) /\ r_start rg < r_end rg) ->
  diverges (fun n => hashes H n (do_calls (fp_new h f 0) cs)).
Proof.
  intros Hdist Hok (c & rg & Hc & Hrg & Hlt) n.
  destruct (calls_init (fp_new h f 0) cs eq_refl Hdist) as ([Hwf Hfs] & Hf & Hb & Hl & _).
  cbn [fp_new fp_block fp_heap fp_len] in *.
  unfold hashes. rewrite zero_diverges; [reflexivity|exact Hb|exact Hwf| |].
  - intros fg r Hin Hr.
    destruct (Forall2_in_r _ _ _ _ Hfs Hin) as (q & Hq & _ & _ & Hrem).
    apply in_map_iff in Hq. destruct Hq as (c1 & <- & Hc1). rewrite Hrem in Hr.
    exact (Hok c1 r Hc1 Hr).
  - assert (Hex : exists fg, In fg (fp_fingers (do_calls (fp_new h f 0) cs)) /\
              rem (fp_heap (do_calls (fp_new h f 0) cs)) fg = requested h (file_len f) c).
    { destruct (Forall2_in_l _ _ _ _ Hfs (in_map _ _ _ Hc)) as (fg & Hin & _ & _ & Hq). eauto. }
    destruct Hex as (fg & Hin & Hrem). exists fg, rg. rewrite Hrem. auto.
Qed.

(** A state the loop maps to itself. *)
Lemma fixpoint_diverges H st st0 :
  hashes_step st0 = (st, Ok true) -> hashes_step st = (st, Ok true) ->
  diverges (fun n => hashes H n st0).
Proof.
  intros H0 H1 n. unfold hashes.
  assert (Hst : forall m, hashes_loop m st = None).
  { induction m as [|m IH]; [reflexivity|]. cbn [hashes_loop]. now rewrite H1. }
  destruct n as [|n]; [reflexivity|]. cbn [hashes_loop]. now rewrite H0, Hst.
Qed.
