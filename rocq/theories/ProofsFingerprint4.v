(** Behind C07: a request either ends within a bound that the ranges determine, or never. *)
From Verif Require Import Base ModelFile ModelFingerprint SpecFingerprint SpecWork.
From Verif Require Import ProofsFingerprint ProofsFingerprint2 ProofsFingerprint3.

(** The next interval is empty and no finger asks for it. *)
Definition stuck (st : fpst) : Prop :=
  exists s, next_interval (fp_heap st) (fp_block st) (fp_fingers st) = Some (mkRange s s) /\
    0 <= s /\
    forall fg rs, In fg (fp_fingers st) -> rem (fp_heap st) fg <> mkRange s s :: rs.

Lemma currents_fed h h' blk s fgs :
  (forall fg, In fg fgs -> rem h' fg = rem h fg) ->
  currents h' (map (fed_finger h blk s) fgs) = currents h fgs.
Proof.
  induction fgs as [|fg fgs IH]; intros Heq; [reflexivity|]. cbn [map currents].
  rewrite IH by (intros; apply Heq; now right).
  unfold current_range. change (heap_get h' (fg_ref (fed_finger h blk s fg))) with (rem h' (fed_finger h blk s fg)).
  rewrite rem_fed, Heq by now left. reflexivity.
Qed.

Lemma stuck_step st :
  wf_refs (fp_heap st) (fp_fingers st) -> stuck st ->
  exists st', hashes_step st = (st', Ok true) /\
    wf_refs (fp_heap st') (fp_fingers st') /\ stuck st'.
Proof.
  intros Hwf (s & Hiv & Hs & Hno). pose proof (hashes_step_spec st Hwf) as Hspec.
  destruct (hashes_step st) as [st' r].
  inversion Hspec as [Hall|s1 e1 x f' Hiv1 Hnr _ _|s1 e1 h' f' Hiv1 Hr Hfb Hlen Hrem Hoth]; subst.
  - apply (proj2 (next_interval_None _ (fp_block st') _)) in Hall. congruence.
  - rewrite Hiv1 in Hiv. injection Hiv as -> ->. exfalso. apply Hnr. unfold readable. lia.
  - rewrite Hiv1 in Hiv. injection Hiv as -> ->.
    assert (Hsame : forall fg, In fg (fp_fingers st) -> rem h' fg = rem (fp_heap st) fg).
    { intros fg Hfg. rewrite Hrem by assumption.
      destruct (rem (fp_heap st) fg) as [|[a b] rs] eqn:E; [reflexivity|]. cbn [eaten r_start r_end].
      destruct (s =? a) eqn:C; [|reflexivity]. apply Z.eqb_eq in C. subst a.
      destruct (b =? s) eqn:C2; [|reflexivity]. apply Z.eqb_eq in C2. subst b.
      exfalso. exact (Hno fg rs Hfg E). }
    eexists. split; [reflexivity|]. cbn [fp_heap fp_fingers fp_block].
    split; [unfold wf_refs in *; rewrite refs_fed; now rewrite Hlen|].
    exists s. cbn [fp_heap fp_fingers fp_block]. split; [|split; [exact Hs|]].
    + unfold next_interval in *. rewrite currents_fed by exact Hsame. exact Hiv1.
    + intros fg rs Hfg. apply in_map_iff in Hfg. destruct Hfg as (fg1 & <- & Hfg1).
      rewrite rem_fed, Hsame by assumption. now apply Hno.
Qed.

Lemma stuck_diverges n : forall st,
  wf_refs (fp_heap st) (fp_fingers st) -> stuck st -> hashes_loop n st = None.
Proof.
  induction n as [|n IH]; intros st Hwf Hst; [reflexivity|]. cbn [hashes_loop].
  destruct (stuck_step st Hwf Hst) as (st' & -> & Hwf' & Hst'). now apply IH.
Qed.

Lemma asks_dec s h fgs :
  (exists fg rs, In fg fgs /\ rem h fg = mkRange s s :: rs) \/
  (forall fg rs, In fg fgs -> rem h fg <> mkRange s s :: rs).
Proof.
  induction fgs as [|fg fgs IH]; [right; intros fg rs []|].
  destruct IH as [(fg1 & rs & Hin & E)|IH]; [left; exists fg1, rs; cbn; auto|].
  destruct (rem h fg) as [|[a b] rs] eqn:E.
  - right. intros fg1 rs1 [<-|Hin]; [rewrite E; discriminate|now apply IH].
  - destruct (Z.eq_dec a s) as [->|Na]; [destruct (Z.eq_dec b s) as [->|Nb]|].
    + left. exists fg, rs. cbn. auto.
    + right. intros fg1 rs1 [<-|Hin]; [rewrite E; congruence|now apply IH].
    + right. intros fg1 rs1 [<-|Hin]; [rewrite E; congruence|now apply IH].
Qed.

(** A round that goes on makes progress unless the loop is stuck. *)
Lemma step_progress st st' :
  wf_refs (fp_heap st) (fp_fingers st) -> hashes_step st = (st', Ok true) ->
  stuck st \/
  (wf_refs (fp_heap st') (fp_fingers st') /\ fp_block st' = fp_block st /\
   total (fp_heap st') (fp_fingers st') < total (fp_heap st) (fp_fingers st)).
Proof.
  intros Hwf Hstep. pose proof (hashes_step_spec st Hwf) as Hspec.
  rewrite Hstep in Hspec.
  inversion Hspec as [Hall|s e x f' _ _ _ _|s e h' f' Hiv Hr Hfb Hlen Hrem Hoth]; subst.
  cbn [fp_heap fp_fingers fp_block].
  pose proof Hiv as Hiv0. apply next_interval_Some in Hiv. cbn [r_start r_end] in Hiv.
  destruct Hiv as ((fg0 & r0 & rs0 & Hin0 & Hrem0 & Hst0) & Hfits & Hmin & Hend).
  destruct Hr as [Hse _]. rewrite Forall_forall in Hfits.
  assert (Hcase : stuck st \/ exists fg, In fg (fp_fingers st) /\
            weights (rem h' fg) < weights (rem (fp_heap st) fg)).
  { assert (Hcase : s < e \/ s = e) by lia. destruct Hcase as [Hlt|Heq].
    - right. exists fg0. split; [assumption|]. rewrite Hrem, Hrem0 by assumption.
      specialize (Hfits fg0 Hin0). rewrite Hrem0 in Hfits. cbn in Hfits.
      cbn [eaten]. destruct (s =? r_start r0) eqn:C; [|lia].
      destruct (r_end r0 =? e) eqn:C2; rewrite ?weights_cons; unfold weight; cbn [r_start r_end]; lia.
    - subst e. destruct (asks_dec s (fp_heap st) (fp_fingers st)) as [(fg & rs & Hin & E)|Hno].
      + right. exists fg. split; [assumption|]. rewrite Hrem, E by assumption.
        cbn [eaten r_start r_end]. rewrite !Z.eqb_refl. rewrite weights_cons. unfold weight. lia.
      + left. exists s. split; [exact Hiv0|]. split; [lia|exact Hno]. }
  destruct Hcase as [Hst|Hdec]; [left; exact Hst|right].
  split; [unfold wf_refs in *; rewrite refs_fed; now rewrite Hlen|]. split; [reflexivity|].
  assert (Hle : forall fg, In fg (fp_fingers st) ->
            weights (rem h' fg) <= weights (rem (fp_heap st) fg)).
  { intros fg Hfg. rewrite Hrem by assumption. apply eaten_weight; auto; lia. }
  generalize (zslice s e (f_bytes (fp_file st))) as blk; intros blk.
  clear - Hdec Hle.
  assert (Hall : forall l, (forall fg, In fg l -> weights (rem h' fg) <= weights (rem (fp_heap st) fg)) ->
    total h' (map (fed_finger (fp_heap st) blk s) l)
    <= total (fp_heap st) l).
  { intros l. induction l as [|fg l IH]; intros Hl; cbn [map]; [unfold total; cbn; lia|]. rewrite !total_cons, rem_fed.
    pose proof (Hl fg (or_introl eq_refl)). specialize (IH (fun x Hx => Hl x (or_intror Hx))). lia. }
  destruct Hdec as (fg & Hin & Hlt).
  induction (fp_fingers st) as [|fg1 l IH]; [destruct Hin|].
  cbn [map]. rewrite !total_cons, rem_fed. destruct Hin as [->|Hin].
  - pose proof (Hall l (fun x Hx => Hle x (or_intror Hx))). lia.
  - pose proof (Hle fg1 (or_introl eq_refl)).
    specialize (IH Hin (fun x Hx => Hle x (or_intror Hx))). lia.
Qed.

Lemma loop_decided n : forall st,
  wf_refs (fp_heap st) (fp_fingers st) ->
  total (fp_heap st) (fp_fingers st) <= Z.of_nat n ->
  (exists a, hashes_loop (S n) st = Some a) \/ (forall m, hashes_loop m st = None).
Proof.
  induction n as [|n IH]; intros st Hwf Hn.
  - destruct (hashes_step st) as [st' [[|]|x]] eqn:E.
    + destruct (step_progress st st' Hwf E) as [Hst|(_ & _ & Hlt)].
      * right. intros m. now apply stuck_diverges.
      * exfalso. pose proof (total_nonneg (fp_heap st') (fp_fingers st')). lia.
    + left. exists (st', Ok tt). cbn [hashes_loop]. now rewrite E.
    + left. exists (st', Err x). cbn [hashes_loop]. now rewrite E.
  - destruct (hashes_step st) as [st' [[|]|x]] eqn:E.
    + destruct (step_progress st st' Hwf E) as [Hst|(Hwf' & _ & Hlt)].
      * right. intros m. now apply stuck_diverges.
      * destruct (IH st' Hwf' ltac:(lia)) as [(a & Ha)|Hd].
        -- left. exists a. cbn [hashes_loop] in *. rewrite E. exact Ha.
        -- right. intros [|m]; [reflexivity|]. cbn [hashes_loop]. rewrite E. apply Hd.
    + left. exists (st', Ok tt). cbn [hashes_loop]. now rewrite E.
    + left. exists (st', Err x). cbn [hashes_loop]. now rewrite E.
Qed.

Lemma weights_sum rs : weights rs = sum_of (map range_work rs).
Proof.
  induction rs as [|r rs IH]; [reflexivity|]. rewrite weights_cons, IH. reflexivity.
Qed.

Lemma total_work h h' len cs fgs :
  Forall2 (fresh_finger h') (map (req_of h len) cs) fgs -> total h' fgs = work h len cs.
Proof.
  revert fgs. induction cs as [|c cs IH]; intros fgs HF; inversion HF as [|q fg qs l Hq HF']; subst;
    [reflexivity|].
  rewrite total_cons. rewrite (IH _ HF'). destruct Hq as (_ & _ & ->). rewrite weights_sum. reflexivity.
Qed.

Lemma c07_decided H h f bs cs :
  distinct_lists h cs ->
  let run := fun n => hashes H n (do_calls (fp_new h f bs) cs) in
  let bound := S (Z.to_nat (work h (file_len f) cs)) in
  (exists a, run bound = Some a /\ terminates_with run a) \/ diverges run.
Proof.
  intros Hdist run bound.
  destruct (calls_init (fp_new h f bs) cs eq_refl Hdist) as ([Hrefs Hfg] & _ & _ & Hlen & _).
  change (fp_heap (fp_new h f bs)) with h in *.
  change (fp_len (fp_new h f bs)) with (file_len f) in *.
  set (st := do_calls (fp_new h f bs) cs) in *.
  assert (Hw : total (fp_heap st) (fp_fingers st) = work h (file_len f) cs) by now apply total_work.
  pose proof (total_nonneg (fp_heap st) (fp_fingers st)) as Hnn.
  destruct (loop_decided (Z.to_nat (work h (file_len f) cs)) st Hrefs ltac:(lia)) as [([st' r] & Ha)|Hd].
  - left. fold bound in Ha.
    assert (Hrun : forall m, (bound <= m)%nat -> run m = run bound).
    { intros m Hm. unfold run. fold st. unfold hashes. rewrite Ha.
      rewrite (loop_fuel_mono bound m st _ Hm Ha). reflexivity. }
    destruct (run bound) as [a|] eqn:E.
    + exists a. split; [reflexivity|]. exists bound. exact Hrun.
    + exfalso. unfold run in E. fold st in E. unfold hashes in E. rewrite Ha in E.
      destruct r as [u|x]; [|discriminate].
      destruct (collect_results H (fp_heap st') (fp_len st') (fp_fingers st') []); discriminate.
  - right. intros n. unfold run. fold st. unfold hashes. now rewrite Hd.
Qed.

Lemma terminates_not_diverges {A} (f : nat -> option A) a :
  terminates_with f a -> diverges f -> False.
Proof. intros [n Hn] Hd. specialize (Hn n (le_n n)). rewrite Hd in Hn. discriminate. Qed.

(** What a request that never ends looks like. *)
Lemma c07_diverging H h f bs cs :
  distinct_lists h cs ->
  diverges (fun n => hashes H n (do_calls (fp_new h f bs) cs)) ->
  bs = 0 /\ (exists c rg, In c cs /\ In rg (requested h (file_len f) c) /\ r_start rg <> r_end rg) \/
  0 < bs /\ (2 <= length cs)%nat /\
  exists c rg, In c cs /\ In rg (requested h (file_len f) c) /\ r_end rg < r_start rg.
Proof.
  intros Hdist Hd. destruct (Z.lt_trichotomy bs 0) as [Hneg|[->|Hpos]].
  - exfalso. destruct cs as [|c cs].
    + specialize (Hd 1%nat). cbn in Hd. discriminate.
    + destruct (c07_negative H h f bs (c :: cs) Hneg Hdist ltac:(discriminate)) as (st' & x & Ht & _).
      exact (terminates_not_diverges _ _ Ht Hd).
  - left. split; [reflexivity|].
    assert (Hdec : (exists c rg, In c cs /\ In rg (requested h (file_len f) c) /\ r_start rg <> r_end rg) \/
      forall c rg, In c cs -> In rg (requested h (file_len f) c) -> r_start rg = r_end rg).
    { clear. induction cs as [|c cs IH]; [right; intros c rg []|].
      destruct IH as [(c1 & rg & Hc & Hr)|IH]; [left; exists c1, rg; cbn; tauto|].
      assert (Hd : (exists rg, In rg (requested h (file_len f) c) /\ r_start rg <> r_end rg) \/
        forall rg, In rg (requested h (file_len f) c) -> r_start rg = r_end rg).
      { generalize (requested h (file_len f) c) as l. intros l. clear.
        induction l as [|r l IH]; [right; intros r []|].
        destruct IH as [(r1 & Hr1 & Hn)|IH]; [left; exists r1; cbn; tauto|].
        destruct (Z.eq_dec (r_start r) (r_end r)) as [E|N].
        - right. intros r1 [<-|Hr1]; [exact E|now apply IH].
        - left. exists r. cbn. tauto. }
      destruct Hd as [(rg & Hr & Hn)|Hall].
      - left. exists c, rg. cbn. tauto.
      - right. intros c1 rg [<-|Hc] Hr; [now apply Hall|now apply (IH c1)]. }
    destruct Hdec as [He|Hall]; [exact He|exfalso].
    (* only empty ranges: every round removes one *)
    destruct (calls_init (fp_new h f 0) cs eq_refl Hdist) as ([Hrefs Hfg] & _ & Hb & _).
    change (fp_heap (fp_new h f 0)) with h in *.
    change (fp_len (fp_new h f 0)) with (file_len f) in *.
    set (st := do_calls (fp_new h f 0) cs) in *.
    assert (He : Forall (fun fg => Forall (fun r => r_start r = r_end r) (rem (fp_heap st) fg)) (fp_fingers st)).
    { apply Forall_forall. intros fg Hin. destruct (Forall2_in_r _ _ _ _ Hfg Hin) as (q & Hq & _ & _ & ->).
      apply in_map_iff in Hq. destruct Hq as (c & <- & Hc). apply Forall_forall. intros r Hr.
      exact (Hall c r Hc Hr). }
    assert (Hends : forall n st, wf_refs (fp_heap st) (fp_fingers st) ->
      Forall (fun fg => Forall (fun r => r_start r = r_end r) (rem (fp_heap st) fg)) (fp_fingers st) ->
      total (fp_heap st) (fp_fingers st) <= Z.of_nat n -> exists a, hashes_loop (S n) st = Some a).
    { clear. induction n as [|n IH]; intros st Hwf He Hn.
      all: destruct (hashes_step st) as [st' [[|]|x]] eqn:E;
        [|exists (st', Ok tt); cbn [hashes_loop]; now rewrite E|exists (st', Err x); cbn [hashes_loop]; now rewrite E].
      all: assert (Hns : ~ stuck st) by
        (intros (s & Hiv & Hs & Hno); apply next_interval_Some in Hiv; cbn [r_start r_end] in Hiv;
         destruct Hiv as ((fg0 & [a b] & rs0 & Hin0 & Hrem0 & Hst0) & _);
         rewrite Forall_forall in He; specialize (He fg0 Hin0); rewrite Hrem0 in He;
         apply Forall_inv in He; cbn in He, Hst0; subst; exact (Hno fg0 rs0 Hin0 Hrem0)).
      all: destruct (step_progress st st' Hwf E) as [Hst|(Hwf' & _ & Hlt)]; [contradiction|].
      - exfalso. pose proof (total_nonneg (fp_heap st') (fp_fingers st')). lia.
      - assert (He' : Forall (fun fg => Forall (fun r => r_start r = r_end r) (rem (fp_heap st') fg)) (fp_fingers st')).
        { pose proof (hashes_step_spec st Hwf) as Hspec. rewrite E in Hspec.
          inversion Hspec as [|s e x f' _ _ _ _|s e h' f' Hiv Hr Hfb Hlen Hrem Hoth]; subst.
          cbn [fp_heap fp_fingers]. apply Forall_forall. intros fg Hfg. apply in_map_iff in Hfg.
          destruct Hfg as (fg1 & <- & Hfg1). rewrite rem_fed, Hrem by assumption.
          rewrite Forall_forall in He. specialize (He fg1 Hfg1).
          apply next_interval_Some in Hiv. cbn [r_start r_end] in Hiv.
          destruct Hiv as (_ & Hfits & _). rewrite Forall_forall in Hfits. specialize (Hfits fg1 Hfg1).
          destruct Hr as [Hse _].
          destruct (rem (fp_heap st) fg1) as [|[a b] rs]; [constructor|].
          pose proof (Forall_inv He) as He1. apply Forall_inv_tail in He. cbn in He1, Hfits.
          cbn [eaten r_start r_end]. destruct (s =? a) eqn:C; [|constructor; assumption].
          destruct (b =? e) eqn:C2; [assumption|]. constructor; [cbn; lia|assumption]. }
        destruct (IH st' Hwf' He' ltac:(lia)) as [a Ha]. exists a. cbn [hashes_loop] in *. rewrite E. exact Ha. }
    pose proof (total_nonneg (fp_heap st) (fp_fingers st)) as Hnn.
    destruct (Hends (Z.to_nat (total (fp_heap st) (fp_fingers st))) st Hrefs He ltac:(lia)) as [[st' r] Ha].
    specialize (Hd (S (Z.to_nat (total (fp_heap st) (fp_fingers st))))). cbv beta in Hd. fold st in Hd.
    unfold hashes in Hd. rewrite Ha in Hd. destruct r as [u|x]; [|discriminate].
    destruct (collect_results H (fp_heap st') (fp_len st') (fp_fingers st') []); discriminate.
  - right. split; [exact Hpos|].
    assert (Hn : ~ (Forall (forward_call h (file_len f)) cs \/ (length cs <= 1)%nat)).
    { intros Hs. destruct (c07_positive H h f bs cs Hpos Hdist Hs) as (st' & r & Ht & _).
      exact (terminates_not_diverges _ _ Ht Hd). }
    split; [destruct (Nat.le_gt_cases (length cs) 1); [tauto|lia]|].
    assert (Hf : ~ Forall (forward_call h (file_len f)) cs) by tauto.
    apply Exists_Forall_neg in Hf.
    + apply Exists_exists in Hf. destruct Hf as (c & Hc & Hf).
      apply Exists_Forall_neg in Hf; [|intros r; lia].
      apply Exists_exists in Hf. destruct Hf as (r & Hr & Hlt). exists c, r. repeat split; try assumption. lia.
    + intros c. unfold forward_call.
      assert (Hd' : {Forall (fun r => r_start r <= r_end r) (requested h (file_len f) c)} +
                    {~ Forall (fun r => r_start r <= r_end r) (requested h (file_len f) c)})
        by (apply Forall_dec; intros r; apply Z_le_dec).
      destruct Hd'; auto.
Qed.

(** The whole of C07: what happens to every request. *)
Lemma c07_outcome H h f bs cs :
  distinct_lists h cs ->
  let run := fun n => hashes H n (do_calls (fp_new h f bs) cs) in
  let readable := forall c rg, In c cs -> In rg (requested h (file_len f) c) ->
                    readable_range (file_len f) rg in
  (exists st' r,
     run (S (Z.to_nat (work h (file_len f) cs))) = Some (st', r) /\
     terminates_with run (st', r) /\
     match r with
     | Ok _ => readable
     | Err x => (e_class x = RuntimeError \/ e_class x = ValueError) /\ ~ (0 < bs /\ readable)
     end) \/
  (diverges run /\
   (bs = 0 /\ (exists c rg, In c cs /\ In rg (requested h (file_len f) c) /\ r_start rg <> r_end rg) \/
    0 < bs /\ (2 <= length cs)%nat /\
    exists c rg, In c cs /\ In rg (requested h (file_len f) c) /\ r_end rg < r_start rg)).
Proof.
  intros Hdist run readable.
  destruct (c07_decided H h f bs cs Hdist) as [([st' r] & Hb & Ht)|Hd].
  2:{ right. split; [exact Hd|]. exact (c07_diverging H h f bs cs Hdist Hd). }
  left. exists st', r. split; [exact Hb|]. split; [exact Ht|]. destruct r as [r|x].
  - intros c rg Hc Hr. destruct (c02 _ _ _ _ _ _ _ _ Hdist Hb) as [Hread _].
    specialize (Hread c Hc). rewrite Forall_forall in Hread. now apply Hread.
  - destruct (calls_inv (f_bytes f) (fp_new h f bs) cs eq_refl Hdist) as (Hinv & Hf & _).
    assert (Hpre : prefix_of (f_bytes (fp_file (do_calls (fp_new h f bs) cs))) (f_bytes f)).
    { exists []. rewrite app_nil_r, Hf. reflexivity. }
    destruct (hashes_error _ _ _ _ _ _ _ Hinv Hpre Hb) as (_ & _ & _ & _ & s & e & _ & _ & Hx).
    split; [destruct Hx as [[-> _]|[-> _]]; cbn; auto|].
    intros [Hpos Hread].
    destruct (c07_positive H h f bs cs Hpos Hdist) as (st2 & r2 & Ht2 & Hiff).
    { left. apply Forall_forall. intros c Hc. apply Forall_forall. intros rg Hr.
      specialize (Hread c rg Hc Hr). unfold readable_range in Hread. lia. }
    assert (E : Some (st', Err x) = Some (st2, r2)).
    { destruct Ht as [n Hn], Ht2 as [m Hm]. rewrite <- (Hn (Nat.max n m) ltac:(lia)).
      rewrite <- (Hm (Nat.max n m) ltac:(lia)). reflexivity. }
    injection E as _ <-. destruct (proj1 Hiff) as (c & rg & Hc & Hr & Hnr).
    { exists x. split; [reflexivity|]. destruct Hx as [[-> _]|[-> _]]; cbn; auto. }
    exact (Hnr (Hread c rg Hc Hr)).
Qed.
