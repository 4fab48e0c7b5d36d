(** Proofs about the fingerprinter API (sequences of calls, results). *)
From Verif Require Import Base Bytes ModelFile ModelFingerprint SpecFingerprint ProofsFingerprint.
From Coq Require Import ZifyBool ZifyNat Sorting.Permutation.

(** ** Dict facts *)

Lemma dict_get_of_list {V} k (l : list (string * V)) :
  dict_get k (dict_of_list l) = dict_get k (rev l).
Proof.
  change (dict_of_list l) with (dict_update [] l). rewrite dict_get_update. cbn.
  now destruct (dict_get k (rev l)).
Qed.

Lemma dict_set_keys {V} k (v : V) d :
  NoDup (map fst d) -> NoDup (map fst (dict_set k v d)) /\
  (forall x, In x (map fst (dict_set k v d)) -> x = k \/ In x (map fst d)).
Proof.
  induction d as [|[k1 v1] d IH]; cbn [dict_set map fst]; intros Hnd.
  - split; [constructor; [intros []|constructor]|]. intros x [<-|[]]; auto.
  - inversion Hnd as [|a l Hnotin Hnd']; subst.
    destruct (String.eqb_spec k k1) as [->|Hne]; cbn [map fst].
    + split; [assumption|]. intros x [<-|Hx]; auto. right; now right.
    + destruct (IH Hnd') as [H1 H2]. split.
      * constructor; [|assumption]. intros Hin. apply H2 in Hin. destruct Hin; congruence.
      * intros x [<-|Hx]; [right; now left|]. destruct (H2 x Hx); auto. right; now right.
Qed.

Lemma dict_of_list_NoDup {V} (l : list (string * V)) : NoDup (map fst (dict_of_list l)).
Proof.
  unfold dict_of_list. assert (H : NoDup (map fst (@nil (string * V)))) by constructor.
  revert H. generalize (@nil (string * V)) as d.
  induction l as [|kv l IH]; intros d Hd; cbn [fold_left]; [assumption|].
  apply IH. now apply dict_set_keys.
Qed.

Lemma dict_get_map_find {A V} (key : A -> string) (val : A -> V) d (l : list A) :
  dict_get d (map (fun a => (key a, val a)) l) =
  option_map val (find (fun a => String.eqb (key a) d) l).
Proof.
  induction l as [|a l IH]; cbn [map dict_get find]; [reflexivity|].
  rewrite String.eqb_sym. destruct (String.eqb (key a) d); [reflexivity|exact IH].
Qed.

Lemma dict_get_names {V} n (names : list string) (val : string -> V) :
  dict_get n (rev (map (fun x => (x, val x)) names)) =
  if in_dec string_dec n names then Some (val n) else None.
Proof.
  rewrite <- map_rev, (dict_get_map_find (fun x => x) val).
  destruct (find _ (rev names)) as [x|] eqn:E.
  - apply find_some in E. destruct E as [Hin Heq]. apply String.eqb_eq in Heq. subst x.
    apply in_rev in Hin. destruct (in_dec string_dec n names); [reflexivity|contradiction].
  - destruct (in_dec string_dec n names) as [Hin|]; [|reflexivity].
    apply in_rev in Hin. eapply find_none in E; [|exact Hin].
    rewrite String.eqb_refl in E. discriminate.
Qed.

(** ** Results *)

Definition inner_of (H : string -> bytes -> bytes) (names : list string) (b : bytes) : dict bytes :=
  dict_of_list (map (fun n => (n, H n b)) names).

Definition expected (H : string -> bytes -> bytes) (data : bytes) (qs : list request)
    : dict (dict bytes) :=
  dict_of_list (map (fun q => (q_desc q, inner_of H (q_names q) (slices data (q_ranges q)))) qs).

Lemma fold_left_map {A B C} (f : A -> B -> A) (g : C -> B) l a :
  fold_left f (map g l) a = fold_left (fun a c => f a (g c)) l a.
Proof. revert a; induction l as [|x l IH]; intros a; cbn; auto. Qed.

Lemma collect_results_ok H h len data qs fgs :
  Forall2 (finger_inv data h) qs fgs ->
  Forall (fun fg => rem h fg = []) fgs ->
  forall acc,
  collect_results H h len fgs acc =
  Ok (fold_left (fun d kv => dict_set (fst kv) (snd kv) d)
        (map (fun q => (q_desc q, inner_of H (q_names q) (slices data (q_ranges q)))) qs) acc) /\
  Forall (fun q => Forall (readable_range (zlen data)) (q_ranges q)) qs.
Proof.
  induction 1 as [|q fg qs fgs Hq Hfs IH]; intros Hall acc.
  - split; [reflexivity|constructor].
  - inversion Hall as [|a l Hrem Hall']; subst.
    destruct Hq as (fed & Hh & Hd & Hp). rewrite Hrem in Hp.
    apply progress_done in Hp. destruct Hp as [Hr ->].
    cbn [collect_results map fold_left fst snd].
    unfold rem in Hrem. rewrite Hrem.
    rewrite Hh, fold_left_map. cbn [hs_name hs_fed].
    destruct (IH Hall' (dict_set (fg_desc fg)
      (fold_left (fun a c => dict_set c (H c (slices data (q_ranges q))) a) (q_names q) []) acc))
      as [IH1 IH2].
    rewrite IH1. split; [|now constructor].
    f_equal. f_equal. rewrite Hd. f_equal. unfold inner_of, dict_of_list.
    now rewrite fold_left_map.
Qed.

Lemma refs_step st st' b :
  wf_refs (fp_heap st) (fp_fingers st) -> hashes_step st = (st', b) ->
  refs (fp_fingers st') = refs (fp_fingers st) /\
  (forall r, ~ In r (refs (fp_fingers st)) -> heap_get (fp_heap st') r = heap_get (fp_heap st) r).
Proof.
  intros Hwf Hstep. pose proof (hashes_step_spec st Hwf) as Hspec. rewrite Hstep in Hspec.
  inversion Hspec; subst; cbn; auto. split; [apply refs_fed|assumption].
Qed.

Lemma loop_refs data qs fuel st st' r :
  inv data qs st -> prefix_of (f_bytes (fp_file st)) data ->
  hashes_loop fuel st = Some (st', r) ->
  refs (fp_fingers st') = refs (fp_fingers st) /\
  (forall i, ~ In i (refs (fp_fingers st)) -> heap_get (fp_heap st') i = heap_get (fp_heap st) i).
Proof.
  revert st. induction fuel as [|fuel IH]; intros st Hinv Hpre Hloop; [discriminate|].
  cbn [hashes_loop] in Hloop. destruct (hashes_step st) as [st1 rb] eqn:Hstep.
  pose proof (inv_refs _ _ _ Hinv) as Hwf.
  pose proof (step_file_bytes st st1 rb Hwf Hstep) as (Hb & _ & _).
  pose proof (refs_step st st1 rb Hwf Hstep) as [Hr1 Hr2].
  destruct rb as [[|]|x]; [|injection Hloop as <- <-; auto|injection Hloop as <- <-; auto].
  destruct (IH st1) as [H1 H2]; auto.
  - eapply inv_step; eauto.
  - now rewrite Hb.
  - split; [congruence|]. intros i Hi. rewrite H2, Hr2; auto. now rewrite Hr1.
Qed.

(** Partial correctness of [hashes]. *)
Lemma hashes_sound H data qs fuel st st' r :
  inv data qs st -> f_bytes (fp_file st) = data ->
  hashes H fuel st = Some (st', Ok r) ->
  r = expected H data qs /\
  Forall (fun q => Forall (readable_range (zlen data)) (q_ranges q)) qs /\
  fp_fingers st' = [] /\ f_bytes (fp_file st') = data /\ fp_block st' = fp_block st /\
  fp_len st' = fp_len st /\
  (forall i, In i (refs (fp_fingers st)) -> heap_get (fp_heap st') i = []) /\
  (forall i, ~ In i (refs (fp_fingers st)) -> heap_get (fp_heap st') i = heap_get (fp_heap st) i).
Proof.
  intros Hinv Hdata Hh. unfold hashes in Hh.
  destruct (hashes_loop fuel st) as [[st1 [[]|x]]|] eqn:Hloop; try discriminate.
  assert (Hpre : prefix_of (f_bytes (fp_file st)) data) by (exists []; rewrite app_nil_r; congruence).
  destruct (loop_inv _ _ _ _ _ _ Hinv Hpre Hloop) as ([_ Hfs] & Hb & Hbl & Hln & Hall).
  destruct (loop_refs _ _ _ _ _ _ Hinv Hpre Hloop) as [Hr1 Hr2].
  destruct (collect_results_ok H (fp_heap st1) (fp_len st1) data qs _ Hfs Hall []) as [Hc Hread].
  rewrite Hc in Hh. injection Hh as <- <-. cbn.
  repeat split; auto; try congruence.
  intros i Hi. rewrite <- Hr1 in Hi. unfold refs in Hi. apply in_map_iff in Hi.
  destruct Hi as (fg & <- & Hfg). rewrite Forall_forall in Hall. exact (Hall fg Hfg).
Qed.

(** The errors [hashes] can end with. *)
Lemma hashes_error H data qs fuel st st' x :
  inv data qs st -> prefix_of (f_bytes (fp_file st)) data ->
  hashes H fuel st = Some (st', Err x) ->
  inv data qs st' /\ fp_block st' = fp_block st /\ fp_len st' = fp_len st /\
  f_bytes (fp_file st') = f_bytes (fp_file st) /\
  exists s e,
    next_interval (fp_heap st') (fp_block st') (fp_fingers st') = Some (mkRange s e) /\
    ~ readable s e (file_len (fp_file st')) /\
    (x = mkExn ValueError "negative seek value" /\ s < 0 \/
     x = mkExn RuntimeError "Short read on file." /\ 0 <= s).
Proof.
  intros Hinv Hpre Hh. unfold hashes in Hh.
  destruct (hashes_loop fuel st) as [[st1 [[]|x1]]|] eqn:Hloop; try discriminate.
  - destruct (loop_inv _ _ _ _ _ _ Hinv Hpre Hloop) as ([_ Hfs] & Hb & Hbl & Hln & Hall).
    destruct (collect_results_ok H (fp_heap st1) (fp_len st1) data qs _ Hfs Hall []) as [Hc Hread].
    rewrite Hc in Hh. discriminate.
  - injection Hh as <- <-.
    destruct (loop_inv _ _ _ _ _ _ Hinv Hpre Hloop) as (Hi & Hb & Hbl & Hln & Hall). auto.
Qed.

Lemma progress_rem_readable data len req rs fed :
  zlen data <= len ->
  Forall (readable_range len) req -> progress data req rs fed ->
  Forall (readable_range len) rs.
Proof.
  intros Hlen Hreq (dn & Hdone & [[-> _]|(s0 & s & e & rest & -> & -> & H0 & H1 & He & _)]).
  - now apply Forall_app in Hreq.
  - apply Forall_app in Hreq. destruct Hreq as [_ Hreq]. inversion Hreq as [|a l Ha Hl]; subst.
    constructor; [|assumption]. unfold readable_range in *; cbn in *. lia.
Qed.

Lemma progress_rem_forward data req rs fed :
  Forall (fun r => r_start r <= r_end r) req -> progress data req rs fed ->
  Forall (fun r => r_start r <= r_end r) rs.
Proof.
  intros Hreq (dn & Hdone & [[-> _]|(s0 & s & e & rest & -> & -> & H0 & H1 & He & _)]).
  - now apply Forall_app in Hreq.
  - apply Forall_app in Hreq. destruct Hreq as [_ Hreq]. inversion Hreq as [|a l Ha Hl]; subst.
    constructor; [|assumption]. cbn. lia.
Qed.

Lemma Forall2_in_r {A B} (P : A -> B -> Prop) l l' b :
  Forall2 P l l' -> In b l' -> exists a, In a l /\ P a b.
Proof.
  induction 1 as [|x y l l' Hxy H IH]; [easy|]. intros [<-|Hb]; [exists x; cbn; auto|].
  destruct (IH Hb) as (a & Ha & Hp). exists a; cbn; auto.
Qed.

Lemma inv_forward data qs st :
  inv data qs st ->
  Forall (fun q => Forall (fun r => r_start r <= r_end r) (q_ranges q)) qs ->
  forward (fp_heap st) (fp_fingers st).
Proof.
  intros [_ Hfs] Hq. apply Forall_forall. intros fg Hfg.
  destruct (Forall2_in_r _ _ _ _ Hfs Hfg) as (q & Hin & fed & _ & _ & Hp).
  rewrite Forall_forall in Hq. exact (progress_rem_forward _ _ _ _ (Hq q Hin) Hp).
Qed.

(** [hashes] terminates when the loop does; the result does not depend on the fuel. *)
Lemma hashes_terminates H st :
  wf_refs (fp_heap st) (fp_fingers st) -> 0 < fp_block st ->
  tame (fp_heap st) (fp_fingers st) ->
  exists a, terminates_with (fun n => hashes H n st) a.
Proof.
  intros Hwf Hbs Ht. destruct (loop_terminates st Hwf Hbs Ht) as (n & [st' r] & Hn).
  destruct (hashes H n st) as [a|] eqn:E.
  - exists a, n. intros m Hm. rewrite <- E. unfold hashes.
    now rewrite Hn, (loop_fuel_mono n m st _ Hm Hn).
  - exfalso. unfold hashes in E. rewrite Hn in E. destruct r as [[]|x]; [|discriminate].
    destruct (collect_results H (fp_heap st') (fp_len st') (fp_fingers st') []); discriminate.
Qed.

(** Total correctness on readable ranges, from any intermediate state. *)
Lemma hashes_complete H data qs st :
  inv data qs st -> f_bytes (fp_file st) = data -> 0 < fp_block st ->
  Forall (fun q => Forall (readable_range (zlen data)) (q_ranges q)) qs ->
  exists st', terminates_with (fun n => hashes H n st) (st', Ok (expected H data qs)).
Proof.
  intros Hinv Hdata Hbs Hread.
  assert (Hfw : forward (fp_heap st) (fp_fingers st)).
  { apply (inv_forward data qs); [assumption|].
    eapply Forall_impl; [|exact Hread]. intros q. apply Forall_impl.
    unfold readable_range; lia. }
  destruct (hashes_terminates H st (inv_refs _ _ _ Hinv) Hbs (or_introl Hfw)) as ([st' r] & n & Hn).
  specialize (Hn n (le_n n)) as Hn'.
  destruct r as [r|x].
  - destruct (hashes_sound _ _ _ _ _ _ _ Hinv Hdata Hn') as (-> & _). exists st', n. exact Hn.
  - exfalso.
    assert (Hpre : prefix_of (f_bytes (fp_file st)) data) by (exists []; rewrite app_nil_r; congruence).
    destruct (hashes_error _ _ _ _ _ _ _ Hinv Hpre Hn')
      as (Hinv' & Hbl & _ & Hb & s & e & Hiv & Hnr & _).
    apply Hnr. clear Hnr. apply next_interval_Some in Hiv. cbn [r_start r_end] in Hiv.
    destruct Hiv as ((fg & r & rs & Hin & Hrem & Hs) & Hfits & Hmin & Hend).
    assert (Hrr : forall fg r rs, In fg (fp_fingers st') -> rem (fp_heap st') fg = r :: rs ->
              readable_range (zlen data) r).
    { intros fg1 r1 rs1 Hin1 Hrem1.
      destruct Hinv' as [_ Hfs].
      destruct (Forall2_in_r _ _ _ _ Hfs Hin1) as (q & Hq & fed & _ & _ & Hp).
      rewrite Forall_forall in Hread. specialize (Hread q Hq).
      pose proof (progress_rem_readable _ _ _ _ _ (Z.le_refl _) Hread Hp) as Hall.
      rewrite Hrem1 in Hall. now inversion Hall. }
    specialize (Hrr fg r rs Hin Hrem) as Hr. unfold readable_range in Hr.
    assert (Hse : s <= e).
    { destruct Hend as [->|[_ (fg1 & r1 & rs1 & Hin1 & Hrem1 & Hend)]]; [lia|].
      specialize (Hrr fg1 r1 rs1 Hin1 Hrem1). specialize (Hmin fg1 r1 rs1 Hin1 Hrem1).
      unfold readable_range in Hrr. lia. }
    rewrite Forall_forall in Hfits. specialize (Hfits fg Hin). rewrite Hrem in Hfits.
    cbn [fits] in Hfits. unfold readable, file_len. rewrite Hb, Hdata. lia.
Qed.

(** ** Sequences of calls *)

Definition req_of (h : heap) (len : Z) (c : call) : request :=
  mkReq (requested h len c) (c_hashers c) (c_desc c).

Lemma heap_get_nth_error h r : (r < length h)%nat -> nth_error h r = Some (heap_get h r).
Proof. intros Hr. unfold heap_get. now apply nth_error_nth'. Qed.

(** A finger that has just been registered. *)
Definition fresh_finger (h : heap) (q : request) (fg : finger) : Prop :=
  fg_hashers fg = map (fun n => mkHasher n []) (q_names q) /\
  fg_desc fg = q_desc q /\ rem h fg = q_ranges q.

Record init_inv (qs : list request) (st : fpst) : Prop := mkInit {
  init_refs : wf_refs (fp_heap st) (fp_fingers st);
  init_fingers : Forall2 (fresh_finger (fp_heap st)) qs (fp_fingers st) }.

Lemma init_inv_inv data qs st : init_inv qs st -> inv data qs st.
Proof.
  intros [H1 H2]. constructor; [assumption|]. clear H1.
  induction H2 as [|q fg qs fgs (Hh & Hd & Hr) _ IH]; constructor; [|exact IH].
  exists []. repeat split; auto. rewrite Hr. apply progress_init.
Qed.

Lemma calls_inv_gen h len cs : forall st qs0 used,
  (exists ext, fp_heap st = h ++ ext) -> fp_len st = len ->
  init_inv qs0 st ->
  (forall i, In i (refs (fp_fingers st)) -> (i < length h)%nat -> In i used) ->
  NoDup (used ++ passed_lists cs) ->
  Forall (fun r => (r < length h)%nat) (passed_lists cs) ->
  let st' := do_calls st cs in
  (exists ext, fp_heap st' = h ++ ext) /\ fp_file st' = fp_file st /\
  fp_block st' = fp_block st /\ fp_len st' = len /\
  init_inv (qs0 ++ map (req_of h len) cs) st' /\
  (forall i, In i (refs (fp_fingers st')) -> (i < length h)%nat ->
     In i (used ++ passed_lists cs)) /\
  (forall i, In i (refs (fp_fingers st)) -> In i (refs (fp_fingers st'))) /\
  (forall i, In i (passed_lists cs) -> heap_get h i <> [] -> In i (refs (fp_fingers st'))).
Proof.
  induction cs as [|c cs IH]; intros st qs0 used Hext Hlen Hinv Hrefs Hnd Hlt.
  - cbn zeta. cbn [do_calls fold_left]. unfold passed_lists. cbn [map flat_map]. rewrite !app_nil_r.
    repeat (split; [solve [assumption|reflexivity|auto]|]). intros i [].
  - cbn zeta. cbn [do_calls fold_left].
    assert (Hpl : passed_lists (c :: cs) = passed_lists [c] ++ passed_lists cs).
    { unfold passed_lists. cbn [flat_map]. now rewrite app_nil_r. }
    rewrite Hpl in Hnd, Hlt.
    assert (Hstep :
      (exists ext, fp_heap (do_call st c) = h ++ ext) /\
      fp_file (do_call st c) = fp_file st /\ fp_block (do_call st c) = fp_block st /\
      fp_len (do_call st c) = len /\
      init_inv (qs0 ++ [req_of h len c]) (do_call st c) /\
      (forall i, In i (refs (fp_fingers (do_call st c))) -> (i < length h)%nat ->
         In i (used ++ passed_lists [c])) /\
      (forall i, In i (refs (fp_fingers st)) -> In i (refs (fp_fingers (do_call st c)))) /\
      (forall i, c_ranges c = Some i -> heap_get h i <> [] ->
         In i (refs (fp_fingers (do_call st c))))).
    { destruct Hext as [ext Hext].
      destruct Hinv as [[Hwf1 Hwf2] Hfs].
      assert (Hfresh : forall (P : requested h len c = [mkRange 0 len]),
        let st1 := mkFp (fp_heap st ++ [[mkRange 0 (fp_len st)]]) (fp_file st) (fp_block st)
               (fp_len st) (fp_fingers st ++ [mkFinger (length (fp_heap st))
               (map (fun n => mkHasher n []) (c_hashers c)) (c_desc c)]) in
        (exists ext, fp_heap st1 = h ++ ext) /\
        fp_file st1 = fp_file st /\ fp_block st1 = fp_block st /\
        fp_len st1 = len /\
        init_inv (qs0 ++ [req_of h len c]) st1 /\
        (forall i, In i (refs (fp_fingers st1)) -> (i < length h)%nat ->
           In i (used ++ passed_lists [c])) /\
        (forall i, In i (refs (fp_fingers st)) -> In i (refs (fp_fingers st1)))).
      { intros P. cbn. repeat split; auto.
        - exists (ext ++ [[mkRange 0 (fp_len st)]]). now rewrite Hext, app_assoc.
        - cbn. unfold refs. rewrite map_app. cbn.
          assert (Hperm : NoDup (length (fp_heap st) :: map fg_ref (fp_fingers st))).
          { constructor; [|assumption]. intros Hin. rewrite Forall_forall in Hwf2.
            specialize (Hwf2 _ Hin). lia. }
          eapply Permutation_NoDup; [|exact Hperm].
          apply Permutation_cons_append.
        - cbn. unfold refs. rewrite map_app. apply Forall_app. split.
          + eapply Forall_impl; [|exact Hwf2]. intros a Ha. cbn in Ha. rewrite app_length; cbn; lia.
          + constructor; [|constructor]. cbn. rewrite app_length; cbn; lia.
        - cbn. apply Forall2_app.
          + assert (Hlt' : forall fg, In fg (fp_fingers st) -> (fg_ref fg < length (fp_heap st))%nat).
            { intros fg Hfg. rewrite Forall_forall in Hwf2. apply Hwf2. now apply in_map. }
            clear - Hfs Hlt'. induction Hfs as [|q fg qs fgs Hq Hfs IH]; constructor.
            * destruct Hq as (H1 & H2 & H3). repeat split; auto.
              unfold rem, heap_get in *. rewrite app_nth1; auto. apply Hlt'; now left.
            * apply IH. intros fg' Hfg'. apply Hlt'. now right.
          + constructor; [|constructor]. unfold req_of. rewrite P.
            repeat split. unfold rem, heap_get. cbn [fg_ref]. rewrite app_nth2, Nat.sub_diag by lia.
            cbn. now rewrite Hlen.
        - intros i Hi Hlti. unfold refs in Hi. rewrite map_app in Hi. apply in_app_or in Hi.
          apply in_or_app.
          destruct Hi as [Hi|[<-|[]]]; [left; apply Hrefs; assumption|].
          cbn in Hlti. rewrite Hext, app_length in Hlti. lia.
        - intros i Hi. unfold refs. rewrite map_app. apply in_or_app. now left. }
      unfold do_call, add_hashers. destruct (c_ranges c) as [r|] eqn:Er.
      - assert (Hr : (r < length h)%nat).
        { rewrite Forall_forall in Hlt. apply Hlt. apply in_or_app. left.
          unfold passed_lists. cbn. rewrite Er. now left. }
        assert (Hget : heap_get (fp_heap st) r = heap_get h r).
        { rewrite Hext. unfold heap_get. now apply app_nth1. }
        destruct (heap_get (fp_heap st) r) as [|x l] eqn:Eh.
        + assert (P : requested h len c = [mkRange 0 len]).
          { unfold requested. rewrite Er, heap_get_nth_error, <- Hget by assumption. reflexivity. }
          specialize (Hfresh P). cbn zeta in Hfresh.
          destruct Hfresh as (F1 & F2 & F3 & F4 & F5 & F6 & F7).
          repeat (split; [assumption|]). intros i Hi Hne. injection Hi as <-. congruence.
        + assert (P : requested h len c = x :: l).
          { unfold requested. rewrite Er, heap_get_nth_error, <- Hget by assumption. reflexivity. }
          assert (Hnew : ~ In r (refs (fp_fingers st))).
          { intros Hin. specialize (Hrefs r Hin Hr).
            unfold passed_lists at 1 in Hnd. cbn in Hnd. rewrite Er in Hnd.
            cbn in Hnd. apply NoDup_remove_2 in Hnd. apply Hnd. apply in_or_app. now left. }
          cbn. repeat split; auto.
          * exists ext. exact Hext.
          * cbn. unfold refs. rewrite map_app. cbn.
            assert (Hperm : NoDup (r :: map fg_ref (fp_fingers st))) by (now constructor).
            eapply Permutation_NoDup; [|exact Hperm].
            apply Permutation_cons_append.
          * cbn. unfold refs. rewrite map_app. apply Forall_app. split; [assumption|].
            constructor; [|constructor]. cbn. rewrite Hext, app_length. lia.
          * cbn. apply Forall2_app; [assumption|].
            constructor; [|constructor]. unfold req_of. rewrite P. now repeat split.
          * intros i Hi Hlti. unfold refs in Hi. rewrite map_app in Hi. apply in_app_or in Hi.
            apply in_or_app.
            destruct Hi as [Hi|[<-|[]]]; [left; apply Hrefs; assumption|].
            right. unfold passed_lists. cbn. rewrite Er. now left.
          * intros i Hi. unfold refs. rewrite map_app. apply in_or_app. now left.
          * intros i Hi Hne. injection Hi as <-. unfold refs. rewrite map_app.
            apply in_or_app. right. now left.
      - assert (P : requested h len c = [mkRange 0 len]).
        { unfold requested. now rewrite Er. }
        specialize (Hfresh P). cbn zeta in Hfresh.
        destruct Hfresh as (F1 & F2 & F3 & F4 & F5 & F6 & F7).
        repeat (split; [assumption|]). intros i Hi. discriminate. }
    destruct Hstep as (S1 & S2 & S3 & S4 & S5 & S6 & S7 & S8).
    rewrite app_assoc in Hnd. apply Forall_app in Hlt. destruct Hlt as [Hlt1 Hlt2].
    destruct (IH (do_call st c) (qs0 ++ [req_of h len c]) (used ++ passed_lists [c])
                S1 S4 S5 S6 Hnd Hlt2)
      as (I1 & I2 & I3 & I4 & I5 & I6 & I7 & I8).
    rewrite <- app_assoc in I5. rewrite <- app_assoc in I6. rewrite <- Hpl in I6.
    change (fold_left do_call cs (do_call st c)) with (do_calls (do_call st c) cs).
    repeat (split; [solve [assumption|congruence|auto]|]).
    intros i Hi Hne. unfold passed_lists in Hi. cbn in Hi. apply in_app_or in Hi.
    destruct Hi as [Hi|Hi]; [|now apply I8].
    apply I7, S8; [|assumption]. destruct (c_ranges c); [|destruct Hi].
    destruct Hi as [<-|[]]. reflexivity.
Qed.

Lemma calls_init st cs :
  fp_fingers st = [] -> distinct_lists (fp_heap st) cs ->
  let st' := do_calls st cs in
  init_inv (map (req_of (fp_heap st) (fp_len st)) cs) st' /\
  fp_file st' = fp_file st /\ fp_block st' = fp_block st /\ fp_len st' = fp_len st /\
  (exists ext, fp_heap st' = fp_heap st ++ ext) /\
  (forall i, In i (refs (fp_fingers st')) -> (i < length (fp_heap st))%nat ->
     In i (passed_lists cs)) /\
  (forall i, In i (passed_lists cs) -> heap_get (fp_heap st) i <> [] ->
     In i (refs (fp_fingers st'))).
Proof.
  intros Hnil Hdist.
  destruct Hdist as [Hnd Hlt].
  destruct (calls_inv_gen (fp_heap st) (fp_len st) cs st [] []) as
    (I1 & I2 & I3 & I4 & I5 & I6 & I7 & I8); auto.
  - exists []. now rewrite app_nil_r.
  - constructor; rewrite Hnil; cbn; [|constructor]. split; constructor.
  - rewrite Hnil. intros i [].
  - cbn zeta. repeat (split; [assumption|]). assumption.
Qed.

Lemma calls_inv data st cs :
  fp_fingers st = [] -> distinct_lists (fp_heap st) cs ->
  let st' := do_calls st cs in
  inv data (map (req_of (fp_heap st) (fp_len st)) cs) st' /\
  fp_file st' = fp_file st /\ fp_block st' = fp_block st /\ fp_len st' = fp_len st /\
  (exists ext, fp_heap st' = fp_heap st ++ ext) /\
  (forall i, In i (refs (fp_fingers st')) -> (i < length (fp_heap st))%nat ->
     In i (passed_lists cs)) /\
  (forall i, In i (passed_lists cs) -> heap_get (fp_heap st) i <> [] ->
     In i (refs (fp_fingers st'))).
Proof.
  intros Hnil Hdist. destruct (calls_init st cs Hnil Hdist) as [Hi Hrest].
  split; [now apply init_inv_inv|exact Hrest].
Qed.

Lemma expected_results_are H data h len cs :
  results_are H (fun c => slices data (requested h len c)) cs
    (expected H data (map (req_of h len) cs)).
Proof.
  split; [apply dict_of_list_NoDup|]. intros d. unfold expected.
  rewrite dict_get_of_list, map_map, <- map_rev. cbn [req_of q_desc q_names q_ranges].
  rewrite (dict_get_map_find c_desc
    (fun c => inner_of H (c_hashers c) (slices data (requested h len c)))).
  unfold last_call. destruct (find _ (rev cs)) as [c|]; cbn [option_map]; [|reflexivity].
  eexists. split; [reflexivity|]. split; [apply dict_of_list_NoDup|].
  intros n. unfold inner_of. rewrite dict_get_of_list.
  apply (dict_get_names n (c_hashers c) (fun x => H x (slices data (requested h len c)))).
Qed.
