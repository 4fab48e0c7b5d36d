(** Proofs about names that are decoded on demand during verification, continued: what is accepted. *)
From Verif Require Import Base Monad ModelFile ModelFingerprint SpecFingerprint SpecPE ProofsFingerprint ProofsPE ProofsPE2 ProofsPE3 ModelPE ModelX509 SpecX509 ProofsX509 ModelContext SpecContext
  ProofsContext ProofsContext2 ModelPkcs7 ModelAuthenticode SpecAuthenticode ProofsSigner ProofsSigner2 ProofsVerify ProofsVerify2
  ProofsVerify3 ProofsVerify4 ProofsVerify5 SpecSignedPE ProofsSignedPE ProofsSignedPE2 ProofsSignedPE3 ProofsWhole2 SpecComplete ProofsComplete2 SpecFrame ProofsFrame
  SpecExact ProofsExact ProofsExact2 ModelName ModelDemand SpecDemand ProofsDemand ProofsDemand3.
From Verif Require SpecName ProofsName ProofsDemand2.

Lemma legible_foreign U : all_legible U -> foreign_names U.
Proof.
  intros [L1 L2]. assert (forall n, SpecName.sound n -> raises_foreign n) as G.
  { intros n (m & l & -> & R). split; [discriminate|]. intros l' r e K Hin Hf. injection K as <-. exfalso.
    apply ProofsName.forall2_map in R. revert Hin. induction R as [|x y l l' Rx R IH]; [intros []|]. intros [->|Hin]; [|auto].
    exact (ProofsName.reads_fails _ _ _ Rx Hf). }
  split; [|auto]. intros c. destruct (L1 c). auto.
Qed.
Lemma legible_none U e : all_legible U -> undecodable U e -> False.
Proof.
  intros [L1 L2] [[c [B|[B|[B _]]]]|[i B]].
  - exact (ProofsName.sound_broken _ _ (proj1 (L1 c)) B).
  - exact (ProofsName.sound_broken _ _ (proj2 (L1 c)) B).
  - exact (B (proj2 (L1 c))).
  - exact (ProofsName.sound_broken _ _ (L2 i) B).
Qed.

Definition anything (w : world) : Prop := True.

Lemma signer_demand E U auth i x t w : faithful U -> foreign_names U ->
  nd_signer_verify E U auth i x t w = signer_verify E auth i x t w \/
  exists w' e, nd_signer_verify E U auth i x t w = (w', Err e) /\ undecodable U e.
Proof.
  intros F N.
  destruct (ProofsDemand2.meq_signer E U False F N (fun h => False_ind _ h) anything x
    (fun _ _ _ => I) (fun _ _ _ => I) auth i t (fun h => False_ind _ h) w) as [[K _]|(w' & e & K & [B _] & _)].
  - split; [exact I|intros []].
  - now left.
  - right. exists w', e. auto.
Qed.

Lemma asd_demand E U fuel a expected v w : faithful U -> foreign_names U ->
  nd_asd_verify E U fuel a expected v w = asd_verify E fuel a expected v w \/
  (exists w' e, nd_asd_verify E U fuel a expected v w = (w', Err e) /\ undecodable U e) \/
  (va_mode v = "strict" /\ (exists c, asi_cs (asd_signer a) = Some c) /\ (exists e, undecodable U e) /\
   exists w', nd_asd_verify E U fuel a expected v w = (w', Err counter_error)) \/
  exists x w2, disregarded E U a v fuel expected w x w2 /\
    nd_asd_verify E U fuel a expected v w = nd_signer_verify E U true (asi_info (asd_signer a)) x None w2.
Proof.
  intros F N.
  destruct (asd_cases E U False F N (fun h => False_ind _ h) anything
    (fun _ _ _ => I) (fun _ _ _ _ => I) (fun _ _ _ => I) (fun _ _ _ => I) (fun _ _ _ _ => I) fuel a expected v w (fun h => False_ind _ h))
    as [[[K _]|(w' & e & K & [B _] & _)]|[(_ & M & C & B & w' & K & _)|(_ & x & w2 & D & K & _)]].
  - split; [exact I|intros []].
  - now left.
  - right. left. exists w', e. auto.
  - right. right. left. eauto.
  - right. right. right. eauto.
Qed.

(** ** Everything can be decoded *)

Theorem decoded_asd E U fuel a expected v w : faithful U -> all_legible U ->
  nd_asd_verify E U fuel a expected v w = asd_verify E fuel a expected v w.
Proof.
  intros F L. pose proof (legible_foreign U L) as N. assert (forall e, ~ undecodable U e) as B by (intros e Hu; exact (legible_none U e L Hu)).
  destruct (asd_demand E U fuel a expected v w F N) as [K|[(w' & e & _ & K)|[(_ & _ & (e & K) & _)|(x & w2 & (_ & y & c & w0 & w1 & e & _ & _ & _ & _ & K) & _)]]];
    [exact K| | |]; now elim (B e).
Qed.

Lemma loop_ext {A B} mode (f g : A -> M world B) l ch last w :
  (forall a w', In a l -> f a w' = g a w') -> verify_loop mode f l ch last w = verify_loop mode g l ch last w.
Proof.
  revert ch last w. induction l as [|a l IH]; intros ch last w K; [reflexivity|]. cbn [verify_loop]. rewrite (K a w (or_introl eq_refl)).
  assert (forall b w', In b l -> f b w' = g b w') as K' by (intros b w' Hb; apply K; now right).
  destruct (g a w) as [w' [r|e]]; destruct (every mode); auto. destruct (catches Exception_ e); auto.
Qed.

Theorem decoded_file load E U depth fuel mode expected ign v w : faithful U -> all_legible U ->
  nd_pe_open_verify load E U depth fuel mode expected ign v w = pe_open_verify load E depth fuel mode expected ign v w.
Proof.
  intros F L. unfold nd_pe_open_verify, pe_open_verify. destruct (signed_pe_init (w_file w)) as [f' flen].
  unfold nd_pe_verify, pe_verify. destruct (mbind (signed_datas load depth ign fuel flen) _ _) as [w1 [l|e]]; [|reflexivity].
  destruct (calculate_expected_hashes _ _ _ _ _) as [w2 [hashes|e]]; [|reflexivity].
  rewrite (loop_ext mode (nd_verify_one E U fuel hashes v) (verify_one E fuel hashes v)); [reflexivity|].
  intros a w' _. unfold nd_verify_one, verify_one. destruct (dict_get _ _); [now apply decoded_asd|reflexivity].
Qed.

(** ** Names that do not matter *)

Section harmless.
Context (E : env) (U : names) (F : faithful U) (N : foreign_names U) (HR : rooted E).

Lemma harmless_keep fuel a expected v w : legible_signature U a -> legible_trust U w ->
  nd_asd_verify E U fuel a expected v w = asd_verify E fuel a expected v w /\
  legible_trust U (fst (asd_verify E fuel a expected v w)).
Proof.
  intros La Lw.
  destruct (asd_cases E U True F N (fun _ => HR) anything
    (fun _ _ _ => I) (fun _ _ _ _ => I) (fun _ _ _ => I) (fun _ _ _ => I) (fun _ _ _ _ => I) fuel a expected v w (fun _ => La))
    as [[[K [_ L]]|(w' & e & K & [_ B] & _)]|[(B & _)|(B & _)]].
  - split; [exact I|now intros _].
  - split; [exact K|exact (L I)].
  - now elim B.
  - now elim B.
  - now elim B.
Qed.
Lemma harmless_loop mode fuel hashes v l : (forall a, In a l -> legible_signature U a) -> forall ch last w, legible_trust U w ->
  verify_loop mode (nd_verify_one E U fuel hashes v) l ch last w = verify_loop mode (verify_one E fuel hashes v) l ch last w.
Proof.
  induction l as [|a l IH]; intros Hl ch last w Lw; [reflexivity|]. cbn [verify_loop].
  assert (nd_verify_one E U fuel hashes v a w = verify_one E fuel hashes v a w /\ legible_trust U (fst (verify_one E fuel hashes v a w))) as [-> L].
  { unfold nd_verify_one, verify_one. destruct (dict_get _ _) as [h|]; [|split; [reflexivity|exact Lw]].
    apply harmless_keep; [apply Hl; now left|exact Lw]. }
  assert (forall b, In b l -> legible_signature U b) as Hl' by (intros b Hb; apply Hl; now right).
  destruct (verify_one E fuel hashes v a w) as [w' [r|e]]; cbn [fst] in L; destruct (every mode); auto.
  destruct (catches Exception_ e); auto.
Qed.

Theorem harmless_file load depth fuel mode expected ign v w :
  legible_trust U w ->
  (forall l a, iterate load depth true ign fuel (w_file w) = Some (l, None) -> In a l -> legible_signature U a) ->
  nd_pe_open_verify load E U depth fuel mode expected ign v w = pe_open_verify load E depth fuel mode expected ign v w.
Proof.
  intros Lw Hl. unfold nd_pe_open_verify, pe_open_verify. unfold iterate in Hl. destruct (signed_pe_init (w_file w)) as [f' flen].
  unfold nd_pe_verify, pe_verify, signed_datas, mbind. cbn [w_file w_stores w_contexts].
  destruct (iter_signed_datas load depth true ign fuel flen f') as [[f1 [l [e|]]]|]; try reflexivity.
  destruct l as [|a0 l0]; [reflexivity|]. unfold mres. destruct (select_signed_datas mode (a0 :: l0)) as [sel|e] eqn:Es; [|reflexivity].
  match goal with |- context [calculate_expected_hashes E fuel sel ?d ?w1] =>
    pose proof (calculate_objects E fuel sel d w1) as O; destruct (calculate_expected_hashes E fuel sel d w1) as [w2 [hashes|e]] end; [|reflexivity].
  rewrite harmless_loop; [reflexivity| |].
  - intros a Ha. apply (Hl (a0 :: l0)); [reflexivity|]. eapply select_incl; eassumption.
  - cbn [fst] in O. unfold legible_trust. rewrite (proj1 O). exact Lw.
Qed.
End harmless.

(** ** What is accepted *)

Lemma load_views r w : views w (fst (store_load r w)) /\ w_contexts (fst (store_load r w)) = w_contexts w.
Proof.
  destruct (nth_error (w_stores w) r) as [s|] eqn:Er.
  - rewrite (store_load_spec _ _ _ Er). cbn [fst]. pose proof (advance_loaded w r s Er) as A.
    apply advance_views in A as [A1 A2]. split; [exact A2|exact A1].
  - unfold store_load, mbind, get_store. rewrite Er. cbn [fst]. split; [apply views_refl|reflexivity].
Qed.

(** Whatever the check of a countersignature does to its context, the others keep what they are. *)
Lemma check_elsewhere E U a c y w w2 r : faithful U -> foreign_names U -> nd_check_countersigner E U a c y w = (w2, r) ->
  views w w2 /\ forall k, k <> y -> nth_error (w_contexts w2) k = nth_error (w_contexts w) k.
Proof.
  intros F N K.
  destruct (meq_check E U False F N (fun h => False_ind _ h)
    (fun u => views w u /\ forall k, k <> y -> nth_error (w_contexts u) k = nth_error (w_contexts w) k) y) with (a := a) (c := c) (tr := O) (w := w)
    as [[R [J _]]|(w' & e & R & _ & [J _])].
  - intros q u [V C]. destruct (load_views q u) as [V' C']. split; [eapply views_trans; eassumption|]. now rewrite C'.
  - intros k u [V C]. split; [exact V|]. cbn [put_context fst w_contexts]. intros j Hj. rewrite nth_list_set.
    destruct (Nat.eqb_spec y j); [congruence|]. now apply C.
  - intros [].
  - split; [split; [apply views_refl|reflexivity]|intros []].
  - rewrite <- R, K in J. exact J.
  - rewrite K in R. injection R as -> _. exact J.
Qed.

Lemma alone_usable w v a : usable w v a -> usable w v (with_cs None a).
Proof.
  intros [(cx & l & S & R) _]. split.
  - exists cx, l. split; [now apply signer_context_cs|exact R].
  - intros c K. now elim (considered_none a v c).
Qed.

Lemma verdict_demand E U fuel a h v w0 w : faithful U -> foreign_names U -> similar v w0 w -> tidy w0 v a ->
  outcome_demand U v a (snd (asd_verify E fuel a (Some h) v w0)) (snd (asd_verify E fuel (with_cs None a) (Some h) v w0))
    (snd (nd_asd_verify E U fuel a (Some h) v w)).
Proof.
  intros F N Sim T. destruct (asd_demand E U fuel a (Some h) v w F N) as [K'|[(w1 & e & K' & Un)|[(M & C & Un & w1 & K')|
    (x & w2 & ((M1 & M2) & y & c & w3 & w4 & e & P & D & C & B & Un) & K')]]].
  - rewrite K'. left. destruct (verdict_similar E fuel v w0 w a (Some h) Sim (tidy_usable _ _ _ T)) as [Q|[Q _]]; [|now rewrite Q|discriminate].
    intros c0 _. apply T.
  - rewrite K'. right. left. exists e. auto.
  - rewrite K'. right. right. left. split; [exact M|]. split; [|split; [exact Un|eexists; split; reflexivity]].
    destruct C as [c C]. exists c. split; [exact C|]. rewrite M. discriminate.
  - rewrite K'. destruct (signer_demand E U true (asi_info (asd_signer a)) x None w2 F N) as [Q|(w5 & e5 & Q & Un5)]; rewrite Q;
      [|right; left; exists e5; auto].
    right. right. right. split; [split; assumption|]. assert (considered a v c) as Kc by now split.
    split; [now exists c|]. split; [now exists e|].
    assert (snd (asd_verify E fuel (with_cs None a) (Some h) v w) = snd (signer_verify E true (asi_info (asd_signer a)) x None w2)) as Kw.
    { destruct T as (Di & (cx & l & S & R) & Ct). destruct (Ct c Kc) as (cy & ly & Sy & Ry).
      destruct (signer_similar _ _ _ _ _ _ Sim S) as (cx' & l' & S' & V & _).
      destruct (counter_similar _ _ _ _ _ _ _ Sim Sy) as (cy' & ly' & Sy' & Vy & _).
      assert (Forall readable l') as R' by (eapply same_view_readable; [exact V|apply R]).
      destruct (kwargs_cases a v w) as [[Kw _]|(_ & w5 & e5 & Q5 & _)]; [|congruence].
      destruct (absent_pure E fuel a (Some h) v w cx' l' S' R' Di Kw) as (w5 & x5 & y5 & P5 & ->).
      rewrite P in P5. injection P5 as <- <- <-. rewrite D. cbn [snd rbind]. unfold p_result. cbn [rbind].
      destruct (prepare_signer _ _ _ _ _ _ _ _ P S') as [Hx Hr].
      destruct (prepare_counter _ _ _ _ _ _ _ _ _ P Kc Sy') as (y0 & Ey & _ & _ & Hne). injection Ey as <-.
      specialize (Hne cx' l' S' Di). destruct (check_digests_objects _ _ _ _ _ _ _ D) as (D1 & D2 & D3).
      destruct (check_elsewhere _ _ _ _ _ _ _ _ F N B) as [Vb Cb].
      assert (refs w4 (x_stores cx') l') as Hr4 by (unfold refs; now rewrite D1).
      destruct (views_refs _ _ _ _ Vb Hr4) as (l2 & Hr2 & V2).
      destruct (signer_verify_pure E true (asi_info (asd_signer a)) x None w2 cx' l2) as (w6 & _ & ->).
      - rewrite Cb by congruence. now rewrite D2.
      - exact Hr2.
      - eapply same_view_readable; eassumption.
      - now rewrite (p_signer_view E true _ None l' l2 cx' V2). }
    destruct (verdict_similar E fuel v w0 w (with_cs None a) (Some h) Sim (alone_usable _ _ _ (tidy_usable _ _ _ T))) as [R|[R _]]; [|congruence|discriminate].
    intros c0 _. apply T.
Qed.

Lemma accepts_demand E U fuel a h v w0 w w' chains : faithful U -> foreign_names U -> similar v w0 w -> tidy w0 v a ->
  nd_asd_verify E U fuel a (Some h) v w = (w', Ok chains) ->
  snd (asd_verify E fuel a (Some h) v w0) = Ok chains \/
  (permissive (va_mode v) /\ (exists c, considered a v c) /\ (exists e, undecodable U e) /\
   snd (asd_verify E fuel (with_cs None a) (Some h) v w0) = Ok chains).
Proof.
  intros F N Sim T K. pose proof (verdict_demand E U fuel a h v w0 w F N Sim T) as Q. rewrite K in Q. cbn [snd] in Q.
  destruct Q as [Q|[(e & Q & _)|[(_ & _ & _ & e & Q & _)|(M & C & Un & Q)]]]; try discriminate Q; [now left|right; auto].
Qed.

Lemma tidy_alone w v a : tidy w v a -> tidy w v (with_cs None a).
Proof.
  intros (D & (cx & l & S & R) & _). split; [exact D|]. split.
  - exists cx, l. split; [now apply signer_context_cs|exact R].
  - intros c K. now elim (considered_none a v c).
Qed.

Theorem accepted_asd E U fuel a h v w w' chains : lawful E -> faithful U -> foreign_names U -> tidy w v a ->
  nd_asd_verify E U fuel a (Some h) v w = (w', Ok chains) -> vouched U v a (fun b => authentic E w v b h chains).
Proof.
  intros Lw F N T K. destruct (accepts_demand E U fuel a h v w w w' chains F N (similar_refl v w) T K) as [Q|(M & C & B & Q)].
  - left. now apply (c64_exact E fuel a h v w chains Lw T).
  - right. split; [exact M|]. split; [exact C|]. split; [exact B|]. now apply (c64_exact E fuel _ h v w chains Lw (tidy_alone _ _ _ T)).
Qed.

Lemma demand_grows E U fuel a expected v w0 w : faithful U -> foreign_names U -> grows w0 w ->
  grows w0 (fst (nd_asd_verify E U fuel a expected v w)).
Proof.
  intros F N G.
  destruct (asd_cases E U False F N (fun h => False_ind _ h) (grows w0)) with (fuel := fuel) (a := a)
    (expected := expected) (v := v) (w := w) as [[[-> [K _]]|(w' & e & -> & _ & [K _])]|[(_ & _ & _ & _ & w' & -> & [K _])|(_ & x & w2 & _ & _ & [[-> [K _]]|(w' & e & -> & _ & [K _])])]]; try exact K.
  - intros r u K. eapply grows_trans; [exact K|]. apply views_grows, load_views.
  - intros x c u K. exact K.
  - intros s u K. eapply grows_trans; [exact K|]. now apply grows_alloc.
  - intros c u K. exact K.
  - intros u u' S K. eapply grows_trans; [exact K|]. now apply same_objects_grows.
  - intros [].
  - split; [exact G|intros []].
Qed.

Section file.
Context (load : loader) (E : env) (U : names) (depth : nat) (mode : string) (expected : option (dict bytes)) (ign : bool)
  (v : vargs) (w : world).
Hypothesis Lw : lawful E.
Hypothesis F : faithful U.
Hypothesis N : foreign_names U.
Hypothesis D : default_contexts v.
Hypothesis Ti : forall l, terminates_with (fun k => iterate load depth true ign k (w_file w)) (l, None) -> forall a, In a l -> tidy w v a.

Lemma grows_similar w1 : grows w w1 -> similar v w w1.
Proof. intros G. destruct D as [D1 D2]. split; [exact G|]. rewrite D1, D2. split; discriminate. Qed.

Notation for_file a chains := (vouched U v a (fun b => authentic_for E w v expected b chains)).

Lemma demand_loop fuel hashes sel :
  (forall a w1 w2 chains, In a sel -> grows w w1 -> nd_verify_one E U fuel hashes v a w1 = (w2, Ok chains) ->
     for_file a chains) ->
  forall ch last w1 w2 out, grows w w1 ->
  verify_loop mode (nd_verify_one E U fuel hashes v) sel ch last w1 = (w2, Ok out) ->
  (every mode = true -> exists more, out = ch ++ more /\ Forall2 (fun a ac => fst ac = a /\ for_file a (snd ac)) sel more) /\
  (every mode = false -> out = ch \/ exists pre a post chains, sel = pre ++ a :: post /\ out = [(a, chains)] /\ for_file a chains).
Proof.
  induction sel as [|a sel IH]; intros One ch last w1 w2 out G K; cbn [verify_loop] in K.
  - destruct last as [e|]; [discriminate|]. unfold mret in K. injection K as _ <-. split.
    + intros _. exists []. split; [now rewrite app_nil_r|constructor].
    + now left.
  - assert (grows w (fst (nd_verify_one E U fuel hashes v a w1))) as G'.
    { unfold nd_verify_one. destruct (dict_get _ _); [now apply demand_grows|exact G]. }
    specialize (One a w1) as One1. destruct (nd_verify_one E U fuel hashes v a w1) as [w3 [chains|e]]; cbn [fst] in G'.
    + specialize (One1 w3 chains (or_introl eq_refl) G eq_refl). destruct (every mode) eqn:Em.
      * destruct (IH (fun b u1 u2 c Hb => One b u1 u2 c (or_intror Hb)) _ _ _ _ _ G' K) as [IH1 _]. split; [|discriminate].
        intros _. destruct (IH1 eq_refl) as (more & -> & R). exists ((a, chains) :: more). split; [now rewrite <- app_assoc|].
        constructor; [split; [reflexivity|exact One1]|exact R].
      * injection K as <- <-. split; [discriminate|]. intros _. right. exists [], a, sel, chains. auto.
    + destruct (catches Exception_ e); [|discriminate]. destruct (every mode) eqn:Em; [discriminate|].
      destruct (IH (fun b u1 u2 c Hb => One b u1 u2 c (or_intror Hb)) _ _ _ _ _ G' K) as [_ IH1]. split; [discriminate|].
      intros _. destruct (IH1 eq_refl) as [->|(pre & b & post & c & -> & R)]; [now left|]. right. exists (a :: pre), b, post, c. auto.
Qed.

Theorem accepted_file fuel w' d' out :
  nd_pe_open_verify load E U depth fuel mode expected ign v w = (w', d', Ok out) ->
  exists l, terminates_with (fun k => iterate load depth true ign k (w_file w)) (l, None) /\ l <> [] /\
    known_names E expected /\ vouched_file E U w v expected mode l out.
Proof.
  intros K. unfold nd_pe_open_verify in K.
  pose proof (fun l Q => iterate_mono load depth true ign (w_file w) fuel l Q) as Mono.
  assert (forall f' flen, signed_pe_init (w_file w) = (f', flen) -> f_bytes f' = f_bytes (w_file w)) as Bt.
  { intros f' flen. rewrite signed_pe_init_eq. now intros [= <- _]. }
  assert (forall f' flen f1 r, signed_pe_init (w_file w) = (f', flen) -> iter_signed_datas load depth true ign fuel flen f' = Some (f1, r) ->
    iterate load depth true ign fuel (w_file w) = Some r /\ f_bytes f1 = f_bytes (w_file w)) as It.
  { intros f' flen f1 r Q1 Q2. split; [unfold iterate; now rewrite Q1, Q2|]. rewrite <- (Bt _ _ Q1).
    unfold iter_signed_datas in Q2. destruct (iter_loop _ _ _ _ _ _ _ _) as [[f2 [l2 x2]]|] eqn:El; [|discriminate].
    pose proof (loop_bytes _ _ _ _ _ _ _ _ _ _ El) as Q3. destruct x2; [destruct (_ && _)|]; injection Q2 as <- _; exact Q3. }
  destruct (signed_pe_init (w_file w)) as [f' flen]. specialize (It f' flen).
  unfold nd_pe_verify, signed_datas, mbind in K. cbn [w_file w_stores w_contexts] in K.
  destruct (iter_signed_datas load depth true ign fuel flen f') as [[f1 [l [e|]]]|]; try discriminate K.
  destruct (It f1 (l, None) eq_refl eq_refl) as [Hi Hb]. clear It Bt.
  destruct l as [|a0 l0]; [discriminate K|]. unfold mres in K. set (l := a0 :: l0) in *. exists l.
  assert (terminates_with (fun k => iterate load depth true ign k (w_file w)) (l, None)) as Tm.
  { exists fuel. intros k Hk. exact (Mono k _ Hk Hi). }
  assert (l <> []) as NE by discriminate.
  split; [exact Tm|]. split; [exact NE|].
  destruct (select_signed_datas mode l) as [sel|e] eqn:Es; [|discriminate K].
  destruct (select_spec mode l NE) as (sel' & Es' & Hc & Hn & Hin).
  { intros a Ha. now apply (table_accepted _ _ _ _ _ _ _ Tm Ha). }
  rewrite Es in Es'. injection Es' as <-.
  destruct (table_ok _ _ _ _ _ _ _ Tm (or_introl eq_refl : In a0 l)) as [_ (secs & Hs)].
  change (match expected with Some d => d | None => [] end) with (supplied_dict expected) in K.
  set (w1 := mkWorld (w_stores w) (w_contexts w) f1) in *.
  assert (Kn : known_names E expected).
  { destruct (provided_hashes E (map fst (supplied_dict expected))) as [ks|e] eqn:Ep.
    - intros d k h -> Hk. apply (provided_known _ _ _ Ep). cbn [supplied_dict]. change k with (fst (k, h)). now apply in_map.
    - exfalso. unfold calculate_expected_hashes in K. cbv zeta in K. rewrite Ep in K. discriminate K. }
  split; [exact Kn|].
  assert (Kd : forall k h, In (k, h) (supplied_dict expected) -> e_hashlib_has E k = true).
  { intros k h Q. destruct expected as [d|]; [|destruct Q]. eapply Kn; [reflexivity|exact Q]. }
  assert (S1 : same_objects w w1) by (repeat split; exact Hb).
  assert (Hs1 : snd (omit_sections (mkFile (f_bytes (w_file w1)) 0)) = Ok (Some secs)).
  { destruct S1 as (_ & _ & ->). exact Hs. }
  destruct (calculate_spec E secs sel (supplied_dict expected) w1 Hs1 Kd) as [Hcal _].
  destruct (calculate_expected_hashes E fuel sel (supplied_dict expected) w1) as [w2 rh] eqn:Ec.
  destruct (Hcal fuel w2 rh Ec) as (S2 & [->|(hashes & -> & Hcomp & _)]); [discriminate K|].
  assert (Hb1 : f_bytes (w_file w1) = f_bytes (w_file w)) by (destruct S1 as (_ & _ & ->); reflexivity). rewrite Hb1 in Hcomp.
  destruct (verify_loop mode (nd_verify_one E U fuel hashes v) sel [] None w2) as [w3 r3] eqn:El. injection K as _ _ ->.
  assert (G2 : grows w w2) by (apply same_objects_grows; eapply same_objects_trans; eassumption).
  assert (One : forall a u1 u2 chains, In a sel -> grows w u1 -> nd_verify_one E U fuel hashes v a u1 = (u2, Ok chains) -> for_file a chains).
  { intros a u1 u2 chains Ha G Q. unfold nd_verify_one in Q. change (sd_digest_alg (asd_data a)) with (digest_of a) in Q.
    destruct (dict_get (digest_of a) hashes) as [h|] eqn:Eh; [|discriminate].
    assert (Du : due E (f_bytes (w_file w)) expected (digest_of a) h).
    { rewrite Hcomp in Eh. unfold due. rewrite supplied_get. destruct (dict_get (digest_of a) (supplied_dict expected)); [now injection Eh|].
      rewrite (in_dec_names _ (fun alg => e_hash E alg _)) in Eh by now apply in_map. injection Eh as <-. exists secs. auto. }
    pose proof (Ti l Tm a (Hin a Ha)) as Ta.
    destruct (accepts_demand E U fuel a h v w u1 u2 chains F N (grows_similar u1 G) Ta Q) as [R|(M & C & B & R)].
    - left. exists h. split; [exact Du|]. now apply (c64_exact E fuel a h v w chains Lw Ta).
    - right. split; [exact M|]. split; [exact C|]. split; [exact B|]. exists h. split; [unfold digest_of; rewrite with_cs_data; exact Du|].
      now apply (c64_exact E fuel _ h v w chains Lw (tidy_alone _ _ _ Ta)). }
  destruct (demand_loop fuel hashes sel One [] None w2 w3 out G2 El) as [L1 L2].
  exists sel. split; [exact Hc|]. split.
  - intros Cj. destruct (L1 (proj2 (conj_mode_spec mode) Cj)) as (more & -> & R). exact R.
  - intros Cj. destruct (every mode) eqn:Em; [now elim Cj; apply conj_mode_spec|]. destruct (L2 eq_refl) as [->|R]; [|exact R].
    exfalso. clear - El Em Hn. destruct sel as [|a sel]; [now elim Hn|]. cbn [verify_loop] in El.
    assert (forall s ch e u, exists u' r', verify_loop mode (nd_verify_one E U fuel hashes v) s ch (Some e) u = (u', r') /\ r' <> Ok []) as G.
    { induction s as [|b s IH]; intros ch e u; cbn [verify_loop]; [do 2 eexists; split; [reflexivity|discriminate]|].
      destruct (nd_verify_one E U fuel hashes v b u) as [u' [c|e']]; rewrite Em; [do 2 eexists; split; [reflexivity|discriminate]|].
      destruct (catches Exception_ e'); [apply IH|do 2 eexists; split; [reflexivity|discriminate]]. }
    destruct (nd_verify_one E U fuel hashes v a w2) as [u' [c|e']]; rewrite Em in El; [discriminate|].
    destruct (catches Exception_ e'); [|discriminate]. destruct (G sel [] e' u') as (u2 & r2 & Q1 & Q2). rewrite Q1 in El.
    now injection El as _ ->.
Qed.
End file.
