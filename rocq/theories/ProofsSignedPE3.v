(** End-to-end soundness, and the classification of outcomes. *)
From Verif Require Import Base Bytes Monad ModelFile ModelFingerprint SpecFingerprint ProofsFingerprint ProofsFingerprint2 ProofsFingerprint3
  ModelPE SpecPE ProofsPE ProofsPE2 ProofsPE3 ModelX509 SpecX509 ProofsX509 ProofsX509b
  ModelContext SpecContext ProofsCTL ProofsContext ProofsContext2 ModelPkcs7 SpecPkcs7 ProofsPkcs7 ProofsPkcs7b
  ModelAuthenticode SpecAuthenticode ProofsSigner ProofsSigner2 ProofsVerify ProofsVerify2 ProofsVerify3 ProofsVerify4 ProofsVerify5
  SpecSignedPE ProofsSignedPE ProofsSignedPE2.
From Coq Require Import ZifyBool ZifyNat.

Lemma in_verdicts E v (hash : string -> bytes) sel : forall w1 a r,
  shareable w1 v sel ->
  In (a, r) (verdicts (fun a => asd_verify E 0 a (Some (hash (digest_of a))) v) sel w1) ->
  In a sel /\ exists w2, similar v w1 w2 /\ snd (asd_verify E 0 a (Some (hash (digest_of a))) v w2) = r.
Proof.
  induction sel as [|b sel IH]; intros w1 a r Sh; cbn [verdicts]; [intros []|]. intros [H|H].
  - injection H as <- <-. split; [now left|]. exists w1. split; [apply similar_refl|reflexivity].
  - destruct (asd_verify E 0 b (Some (hash (digest_of b))) v w1) as [w2 r2] eqn:E2. cbn [fst] in H.
    assert (Sim : similar v w1 w2).
    { eapply asd_verify_similar; [|exact E2]. eapply shareable_incl; [|exact Sh]. intros x [<-|[]]. now left. }
    destruct (IH w2 a r) as (Hi & w3 & S3 & H3); [|assumption|].
    + eapply shareable_similar; [|exact Sim]. eapply shareable_incl; [|exact Sh]. intros x Hx. now right.
    + split; [now right|]. exists w3. split; [eapply similar_trans; eassumption|assumption].
Qed.

Lemma outcome_ok {A B} (vs : list (A * res B)) b out :
  vs <> [] -> outcome vs b (Ok out) -> out <> [] /\ forall x y, In (x, y) out -> In (x, Ok y) vs.
Proof.
  intros Hv H. inversion H as [out' Hm| |pre a y post Hm Hp| |]; subst.
  - split; [intros ->; now apply Hv|]. intros x y Hi. apply in_map_iff. exists (x, y). auto.
  - split; [discriminate|]. intros x y' [Hi|[]]. injection Hi as <- <-. apply in_or_app. right. now left.
Qed.

Lemma default_shareable w v l : va_context v = None -> va_cs_context v = None -> shareable w v l.
Proof. intros H1 H2. split; [rewrite H1|rewrite H2]; discriminate. Qed.

Lemma evolved_stores rs cx cx' :
  evolved (fun _ => True) (with_stores rs cx) cx' -> evolved (fun _ => True) cx (with_stores (x_stores cx) cx').
Proof. intros (A & B & C & D & F & G). repeat split; try assumption. Qed.

Lemma signed_chain_alike E i cx cx' l T chain :
  alike cx cx' -> signed_chain E i cx' l T chain -> signed_chain E i cx l T chain.
Proof.
  intros (rs & ->) (c & cx2 & H1 & H2 & H3 & H4 & H5 & H6).
  exists c, (with_stores (x_stores cx) cx2). repeat (split; [assumption|]).
  split; [now apply (evolved_stores rs)|]. split; [exact H5|]. exact H6.
Qed.

Lemma counter_holds_alike E a c cy cy' l l' :
  Forall2 same_view l l' -> alike_untimed cy cy' -> counter_holds E a c cy' l' -> counter_holds E a c cy l.
Proof.
  intros V (rs & t & ->) (H1 & (chain & H2) & H3). split; [assumption|]. split; [|assumption].
  exists chain. apply (signed_chain_view E _ _ l l' (fun _ t => t = counter_stated_time c) _ _ V); [auto|].
  eapply (signed_chain_alike E _ _ (at_time (counter_stated_time c) (with_stores rs (at_time t cy)))); [|exact H2].
  exists rs. reflexivity.
Qed.

Lemma default_vouches E v w i (d : sdata) (ts : store) (T : cert -> option datetime -> Prop) (T' : option datetime -> Prop) chain :
  (forall c t, T c t -> T' t) ->
  signed_chain E i (default_context [va_trusted v; length (w_stores w)] "code_signing" (va_kwargs v)) [ts; shipped d] T chain ->
  exists t, T' t /\ store_accepts E ts (contents ts) chain (match t with Some t => t | None => e_now E end) ["code_signing"].
Proof.
  intros HT (c & cx' & _ & _ & _ & Ev & Ht & (_ & _ & (s & Hs & Ha) & _)). exists (x_timestamp cx'). split; [eapply HT; exact Ht|].
  assert (left_usages cx' = ["code_signing"]) as Hu.
  { destruct Ev as (_ & _ & _ & _ & [H|H] & _); unfold left_usages; rewrite H; reflexivity. }
  rewrite Hu in Ha. destruct Hs as [<-|[<-|[]]]; [exact Ha|]. destruct Ha as (Ha & _). discriminate Ha.
Qed.

Theorem c55 load E depth fuel mode ign v w w' d' out ts :
  pe_open_verify load E depth fuel mode None ign v w = (w', d', Ok out) ->
  va_context v = None -> va_cs_context v = None -> nth_error (w_stores w) (va_trusted v) = Some ts ->
  out <> [] /\ exists es tail,
    terminates_with (fun k => cert_table k (w_file w)) (es, tail) /\
    Forall (sound_pair load E depth w v ts es) out.
Proof.
  intros H Vx Vy Hts.
  assert (Hit : exists l, l <> [] /\ iterate load depth true ign fuel (w_file w) = Some (l, None)).
  { destruct (iterate load depth true ign fuel (w_file w)) as [[l x]|] eqn:Ei.
    - destruct (open_eq load E depth fuel mode None ign v w l x Ei) as (w1 & _ & Hw). rewrite (Hw fuel (le_n _)) in H.
      destruct x as [e|]; [discriminate H|]. destruct l as [|a l]; [discriminate H|]. exists (a :: l). split; [discriminate|reflexivity].
    - rewrite iterate_eq in Ei. unfold pe_open_verify in H. rewrite signed_pe_init_eq in H.
      unfold pe_verify, signed_datas, iter_signed_datas, mbind in H. cbn [w_file] in H.
      destruct (iter_loop _ _ _ _ _ _ _ _) as [[? [? ?]]|]; discriminate. }
  destruct Hit as (l & Hl & Hi).
  assert (Hit : terminates_with (fun k => iterate load depth true ign k (w_file w)) (l, None)).
  { exists fuel. intros m Hm. eapply iterate_mono; eassumption. }
  destruct (verified load E depth mode None ign v w l Hit Hl) as (sel & hash & Hc & Hn & Hin & Hdue & Hall & _).
  { intros d k h Hd. discriminate Hd. }
  destruct (Hall fuel w' d' (Ok out) H) as [[Hx _]|(p & Ho & _)]; [discriminate Hx|].
  apply outcome_ok in Ho as [Ho1 Ho2]; [|destruct sel; [now elim Hn|discriminate]]. split; [assumption|].
  destruct (table_terminates (w_file w)) as (es & tail & Htab). exists es, tail. split; [assumption|].
  apply Forall_forall. intros [a chains] Hac. apply Ho2 in Hac.
  apply in_verdicts in Hac as (Ha & w2 & Sim2 & Hv); [|now apply default_shareable].
  assert (Sim : similar v w w2) by (eapply similar_trans; [apply at_position_similar|exact Sim2]).
  destruct (asd_verify E 0 a (Some (hash (digest_of a))) v w2) as [w3 r3] eqn:Hv'. cbn [snd] in Hv. subst r3.
  destruct (c25 _ _ _ _ _ _ _ _ Hv') as (Hag & Hex & Hcm). cbn [expected_hash] in Hex.
  assert (S : signer_context w a v (default_context [va_trusted v; length (w_stores w)] "code_signing" (va_kwargs v))
                [ts; shipped (asd_data a)]).
  { unfold signer_context. rewrite Vx. exists ts. auto. }
  destruct (signer_similar _ _ _ _ _ _ Sim S) as (cx' & l' & S' & V & Al).
  destruct (c26 _ _ _ _ _ _ _ _ _ _ Hv' S') as [Hne Hfor].
  split; [|split; [assumption|]; split; [|split; [assumption|]; split]].
  - destruct (table_ok _ _ _ _ _ _ a Hit (Hin a Ha)) as [(es1 & tail1 & n & q & T1 & R & (W1 & (i & q' & -> & Hlt) & _) & Hq) _].
    assert (es1 = es) as ->.
    { destruct Htab as [N Ht], T1 as [N1 T1]. specialize (Ht (N + N1)%nat ltac:(lia)). specialize (T1 (N + N1)%nat ltac:(lia)). congruence. }
    exists i, q'. cbn [in_table] in Hq |- *. destruct (nth_error es i) as [c|] eqn:En; [|discriminate Hq].
    destruct (Z.eqb_spec (ce_type c) 2) as [Ety|]; [|discriminate Hq]. exists c. split; [reflexivity|].
    split; [|split; [assumption|exact Hq]].
    assert (In c (firstn n es)) as Hc'.
    { apply nth_error_In with (n := i). rewrite <- (firstn_skipn n es) in En. rewrite nth_error_app1 in En; [exact En|].
      rewrite firstn_length. apply Nat.min_glb_lt; [assumption|].
      apply nth_error_Some. rewrite <- (firstn_skipn n es). congruence. }
    rewrite Forall_forall in R. now apply R.
  - specialize (Hdue a Ha). unfold due in Hdue. cbn [supplied] in Hdue. rewrite Hex. exact Hdue.
  - assert (F : Forall (signed_chain E (asi_info (asd_signer a))
        (default_context [va_trusted v; length (w_stores w)] "code_signing" (va_kwargs v)) [ts; shipped (asd_data a)]
        (fun _ t => t = kw_timestamp (va_kwargs v) \/ exists c, considered a v c /\ t = counter_stated_time c)) chains).
    { eapply Forall_impl; [|exact Hfor]. intros chain Hch. eapply signed_chain_view; [exact V| |].
      2: { eapply signed_chain_alike; [exact Al|exact Hch]. }
      intros c t. destruct Al as (rs & ->). auto. }
    split; [assumption|]. eapply Forall_impl; [|exact F]. intros chain Hch. split; [exact Hch|].
    eapply default_vouches; [|exact Hch]. auto.
  - intros Hm c cy ly Hcs Hcc. destruct (counter_similar _ _ _ _ _ _ _ Sim Hcc) as (cy' & ly' & Hcc' & Wy & Ay).
    eapply counter_holds_alike; [exact Wy|exact Ay|]. eapply c28_ok; eassumption.
Qed.

(** ** C24 *)

Lemma documented_intro k c s :
  In (c, s) documented_statuses -> issubclass k c = true ->
  forallb (fun cs => implb (issubclass k (fst cs)) (issubclass c (fst cs))) documented_statuses = true ->
  documented k s.
Proof.
  intros H1 H2 H3. exists c. split; [assumption|]. split; [assumption|]. intros c' s' Hi Hk.
  rewrite forallb_forall in H3. specialize (H3 _ Hi). cbn [fst] in H3. rewrite Hk in H3. exact H3.
Qed.

Lemma explains_call {A} (r : res A) : explains r (result_call r).
Proof.
  destruct r as [a|[k m]]; [constructor|]. unfold result_call, catches. cbn [e_class].
  assert (D : forall c s, In (c, s) documented_statuses -> issubclass k c = true ->
     forallb (fun cs => implb (issubclass k (fst cs)) (issubclass c (fst cs))) documented_statuses = true ->
     @explains A (Err (mkExn k m)) (Ok (s, Some (mkExn k m)))).
  { intros c s H1 H2 H3. apply explains_error. eapply documented_intro; eassumption. }
  assert (In' : forall n c s, nth_error documented_statuses n = Some (c, s) -> In (c, s) documented_statuses).
  { intros n c s H. eapply nth_error_In. exact H. }
  destruct k; vm_compute;
    first [ now apply explains_interruption
          | solve [eapply D; [apply (In' 0%nat); reflexivity|reflexivity|reflexivity]]
          | solve [eapply D; [apply (In' 1%nat); reflexivity|reflexivity|reflexivity]]
          | solve [eapply D; [apply (In' 2%nat); reflexivity|reflexivity|reflexivity]]
          | solve [eapply D; [apply (In' 3%nat); reflexivity|reflexivity|reflexivity]]
          | solve [eapply D; [apply (In' 4%nat); reflexivity|reflexivity|reflexivity]]
          | solve [eapply D; [apply (In' 5%nat); reflexivity|reflexivity|reflexivity]]
          | solve [eapply D; [apply (In' 6%nat); reflexivity|reflexivity|reflexivity]]
          | solve [eapply D; [apply (In' 7%nat); reflexivity|reflexivity|reflexivity]]
          | solve [eapply D; [apply (In' 8%nat); reflexivity|reflexivity|reflexivity]] ].
Qed.

Lemma documented_fun k s s' : documented k s -> documented k s' -> s = s'.
Proof.
  intros (c & H1 & H2 & H3) (c' & H1' & H2' & H3').
  pose proof (H3 c' s' H1' H2') as S1. pose proof (H3' c s H1 H2) as S2. clear - H1 H1' S1 S2.
  unfold documented_statuses in H1, H1'. cbn [In] in H1, H1'.
  repeat (destruct H1 as [H1|H1]; [injection H1 as <- <-;
    repeat (destruct H1' as [H1'|H1']; [injection H1' as <- <-; first [reflexivity|exfalso; vm_compute in S1, S2; discriminate]|]);
    destruct H1'|]). destruct H1.
Qed.

Lemma documented_exception k s : documented k s -> issubclass k Exception_ = true.
Proof.
  intros (c & H1 & H2 & _). destruct k; try reflexivity; exfalso;
    unfold documented_statuses in H1; cbn [In] in H1;
    repeat (destruct H1 as [H1|H1]; [injection H1 as <- <-; vm_compute in H2; discriminate|]); destruct H1.
Qed.

Lemma explains_fun {A} (r : res A) x y : explains r x -> explains r y -> x = y.
Proof.
  intros H1 H2. destruct H1 as [a|e s D|e D]; inversion H2 as [|e' s' D'|e' D']; subst; try reflexivity.
  - now rewrite (documented_fun _ _ _ D D').
  - apply documented_exception in D. congruence.
  - apply documented_exception in D'. congruence.
Qed.

Theorem c24 {A} (r : res A) x : result_call r = x <-> explains r x.
Proof. split; [intros <-; apply explains_call|]. intros H. eapply explains_fun; [apply explains_call|exact H]. Qed.

(** ** C19, C20, C22, C23 *)

Lemma conj_mode_reflect mode b : (b = true <-> conjunctive mode) -> conj_mode mode = b.
Proof.
  intros H. destruct (conj_mode mode) eqn:E.
  - apply conj_mode_spec in E. symmetry. now apply H.
  - destruct b; [|reflexivity]. assert (conj_mode mode = true) by (apply conj_mode_spec, H; reflexivity). congruence.
Qed.

Theorem c20 load E depth mode expected ign v w l :
  terminates_with (fun k => iterate load depth true ign k (w_file w)) (l, None) -> l <> [] -> known_names E expected ->
  exists sel hash, chosen mode l sel /\ due_hashes E (f_bytes (w_file w)) expected sel hash /\
    exists N, forall fuel, (N <= fuel)%nat ->
    exists p b, (b = true <-> conjunctive mode) /\
      outcome (tried E v hash sel (at_position p w)) b (verify_result load E depth fuel mode expected ign v w).
Proof.
  intros Hi Hl Hk. destruct (verified load E depth mode expected ign v w l Hi Hl Hk) as (sel & hash & Hc & _ & _ & Hd & _ & N & H).
  exists sel, hash. split; [assumption|]. split; [assumption|]. exists N. intros fuel Hf.
  destruct (pe_open_verify load E depth fuel mode expected ign v w) as [[w' d'] r] eqn:Ev.
  destruct (H fuel w' d' r Hf Ev) as (p & Ho & _). exists p, (conj_mode mode). split; [apply conj_mode_spec|].
  unfold verify_result. rewrite Ev. exact Ho.
Qed.

Theorem c20_alone load E depth mode expected ign v w l :
  terminates_with (fun k => iterate load depth true ign k (w_file w)) (l, None) -> l <> [] -> known_names E expected ->
  shareable w v l -> (forall a, In a l -> usable w v a) ->
  (forall a c, In a l -> considered a v c -> distinct_contexts v) ->
  exists sel hash, chosen mode l sel /\ due_hashes E (f_bytes (w_file w)) expected sel hash /\
    exists N, forall fuel, (N <= fuel)%nat ->
    exists b, (b = true <-> conjunctive mode) /\
      outcome (alone E v hash sel w) b (verify_result load E depth fuel mode expected ign v w).
Proof.
  intros Hi Hl Hk Sh Us Di. destruct (verified load E depth mode expected ign v w l Hi Hl Hk) as (sel & hash & Hc & _ & Hin & Hd & _ & N & H).
  exists sel, hash. split; [assumption|]. split; [assumption|]. exists N. intros fuel Hf.
  destruct (pe_open_verify load E depth fuel mode expected ign v w) as [[w' d'] r] eqn:Ev.
  destruct (H fuel w' d' r Hf Ev) as (p & Ho & _). exists (conj_mode mode). split; [apply conj_mode_spec|].
  unfold verify_result. rewrite Ev. cbn [snd]. unfold alone.
  rewrite <- (verdicts_alone E v hash w sel) with (w1 := at_position p w); [exact Ho| | | |apply at_position_similar].
  - eapply shareable_incl; [|exact Sh]. exact Hin.
  - intros a Ha. apply Us, Hin, Ha.
  - intros a c Ha. apply Di, Hin, Ha.
Qed.

Theorem c19 load E depth mode expected ign v w l :
  terminates_with (fun k => iterate load depth true ign k (w_file w)) (l, None) -> l <> [] -> known_names E expected ->
  exists sel hash, chosen mode l sel /\ due_hashes E (f_bytes (w_file w)) expected sel hash /\
    exists N, forall fuel, (N <= fuel)%nat -> exists p,
    let vs := tried E v hash sel (at_position p w) in
    let ok := exists out, verify_result load E depth fuel mode expected ign v w = Ok out in
    (conjunctive mode -> (ok <-> Forall succeeds vs)) /\
    (~ conjunctive mode -> Forall (fun r => ~ interrupts r) vs -> (ok <-> Exists succeeds vs)).
Proof.
  intros Hi Hl Hk. destruct (c20 load E depth mode expected ign v w l Hi Hl Hk) as (sel & hash & Hc & Hd & N & H).
  exists sel, hash. split; [assumption|]. split; [assumption|]. exists N. intros fuel Hf.
  destruct (H fuel Hf) as (p & b & Hb & Ho). exists p. cbv zeta. split.
  - intros Hm. apply Hb in Hm. subst b. now apply outcome_conj.
  - intros Hm. destruct b; [elim Hm; now apply Hb|]. now apply outcome_disj.
Qed.

Theorem c19_alone load E depth mode expected ign v w l :
  terminates_with (fun k => iterate load depth true ign k (w_file w)) (l, None) -> l <> [] -> known_names E expected ->
  shareable w v l -> (forall a, In a l -> usable w v a) ->
  (forall a c, In a l -> considered a v c -> distinct_contexts v) ->
  exists sel hash, chosen mode l sel /\ due_hashes E (f_bytes (w_file w)) expected sel hash /\
    exists N, forall fuel, (N <= fuel)%nat ->
    let vs := alone E v hash sel w in
    let ok := exists out, verify_result load E depth fuel mode expected ign v w = Ok out in
    (conjunctive mode -> (ok <-> Forall succeeds vs)) /\
    (~ conjunctive mode -> Forall (fun r => ~ interrupts r) vs -> (ok <-> Exists succeeds vs)).
Proof.
  intros Hi Hl Hk Sh Us Di. destruct (c20_alone load E depth mode expected ign v w l Hi Hl Hk Sh Us Di) as (sel & hash & Hc & Hd & N & H).
  exists sel, hash. split; [assumption|]. split; [assumption|]. exists N. intros fuel Hf.
  destruct (H fuel Hf) as (b & Hb & Ho). cbv zeta. split.
  - intros Hm. apply Hb in Hm. subst b. now apply outcome_conj.
  - intros Hm. destruct b; [elim Hm; now apply Hb|]. now apply outcome_disj.
Qed.

(** The dict afterwards. *)
Theorem c23 load E depth mode d ign v w fuel :
  (forall k h, In (k, h) d -> e_hashlib_has E k = true) ->
  exists d1, dict_after load E depth fuel mode (Some d) ign v w = Some d1 /\
    (forall alg h, dict_get alg d = Some h -> dict_get alg d1 = Some h) /\
    (forall alg h, dict_get alg d = None -> dict_get alg d1 = Some h -> authentihash_of E (f_bytes (w_file w)) alg h) /\
    ((forall alg, In alg accepted_digest_algorithms -> dict_get alg d <> None) -> d1 = d).
Proof.
  intros Hk. unfold dict_after.
  assert (Same : snd (fst (pe_open_verify load E depth fuel mode (Some d) ign v w)) = Some d -> 
    exists d1, snd (fst (pe_open_verify load E depth fuel mode (Some d) ign v w)) = Some d1 /\
    (forall alg h, dict_get alg d = Some h -> dict_get alg d1 = Some h) /\
    (forall alg h, dict_get alg d = None -> dict_get alg d1 = Some h -> authentihash_of E (f_bytes (w_file w)) alg h) /\
    ((forall alg, In alg accepted_digest_algorithms -> dict_get alg d <> None) -> d1 = d)).
  { intros ->. exists d. split; [reflexivity|]. split; [auto|]. split; [congruence|auto]. }
  destruct (iterate load depth true ign fuel (w_file w)) as [[l x]|] eqn:Ei.
  2: { apply Same. rewrite iterate_eq in Ei. unfold pe_open_verify. rewrite signed_pe_init_eq.
       unfold pe_verify, signed_datas, iter_signed_datas, mbind. cbn [w_file].
       destruct (iter_loop _ _ _ _ _ _ _ _) as [[? [? ?]]|]; [discriminate|reflexivity]. }
  destruct (open_eq load E depth fuel mode (Some d) ign v w l x Ei) as (w1 & _ & Hw).
  destruct x as [e|]; [apply Same; now rewrite (Hw fuel (le_n _))|].
  destruct l as [|a l]; [apply Same; now rewrite (Hw fuel (le_n _))|]. clear Hw w1.
  assert (Hit : terminates_with (fun k => iterate load depth true ign k (w_file w)) (a :: l, None)).
  { exists fuel. intros m Hm. eapply iterate_mono; eassumption. }
  destruct (verified load E depth mode (Some d) ign v w (a :: l) Hit) as (sel & hash & Hc & Hn & Hin & Hdue & Hall & _);
    [discriminate| |].
  { intros d0 k h Hd Hkh. injection Hd as <-. eapply Hk. exact Hkh. }
  destruct (pe_open_verify load E depth fuel mode (Some d) ign v w) as [[w' d'] r] eqn:Ev.
  destruct (Hall fuel w' d' r Ev) as [[_ ->]|(p & _ & _ & _ & Hd)]; [now apply Same|]. clear Same.
  destruct (Hd d eq_refl) as (d1 & -> & Hsame & Hg). cbn [fst snd]. exists d1. split; [reflexivity|]. split; [|split].
  - intros alg h Hh. rewrite Hg, Hh. reflexivity.
  - intros alg h Hd0 Hh. rewrite Hg, Hd0 in Hh. destruct (in_dec string_dec alg (map digest_of sel)) as [i|]; [|discriminate Hh].
    injection Hh as <-. apply in_map_iff in i as (b & <- & Hb). specialize (Hdue b Hb). unfold due in Hdue. cbn [supplied] in Hdue.
    now rewrite Hd0 in Hdue.
  - intros Hacc. apply Hsame. intros b Hb. apply Hacc. now apply (table_accepted _ _ _ _ _ _ _ Hit (Hin b Hb)).
Qed.

Lemma in_verdicts_any {A B} (one : A -> M world B) sel : forall w a r,
  In (a, r) (verdicts one sel w) -> In a sel /\ exists w2, snd (one a w2) = r.
Proof.
  induction sel as [|b sel IH]; intros w a r; cbn [verdicts]; [intros []|]. intros [H|H].
  - injection H as <- <-. split; [now left|]. now exists w.
  - apply IH in H as (Hi & H). split; [now right|assumption].
Qed.

Theorem c22 load E depth fuel mode expected ign v w out :
  known_names E expected -> verify_result load E depth fuel mode expected ign v w = Ok out ->
  out <> [] /\ Forall (fun ac => due E (f_bytes (w_file w)) expected (digest_of (fst ac)) (sp_digest (asd_spc (fst ac)))) out.
Proof.
  unfold verify_result. intros Hk H.
  destruct (iterate load depth true ign fuel (w_file w)) as [[l x]|] eqn:Ei.
  2: { exfalso. rewrite iterate_eq in Ei. unfold pe_open_verify in H. rewrite signed_pe_init_eq in H.
       unfold pe_verify, signed_datas, iter_signed_datas, mbind in H. cbn [w_file] in H.
       destruct (iter_loop _ _ _ _ _ _ _ _) as [[? [? ?]]|]; discriminate. }
  destruct (open_eq load E depth fuel mode expected ign v w l x Ei) as (w1 & _ & Hw). rewrite (Hw fuel (le_n _)) in H.
  destruct x as [e|]; [discriminate H|]. destruct l as [|a0 l]; [discriminate H|]. rewrite <- (Hw fuel (le_n _)) in H. clear Hw w1.
  assert (Hit : terminates_with (fun k => iterate load depth true ign k (w_file w)) (a0 :: l, None)).
  { exists fuel. intros m Hm. eapply iterate_mono; eassumption. }
  destruct (verified load E depth mode expected ign v w (a0 :: l) Hit) as (sel & hash & Hc & Hn & Hin & Hdue & Hall & _);
    [discriminate|assumption|].
  destruct (pe_open_verify load E depth fuel mode expected ign v w) as [[w' d'] r] eqn:Ev. cbn [snd] in H. subst r.
  destruct (Hall fuel w' d' (Ok out) Ev) as [[Hx _]|(p & Ho & _)]; [discriminate Hx|].
  apply outcome_ok in Ho as [Ho1 Ho2]; [|destruct sel; [now elim Hn|discriminate]]. split; [assumption|].
  apply Forall_forall. intros [a chains] Hac. apply Ho2 in Hac. apply in_verdicts_any in Hac as (Ha & w2 & Hv). cbn [fst].
  destruct (asd_verify E 0 a (Some (hash (digest_of a))) v w2) as [w3 r3] eqn:Hv'. cbn [snd] in Hv. subst r3.
  destruct (c25 _ _ _ _ _ _ _ _ Hv') as (_ & Hex & _). cbn [expected_hash] in Hex. rewrite Hex. now apply Hdue.
Qed.

Theorem c24_determined :
  (forall A (r : res A) x y, explains r x -> explains r y -> x = y) /\
  (forall A (r : res A), explains r (Ok (OK, None)) <-> exists a, r = Ok a) /\
  (forall A (e : exn), issubclass (e_class e) Exception_ = true <->
     exists s, @explains A (Err e) (Ok (s, Some e)) /\ s <> OK).
Proof.
  split; [intros A r x y; apply explains_fun|]. split.
  - intros A r. split; [intros H; inversion H; eauto|]. intros [a ->]. constructor.
  - intros A e. split.
    + intros He. pose proof (@explains_call A (Err e)) as H. inversion H as [|e' s D Er|e' D Er]; subst; [|congruence].
      exists s. split; [now constructor|]. intros ->. destruct D as (c & H1 & _).
      unfold documented_statuses in H1. cbn [In] in H1. repeat (destruct H1 as [H1|H1]; [discriminate H1|]). destruct H1.
    + intros (s & H & _). inversion H as [|e' s' D|]; subst. eapply documented_exception. exact D.
Qed.

Theorem unsigned_file load E depth mode expected (ign : bool) v w es tail :
  terminates_with (fun k => cert_table k (w_file w)) (es, tail) -> (forall c, In c es -> ce_type c <> 2) ->
  exists r N, e_class r = (if ign then AuthenticodeNotSignedError else SignedPEParseError) /\
    forall fuel, (N <= fuel)%nat -> verify_result load E depth fuel mode expected ign v w = Err r.
Proof.
  intros Ht H2. destruct (no_type2 load depth _ _ _ Ht H2) as (e & He).
  pose proof (no_type2_error load depth _ _ _ _ Ht H2 He) as Hs.
  destruct (unsigned load E depth mode expected ign v w _ He) as (e' & Hx & r & N & H). injection Hx as <-.
  exists r, N. split; [|intros fuel Hf; now apply H]. destruct (H N (le_n _)) as (_ & _ & H3).
  rewrite Hs, andb_true_r in H3. destruct ign; [assumption|]. subst r.
  destruct (e_class e); first [reflexivity|vm_compute in Hs; discriminate Hs].
Qed.
