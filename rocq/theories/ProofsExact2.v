(** Proofs about exact acceptance: signers, countersigners, SignedData and files. *)
From Verif Require Import Base Bytes Monad ModelFile ModelFingerprint ModelPE SpecFingerprint SpecPE
  ModelX509 SpecX509 ProofsFingerprint ProofsX509b ProofsPE ProofsPE2 ProofsPE3 ModelContext SpecContext ProofsContext ProofsContext2
  ModelPkcs7 ModelAuthenticode SpecPkcs7 SpecAuthenticode ProofsSigner ProofsSigner2 ProofsVerify ProofsVerify2 ProofsVerify3
  ProofsVerify5 SpecSignedPE ProofsSignedPE ProofsSignedPE2 ProofsSignedPE3 SpecComplete ProofsComplete ProofsComplete2
  ProofsWhole ProofsWhole2 SpecFrame ProofsFrame ProofsFrame2 SpecExact ProofsExact.

(** ** Signers *)

(** The certificates exempt from the signing time. *)
Definition exempted (auth : bool) : cert -> Prop := if auth then lifetime else none_exempt.

Lemma next_time_eq auth st t c t' :
  next_time (exempted auth) st t c t' <-> t' = match effective auth st c with Some u => Some u | None => t end.
Proof.
  unfold next_time, effective, exempted.
  destruct st as [s|].
  - destruct auth; cbn [andb].
    + destruct (lifetime_signing c) eqn:L.
      * apply lifetime_spec in L. split; [intros [Q _]; auto|]. intros ->. split; [reflexivity|contradiction].
      * assert (NL : ~ lifetime c) by (rewrite <- lifetime_spec; congruence).
        split; [intros [_ Q]; apply Q; [discriminate|exact NL]|]. intros ->. split; [|reflexivity]. intros [[=]|Q]; contradiction.
    + split; [intros [_ Q]; apply Q; [discriminate|intros []]|]. intros ->. split; [|reflexivity]. intros [[=]|[]].
  - destruct (auth && lifetime_signing c); (split; [intros [Q _]; auto|]; intros ->; split; [reflexivity|intros Q; now elim Q]).
Qed.

Lemma at_time_twice t t' cx : at_time t (at_time t' cx) = at_time t cx.
Proof. reflexivity. Qed.

Section signer.
Context (E : env) (auth : bool) (i : sinfo) (l : list store) (st : option datetime).
Hypothesis L : lawful E.
Hypothesis U : identified (concat (map contents l)).

Lemma contents_ne c : In c (concat (map contents l)) -> l <> [].
Proof. intros H ->. exact H. Qed.

Lemma mfold_search cs : incl cs (concat (map contents l)) -> forall cx acc,
  (exists chains cx' f, search E i l (exempted auth) st cx cs chains /\ (forall ch, search E i l (exempted auth) st cx cs ch -> ch = chains) /\
     mfold (p_body E auth i st l) cs acc cx = (cx', Ok (fst acc ++ chains, f)) /\
     (chains <> [] -> f = FFalse) /\
     (chains = [] -> f = snd acc \/ (snd acc = FNone /\ exists e, f = FErr e /\ ordinary e))) \/
  ((forall chains, ~ search E i l (exempted auth) st cx cs chains) /\
   exists e, snd (mfold (p_body E auth i st l) cs acc cx) = Err e /\ ordinary e).
Proof.
  induction cs as [|c cs IH]; intros I cx acc.
  - left. exists [], cx, (snd acc). split; [constructor|]. split; [intros ch H; now inversion H|].
    split; [cbn [mfold]; rewrite app_nil_r; now destruct acc|]. split; [intros H; now elim H|auto].
  - assert (Ic : In c (concat (map contents l))) by (apply I; now left).
    assert (Ics : incl cs (concat (map contents l))) by (intros d Hd; apply I; now right).
    cbn [mfold]. unfold mbind, p_body at 1 3, p_issuer.
    (* the candidate is passed over *)
    assert (Over : forall e cx1, ordinary e -> (forall chains, search E i l (exempted auth) st cx1 cs chains -> search E i l (exempted auth) st cx (c :: cs) chains) ->
      (forall chains, search E i l (exempted auth) st cx (c :: cs) chains -> search E i l (exempted auth) st cx1 cs chains) ->
      let r := mfold (p_body E auth i st l) cs (fst acc, match snd acc with FNone => FErr e | f => f end) cx1 in
      (exists chains cx' f, search E i l (exempted auth) st cx (c :: cs) chains /\ (forall ch, search E i l (exempted auth) st cx (c :: cs) ch -> ch = chains) /\
         r = (cx', Ok (fst acc ++ chains, f)) /\ (chains <> [] -> f = FFalse) /\
         (chains = [] -> f = snd acc \/ (snd acc = FNone /\ exists e, f = FErr e /\ ordinary e))) \/
      ((forall chains, ~ search E i l (exempted auth) st cx (c :: cs) chains) /\ exists e, snd r = Err e /\ ordinary e)).
    { intros e cx1 O F1 F2. cbv zeta.
      destruct (IH Ics cx1 (fst acc, match snd acc with FNone => FErr e | f => f end)) as [(chains & cx' & f & H1 & H2 & H3 & H4 & H5)|(H1 & e1 & H2 & H3)].
      - left. exists chains, cx', f. split; [auto|]. split; [auto|]. split; [exact H3|]. split; [exact H4|].
        intros Q. cbn [snd] in H5. destruct (H5 Q) as [->|(N & e1 & -> & O1)].
        + destruct (snd acc); [right; split; [reflexivity|]; eauto|left; reflexivity|left; reflexivity].
        + destruct (snd acc); try discriminate N.
      - right. split; [intros ch Hs; now elim (H1 ch (F2 ch Hs))|]. exists e1. auto. }
    destruct (signature_cases E i c (v_allow_legacy (x_opts cx)) L) as [[V S]|(NS & e & V & O & K)]; rewrite V.
    + rewrite later_time. pose proof (next_time_eq auth st (x_timestamp cx) c) as NT.
      set (t' := match effective auth st c with Some u => Some u | None => x_timestamp cx end) in *.
      pose proof (p_verify_cases E l c (at_time t' cx) L (contents_ne c Ic) (identified_cons _ _ Ic U)) as Ca.
      assert (Inv : forall ch, search E i l (exempted auth) st cx (c :: cs) ch ->
        (exists chain chains, ch = chain :: chains /\ valid_chain E (at_time t' cx) l c chain /\ search E i l (exempted auth) st (spent (at_time t' cx)) cs chains) \/
        (refuses E (at_time t' cx) l c /\ search E i l (exempted auth) st (spent (at_time t' cx)) cs ch)).
      { intros ch Hs. inversion Hs as [|? t1 ? ? ? ? S1 N1 P1 R1|? t1 ? ? ? S1 N1 P1 R1|? ? ? ? D1 R1]; subst.
        - apply (NT _) in N1. subst t1. left. eauto.
        - apply (NT _) in N1. subst t1. right. auto.
        - now elim (proj1 D1). }
      assert (N' : next_time (exempted auth) st (x_timestamp cx) c t') by now apply NT.
      pose proof (fun d d' => valid_chain_fun E (at_time t' cx) l c d d' (identified_cons _ _ Ic U)) as PF.
      destruct Ca as [(chain & -> & P & NR)|(NP & cx1 & e & -> & O & K & Sp)].
      * destruct (IH Ics (spent (at_time t' cx)) (fst acc ++ [chain], FFalse)) as [(chains & cx' & f & H1 & H2 & H3 & H4 & H5)|(H1 & e & H2 & H3)].
        -- left. exists (chain :: chains), cx', f. split.
           { eapply search_accepts; eassumption. }
           split.
           { intros ch Hs. destruct (Inv ch Hs) as [(d & chs & -> & Pd & R)|[R _]]; [|contradiction].
             f_equal; [now apply PF|now apply H2]. }
           split; [rewrite H3; cbn [fst]; now rewrite <- app_assoc|]. split; [|discriminate].
           intros _. destruct chains; [|apply H4; discriminate].
           destruct (H5 eq_refl) as [->|([=] & _)]. reflexivity.
        -- right. split; [|exists e; auto].
           intros ch Hs. destruct (Inv ch Hs) as [(d & chs & -> & Pd & R)|[R _]]; [|contradiction]. now elim (H1 _ R).
      * unfold catches. destruct (issubclass (e_class e) VerificationError).
        -- destruct K as [K _]. specialize (K eq_refl). rewrite (Sp K). apply Over; [exact O| |].
           ++ intros chains Hs. eapply search_refuses; eauto.
           ++ intros chains Hs. destruct (Inv _ Hs) as [(d & chs & -> & Pd & R)|[_ R]]; [now elim (NP d)|exact R].
        -- right. split; [|exists e; auto].
           intros ch Hs. destruct (Inv ch Hs) as [(d & chs & -> & Pd & R)|[R _]]; [now elim (NP d)|]. apply K in R. discriminate R.
    + assert (Inv : forall ch, search E i l (exempted auth) st cx (c :: cs) ch ->
        declines E (v_allow_legacy (x_opts cx)) i c /\ search E i l (exempted auth) st cx cs ch).
      { intros ch Hs. inversion Hs; subst; try contradiction. auto. }
      unfold catches. destruct (issubclass (e_class e) VerificationError).
      * destruct K as [K _]. apply Over; [exact O| |].
        -- intros chains Hs. apply search_declines; auto.
        -- intros chains Hs. apply (Inv _ Hs).
      * right. split; [|exists e; auto]. intros ch Hs. destruct (Inv _ Hs) as [D _]. apply K in D. discriminate D.
Qed.

Lemma p_signer_search cx :
  (exists chains, snd (p_signer E auth i st l (candidates E i l) cx) = Ok chains /\
     chains_of E i cx l (exempted auth) st chains /\ (forall ch, chains_of E i cx l (exempted auth) st ch -> ch = chains)) \/
  ((forall chains, ~ chains_of E i cx l (exempted auth) st chains) /\
   exists e, snd (p_signer E auth i st l (candidates E i l) cx) = Err e /\ ordinary e).
Proof.
  assert (I : incl (candidates E i l) (concat (map contents l))) by (intros c H; now apply (candidates_in E i l c)).
  assert (CL : forall cs, candidate_list i (concat (map contents l)) cs -> cs = candidates E i l).
  { intros cs H. eapply firsts_fun; [exact H|]. apply (candidates_list E i l). }
  unfold p_signer, mbind, chains_of.
  destruct (mfold_search (candidates E i l) I cx ([], FNone)) as [(chains & cx' & f & H1 & H2 & H3 & H4 & H5)|(H1 & e & H2 & H3)].
  - rewrite H3. cbn [fst snd app]. destruct chains as [|ch chains].
    + right. split.
      { intros chains (NE & cs & Hc & Hs). apply CL in Hc. subst cs. apply NE. now apply H2. }
      destruct (H5 eq_refl) as [->|(_ & e & -> & O)]; [eexists; split; [reflexivity|reflexivity]|exists e; auto].
    + rewrite H4 by discriminate. left. exists (ch :: chains). split; [reflexivity|]. split.
      * split; [discriminate|]. exists (candidates E i l). split; [apply candidates_list|exact H1].
      * intros d (_ & cs & Hc & Hs). apply CL in Hc. subst cs. now apply H2.
  - right. split.
    + intros chains (_ & cs & Hc & Hs). apply CL in Hc. subst cs. now elim (H1 chains).
    + destruct (mfold (p_body E auth i st l) (candidates E i l) ([], FNone) cx) as [k [p|e']]; cbn [snd] in H2; [discriminate H2|].
      injection H2 as ->. exists e. auto.
Qed.
End signer.

(** ** Countersigners *)

Lemma p_counter_cases E a c cy ly : lawful E -> sound ly ->
  (snd (p_counter E a c ly cy) = Ok tt /\ countersigned E a c cy ly) \/
  (~ countersigned E a c cy ly /\ exists e, snd (p_counter E a c ly cy) = Err e /\ ordinary e).
Proof.
  intros Lw (_ & U). unfold p_counter, countersigned. rewrite <- check_message_digest_covers.
  destruct (check_message_digest E c _); cbn [negb snd].
  2:{ right. split; [intros [[=] _]|]. eexists. split; reflexivity. }
  rewrite cs_time_stated.
  assert (G : forall i t, 
    (snd (match p_signer E false i None ly (candidates E i ly) (at_time t cy) with
          | (cy2, Ok _) => (cy2, Ok tt) | (cy2, Err e) => (cy2, Err e) end) = Ok tt /\
     exists chains, chains_of E i (at_time t cy) ly none_exempt None chains) \/
    (~ (exists chains, chains_of E i (at_time t cy) ly none_exempt None chains) /\
     exists e, snd (match p_signer E false i None ly (candidates E i ly) (at_time t cy) with
          | (cy2, Ok _) => (cy2, Ok tt) | (cy2, Err e) => (cy2, Err e) end) = Err e /\ ordinary e)).
  { intros i t. rewrite p_signer_token. cbn [snd].
    destruct (p_signer_search E false i ly None Lw U (at_time t cy)) as [(chs & -> & C & _)|(N & e & -> & O)].
    - left. split; [reflexivity|]. exists chs. exact C.
    - right. split; [|exists e; auto]. intros (chs & C). exact (N chs C). }
  destruct c as [i|t]; cbn [counter_signer counter_stated_time] in *.
  - destruct (G i (counter_stated_time (CSPlain i))) as [[R C]|(N & e & R & O)].
    + left. split; [exact R|]. split; [reflexivity|]. split; [discriminate|exact C].
    + right. split; [|exists e; split; [exact R|exact O]]. intros (_ & _ & C). exact (N C).
  - destruct (option_bytes_eqb (content_digest E (r_data t)) (si_message_digest (r_signer t))) eqn:Q; cbn [negb].
    + destruct (G (r_signer t) (counter_stated_time (CSToken t))) as [[R C]|(N & e & R & O)].
      * left. split; [exact R|]. split; [reflexivity|]. split; [|exact C].
        intros t' [= <-]. apply option_bytes_eqb_spec in Q. unfold content_matches. rewrite Q. reflexivity.
      * right. split; [|exists e; split; [exact R|exact O]]. intros (_ & _ & C). exact (N C).
    + right. split; [|eexists; split; reflexivity]. intros (_ & H & _). specialize (H t eq_refl). unfold content_matches in H.
      apply (proj2 (option_bytes_eqb_spec _ _)) in H. unfold content_digest in Q. congruence.
Qed.

(** ** SignedData *)

Lemma check_digests_cases E fuel a h w :
  (snd (check_digests E fuel a (Some h) w) = Ok tt /\
   algorithms_agree a /\ sp_digest (asd_spc a) = h /\ content_matches E (asd_data a) (asi_info (asd_signer a))) \/
  (~ (algorithms_agree a /\ sp_digest (asd_spc a) = h /\ content_matches E (asd_data a) (asi_info (asd_signer a))) /\
   exists e, snd (check_digests E fuel a (Some h) w) = Err e /\ ordinary e).
Proof.
  pose proof (check_digests_exact E fuel a h w) as X.
  destruct (snd (check_digests E fuel a (Some h) w)) as [[]|e] eqn:C.
  - left. split; [reflexivity|]. now apply X.
  - right. split; [intros H; apply X in H; discriminate H|]. exists e. split; [reflexivity|]. revert C. clear. unfold check_digests.
    destruct (negb _); [intros [= <-]; reflexivity|]. destruct (negb _); [intros [= <-]; reflexivity|].
    unfold mbind, mret. destruct (negb _); [intros [= <-]; reflexivity|]. destruct (negb _); [intros [= <-]; reflexivity|discriminate].
Qed.

Lemma kwargs_cases a v w :
  (kwargs_ok a v /\ exists w1 x y, prepare_contexts a v w = (w1, Ok (x, y))) \/
  (~ kwargs_ok a v /\ exists w1 e, prepare_contexts a v w = (w1, Err e) /\ ordinary e).
Proof.
  destruct (kw_valid (va_kwargs v)) eqn:K.
  { left. assert (kwargs_ok a v) as Kw by (left; exact K). split; [exact Kw|]. now apply kwargs_prepare. }
  destruct (va_context v) as [x|] eqn:X.
  2:{ right. split; [intros [Q|[Q _]]; [congruence|now elim Q]|]. rewrite prepare_eq, X, K. cbv zeta. cbn [negb].
      do 2 eexists. split; [reflexivity|reflexivity]. }
  destruct (va_cs_context v) as [y|] eqn:Y.
  { left. assert (kwargs_ok a v) as Kw by (right; split; [congruence|left; congruence]). split; [exact Kw|]. now apply kwargs_prepare. }
  destruct (considered_dec a v) as [[c C]|N].
  - right. split; [intros [Q|[_ [Q|Q]]]; [congruence|now elim Q|now elim (Q c)]|]. rewrite prepare_eq, X, Y, K. cbv zeta.
    destruct C as [C1 C2]. rewrite C1. destruct (String.eqb_spec (va_mode v) "ignore"); [contradiction|].
    do 2 eexists. split; [reflexivity|reflexivity].
  - left. assert (kwargs_ok a v) as Kw by (right; split; [congruence|right; exact N]). split; [exact Kw|]. now apply kwargs_prepare.
Qed.

Theorem c64_cases E fuel a h v w : lawful E -> tidy w v a ->
  (exists chains, snd (asd_verify E fuel a (Some h) v w) = Ok chains /\ authentic E w v a h chains /\
     forall ch, authentic E w v a h ch -> ch = chains) \/
  ((forall chains, ~ authentic E w v a h chains) /\
   exists e, snd (asd_verify E fuel a (Some h) v w) = Err e /\ ordinary e).
Proof.
  intros Lw (Di & (cx & l & Sc & Rx) & Rc).
  destruct (kwargs_cases a v w) as [(Kw & w1 & x & y & P)|(NK & w1 & e & P & O)].
  2:{ right. split; [intros ch (Q & _); contradiction|]. exists e. split; [|exact O].
      unfold asd_verify, mbind. now rewrite P. }
  assert (X : exists oc, situation w a v cx l oc /\
     ((exists st, (match oc with None => Ok None | Some (c, cy, ly) => p_mode (va_mode v) c (snd (p_counter E a c ly cy)) end) = Ok st /\
         made_at E w v a st /\ forall st', made_at E w v a st' -> st' = st) \/
      ((forall st, ~ made_at E w v a st) /\
       exists e, (match oc with None => Ok None | Some (c, cy, ly) => p_mode (va_mode v) c (snd (p_counter E a c ly cy)) end) = Err e /\ ordinary e))).
  { destruct (considered_dec a v) as [[c C]|NC].
    - destruct (Rc c C) as (cy & ly & Cc & Ry). exists (Some (c, cy, ly)). split.
      { split; [exact Sc|]. split; [apply Rx|]. split; [exact C|]. split; [exact Cc|apply Ry]. }
      destruct (p_counter_cases E a c cy ly Lw Ry) as [[Pc Cs]|(NCs & e & Pc & O)]; rewrite Pc; cbn [p_mode].
      + left. exists (counter_stated_time c). split; [now rewrite cs_time_stated|]. split.
        * split; [|intros N; now elim (N c)]. intros c' C'. rewrite <- (considered_fun _ _ _ _ C C'). exists cy, ly. auto.
        * intros st' (M & _). destruct (M c C) as (cy' & ly' & Cc' & Q).
          destruct (counter_context_fun _ _ _ _ _ _ _ _ Cc Cc') as [-> ->]. destruct Q as [[_ Q]|[Q _]]; [exact Q|contradiction].
      + unfold catches. rewrite O. destruct (String.eqb_spec (va_mode v) "strict") as [M|M].
        * right. split; [|eexists; split; reflexivity].
          intros st (Q & _). destruct (Q c C) as (cy' & ly' & Cc' & Q').
          destruct (counter_context_fun _ _ _ _ _ _ _ _ Cc Cc') as [-> ->]. destruct Q' as [[Q' _]|(_ & Q' & _)]; contradiction.
        * left. exists None. split; [reflexivity|]. split.
          -- split; [|reflexivity]. intros c' C'. rewrite <- (considered_fun _ _ _ _ C C'). exists cy, ly. split; [exact Cc|]. right. auto.
          -- intros st' (Q & _). destruct (Q c C) as (cy' & ly' & Cc' & Q').
             destruct (counter_context_fun _ _ _ _ _ _ _ _ Cc Cc') as [-> ->]. destruct Q' as [[Q' _]|(_ & _ & Q')]; [contradiction|exact Q'].
    - exists None. split.
      { split; [exact Sc|]. split; [apply Rx|]. exact NC. }
      left. exists None. split; [reflexivity|]. split.
      + split; [intros c C; now elim (NC c)|reflexivity].
      + intros st' (_ & Q). now apply Q. }
  destruct X as (oc & Si & X).
  rewrite (asd_verify_pure E fuel a (Some h) v w w1 x y cx l oc Si (fun _ => Di) P). unfold p_result.
  destruct (check_digests_cases E fuel a h w1) as [(Cd & D1 & D2 & D3)|(ND & e & Cd & O)]; rewrite Cd; cbn [rbind].
  2:{ right. split; [|exists e; auto]. intros ch (_ & D1 & D2 & D3 & _). apply ND. auto. }
  destruct X as [(st & Q & Ma & Un)|(N & e & Q & O)]; rewrite Q; cbn [rbind].
  2:{ right. split; [|exists e; auto]. intros ch (_ & _ & _ & _ & cx' & l' & st & _ & Ma & _). exact (N st Ma). }
  assert (Inv : forall ch, authentic E w v a h ch -> chains_of E (asi_info (asd_signer a)) cx l lifetime st ch).
  { intros ch (_ & _ & _ & _ & cx' & l' & st' & Sc' & Ma' & C).
    destruct (signer_context_fun _ _ _ _ _ _ _ Sc Sc') as [-> ->]. now rewrite (Un st' Ma') in C. }
  destruct Rx as (_ & U).
  destruct (p_signer_search E true (asi_info (asd_signer a)) l st Lw U cx) as [(chs & -> & C & F)|(N & e & -> & O)].
  - left. exists chs. split; [reflexivity|]. split; [|intros ch Hc; apply F, Inv, Hc].
    split; [exact Kw|]. split; [exact D1|]. split; [exact D2|]. split; [exact D3|]. exists cx, l, st. auto.
  - right. split; [|exists e; auto]. intros ch Hc. exact (N ch (Inv ch Hc)).
Qed.

Theorem c64_exact E fuel a h v w chains : lawful E -> tidy w v a ->
  snd (asd_verify E fuel a (Some h) v w) = Ok chains <-> authentic E w v a h chains.
Proof.
  intros Lw T. destruct (c64_cases E fuel a h v w Lw T) as [(ch & -> & A & F)|(N & e & -> & _)].
  - split; [now intros [= <-]|]. intros H. now rewrite (F _ H).
  - split; [discriminate|]. intros H. now elim (N chains).
Qed.

(** ** Files *)

Lemma tidy_usable w v a : tidy w v a -> usable w v a.
Proof.
  intros (_ & (cx & l & Sc & R) & Rc). split; [exists cx, l; split; [exact Sc|apply R]|].
  intros c C. destruct (Rc c C) as (cy & ly & Cc & Ry). exists cy, ly. split; [exact Cc|apply Ry].
Qed.

Lemma alone_split E v hash w sel pre0 x post0 : alone E v hash sel w = pre0 ++ x :: post0 ->
  exists pre a post, sel = pre ++ a :: post /\ pre0 = alone E v hash pre w /\
    x = (a, snd (asd_verify E 0 a (Some (hash (digest_of a))) v w)).
Proof.
  unfold alone. revert pre0. induction sel as [|a sel IH]; intros [|y pre0] Q; try discriminate Q.
  - cbn [map app] in Q. injection Q as <- <-. exists [], a, sel. auto.
  - cbn [map app] in Q. injection Q as <- Q. destruct (IH _ Q) as (pre & c & post & -> & -> & ->).
    exists (a :: pre), c, post. auto.
Qed.

Section file.
Context (load : loader) (E : env) (depth : nat) (mode : string) (expected : option (dict bytes)) (ign : bool)
  (v : vargs) (w : world) (l : list asd).
Hypothesis Lw : lawful E.
Hypothesis T : terminates_with (fun k => iterate load depth true ign k (w_file w)) (l, None).
Hypothesis NE : l <> [].
Hypothesis K : known_names E expected.
Hypothesis Sh : shareable w v l.
Hypothesis Ti : forall a, In a l -> tidy w v a.

Theorem c64_listed : exists N, forall fuel, (N <= fuel)%nat -> forall out,
  verify_result load E depth fuel mode expected ign v w = Ok out <-> accepted_as E w v expected mode l out.
Proof.
  destruct (c20_alone load E depth mode expected ign v w l T NE K Sh (fun a H => tidy_usable _ _ _ (Ti a H))
    (fun a c H _ => proj1 (Ti a H))) as (sel & hash & C & H & N & O).
  exists N. intros fuel F out. destruct (O fuel F) as (b & B & Oc). clear O.
  pose proof (chosen_incl _ _ _ NE C) as I.
  assert (X : forall a, In a sel ->
    (exists chains, snd (asd_verify E 0 a (Some (hash (digest_of a))) v w) = Ok chains /\ authentic_for E w v expected a chains /\
       forall ch, authentic_for E w v expected a ch -> ch = chains) \/
    ((forall chains, ~ authentic_for E w v expected a chains) /\
     exists e, snd (asd_verify E 0 a (Some (hash (digest_of a))) v w) = Err e /\ ordinary e)).
  { intros a Ha. destruct (c64_cases E 0 a (hash (digest_of a)) v w Lw (Ti a (I a Ha))) as [(ch & V & A & Un)|(NA & e & V & Or)].
    - left. exists ch. split; [exact V|]. split; [exists (hash (digest_of a)); auto|].
      intros ch' (h & D & A'). rewrite (due_fun _ _ _ _ _ _ D (H a Ha)) in A'. now apply Un.
    - right. split; [|exists e; auto]. intros ch' (h & D & A'). rewrite (due_fun _ _ _ _ _ _ D (H a Ha)) in A'. now elim (NA ch'). }
  assert (XE : forall a ch, In a sel -> (snd (asd_verify E 0 a (Some (hash (digest_of a))) v w) = Ok ch <-> authentic_for E w v expected a ch)).
  { intros a ch Ha. destruct (X a Ha) as [(ch' & -> & A & Un)|(NA & e & -> & _)].
    - split; [now intros [= <-]|]. intros Q. now rewrite (Un _ Q).
    - split; [discriminate|]. intros Q. now elim (NA ch). }
  assert (Sel : accepted_as E w v expected mode l out <->
    (conjunctive mode -> Forall2 (fun a ac => fst ac = a /\ authentic_for E w v expected a (snd ac)) sel out) /\
    (~ conjunctive mode -> exists pre a post chains, sel = pre ++ a :: post /\ out = [(a, chains)] /\
       authentic_for E w v expected a chains /\
       forall b, In b pre -> forall chains, ~ authentic_for E w v expected b chains)).
  { split.
    - intros (sel' & C' & Q). now rewrite (chosen_fun _ _ _ _ C' C) in Q.
    - intros Q. exists sel. auto. }
  rewrite Sel. clear Sel. destruct b.
  - assert (Cj : conjunctive mode) by now apply B.
    assert (All : map (fun ab => (fst ab, Ok (snd ab))) out = alone E v hash sel w <->
      Forall2 (fun a ac => fst ac = a /\ authentic_for E w v expected a (snd ac)) sel out).
    { clear - XE. unfold alone. revert out. induction sel as [|a sel IH]; intros out.
      - destruct out; cbn [map]; split; intros Q; try constructor; try discriminate Q; try inversion Q; reflexivity.
      - destruct out as [|[b cs] out].
        + split; intros Q; [discriminate Q|inversion Q].
        + cbn [map fst snd]. split; intros Q.
          * injection Q as -> E1 E2. constructor.
            { split; [reflexivity|]. cbn [snd]. apply XE; [now left|]. now rewrite <- E1. }
            apply IH; [intros a0 cs0 Ha0; apply XE; now right|]. exact E2.
          * inversion Q as [|? ? ? ? [E1 P] F]; subst. cbn [fst snd] in *. f_equal.
            { f_equal. symmetry. apply XE; [now left|exact P]. }
            apply IH; [intros a0 cs0 Ha0; apply XE; now right|]. exact F. }
    transitivity (Forall2 (fun a ac => fst ac = a /\ authentic_for E w v expected a (snd ac)) sel out); [|tauto].
    rewrite <- All. split.
    + intros Q. rewrite Q in Oc. now apply outcome_ok_conj.
    + intros Q. eapply outcome_fun; [|exact Oc|apply all_hold, Q].
      intros Q'. apply map_eq_nil in Q'. now apply (chosen_ne mode l sel).
  - assert (Cj : ~ conjunctive mode) by (intros Q; apply B in Q; discriminate Q).
    transitivity (exists pre a post chains, sel = pre ++ a :: post /\ out = [(a, chains)] /\
       authentic_for E w v expected a chains /\
       forall b, In b pre -> forall chains, ~ authentic_for E w v expected b chains); [|tauto].
    split.
    + intros Q. rewrite Q in Oc. inversion Oc as [| |pre a bb post Ev Fp Hb Er| |]; subst.
      destruct (alone_split _ _ _ _ _ _ _ _ Ev) as (pre1 & a1 & post1 & Es & Ep & Q1). injection Q1 as <- Q1.
      exists pre1, a, post1, bb. split; [exact Es|]. split; [reflexivity|]. split.
      * apply XE; [rewrite Es; apply in_or_app; right; now left|]. now symmetry.
      * intros b Hin ch A. subst pre. apply XE in A; [|rewrite Es; apply in_or_app; now left].
        rewrite Forall_forall in Fp. destruct (Fp (b, snd (asd_verify E 0 b (Some (hash (digest_of b))) v w))) as (e & Q2 & _).
        { unfold alone. apply in_map_iff. exists b. auto. }
        cbn [snd] in Q2. congruence.
    + intros (pre & a & post & chains & Es & -> & A & Np).
      eapply outcome_fun; [|exact Oc|].
      { intros Q'. apply map_eq_nil in Q'. now apply (chosen_ne mode l sel). }
      eapply (one_holds _ (alone E v hash pre w) a chains (alone E v hash post w)).
      * rewrite Es. unfold alone. rewrite map_app. cbn [map].
        rewrite (proj2 (XE a chains ltac:(rewrite Es; apply in_or_app; right; now left)) A). reflexivity.
      * apply Forall_forall. intros y Hy. unfold alone in Hy. apply in_map_iff in Hy as (b & <- & Hb).
        assert (Hs : In b sel) by (rewrite Es; apply in_or_app; now left).
        destruct (X b Hs) as [(ch & _ & Q & _)|(_ & e & V & Or)]; [now elim (Np b Hb ch)|].
        exists e. split; [exact V|exact Or].
Qed.
End file.

Theorem c64_file load E depth mode expected ign v w :
  lawful E ->
  (forall l, terminates_with (fun k => iterate load depth true ign k (w_file w)) (l, None) ->
     shareable w v l /\ forall a, In a l -> tidy w v a) ->
  forall out, settles load E depth expected ign v mode w (Ok out) <->
  exists l, terminates_with (fun k => iterate load depth true ign k (w_file w)) (l, None) /\ l <> [] /\
    known_names E expected /\ accepted_as E w v expected mode l out.
Proof.
  intros Lw Ti out. split.
  - intros G. destruct (iterate_terminates load depth ign (w_file w)) as (l & x & Hi).
    destruct x as [e|].
    { exfalso. destruct Hi as [N Hi]. assert (S : settles load E depth expected ign v mode w (Err e)).
      { exists N. intros fuel Hf. destruct (open_eq load E depth N mode expected ign v w _ _ (Hi N ltac:(lia))) as (w1 & _ & Q).
        unfold verify_result. now rewrite (Q fuel Hf). }
      pose proof (gives_fun _ _ _ _ _ _ _ _ _ _ G S). discriminate. }
    exists l. split; [exact Hi|].
    assert (NE : l <> []).
    { intros ->. destruct Hi as [N Hi]. destruct G as [N' G].
      destruct (open_eq load E depth N mode expected ign v w _ _ (Hi N ltac:(lia))) as (w1 & _ & Q).
      specialize (G (N + N')%nat ltac:(lia)). unfold verify_result in G. rewrite (Q (N + N')%nat ltac:(lia)) in G. discriminate G. }
    split; [exact NE|].
    assert (Kn : known_names E expected).
    { destruct (provided_hashes E (map fst (supplied_dict expected))) as [ks|e] eqn:Ep.
      { intros d k h -> Hk. apply (provided_known _ _ _ Ep). cbn [supplied_dict]. change k with (fst (k, h)). now apply in_map. }
      exfalso. destruct (select_spec mode l NE) as (sel & Es & _).
      { intros a Ha. now apply (table_accepted _ _ _ _ _ _ _ Hi Ha). }
      destruct Hi as [N Hi]. destruct G as [N' G].
      destruct (open_eq load E depth N mode expected ign v w _ _ (Hi N ltac:(lia))) as (w1 & _ & Q).
      specialize (G (N + N')%nat ltac:(lia)). unfold verify_result in G. rewrite (Q (N + N')%nat ltac:(lia)), Es in G.
      destruct l as [|a l1]; [now elim NE|]. unfold calculate_expected_hashes in G. cbv zeta in G. rewrite Ep in G. discriminate G. }
    split; [exact Kn|]. destruct (Ti l Hi) as [Sh Td].
    destruct (c64_listed load E depth mode expected ign v w l Lw Hi NE Kn Sh Td) as (N & X). destruct G as [N' G].
    apply (X (N + N')%nat ltac:(lia)). apply G. lia.
  - intros (l & Hi & NE & Kn & A). destruct (Ti l Hi) as [Sh Td].
    destruct (c64_listed load E depth mode expected ign v w l Lw Hi NE Kn Sh Td) as (N & X).
    exists N. intros fuel Hf. now apply (X fuel Hf).
Qed.
