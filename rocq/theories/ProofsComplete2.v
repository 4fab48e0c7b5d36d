From Verif Require Import Base Bytes Monad ModelFile ModelFingerprint SpecFingerprint ProofsFingerprint ModelPE SpecPE
  ModelX509 SpecX509 ProofsX509 ProofsX509b
  ModelContext SpecContext ProofsCTL ProofsContext ProofsContext2 ModelPkcs7 ModelAuthenticode SpecAuthenticode
  ProofsSigner ProofsSigner2 ProofsVerify ProofsVerify2 ProofsVerify3 ProofsVerify4 ProofsVerify5 SpecSignedPE
  ProofsSignedPE ProofsSignedPE2 ProofsSignedPE3 SpecComplete ProofsComplete.

Lemma all_regular_usable w v a cx l : all_regular w v a cx l -> usable w v a.
Proof.
  intros (_ & _ & Sc & R & Rc). split; [exists cx, l; split; [exact Sc|apply R]|].
  intros c C. destruct (Rc c C) as (cy & ly & Cc & Ry). exists cy, ly. split; [exact Cc|apply Ry].
Qed.
Lemma signer_context_fun w a v cx l cx' l' :
  signer_context w a v cx l -> signer_context w a v cx' l' -> cx' = cx /\ l' = l.
Proof.
  unfold signer_context. destruct (va_context v) as [x|].
  - intros [A B] [A' B']. rewrite A in A'. injection A' as <-. split; [reflexivity|]. eapply stores_at_fun; eauto.
  - intros (ts & T & -> & ->) (ts' & T' & -> & ->). rewrite T in T'. injection T' as <-. auto.
Qed.
Lemma due_fun E data expected alg h h' : due E data expected alg h -> due E data expected alg h' -> h = h'.
Proof.
  unfold due. destruct (supplied expected alg); [congruence|].
  intros (d & D & ->) (d' & D' & ->). congruence.
Qed.
Lemma chosen_incl mode l sel : l <> [] -> chosen mode l sel -> incl sel l.
Proof.
  intros _ (A & B & C) a Ha. destruct (string_dec mode "first") as [M|M].
  - destruct (A M) as (b & l' & -> & ->). destruct Ha as [<-|[]]. now left.
  - destruct (string_dec mode "best") as [M'|M'].
    + rewrite (B M') in Ha. apply filter_In in Ha. tauto.
    + now rewrite (C M M') in Ha.
Qed.

Lemma strongest (f : asd -> Z) l : l <> [] -> exists a, In a l /\ forall b, In b l -> f b <= f a.
Proof.
  intros NE. destruct l as [|x l]; [contradiction|]. clear NE. revert x. induction l as [|y l IH]; intros x.
  - exists x. split; [now left|]. intros b [<-|[]]. lia.
  - destruct (IH x) as (a & Ha & Hm). destruct (Z.leb_spec (f y) (f a)).
    + exists a. split; [destruct Ha as [<-|Ha]; [now left|right; now right]|].
      intros b [<-|[<-|Hb]]; [apply Hm; now left|lia|apply Hm; now right].
    + exists y. split; [right; now left|]. intros b [<-|[<-|Hb]].
      * specialize (Hm x (or_introl eq_refl)). lia.
      * lia.
      * specialize (Hm b (or_intror Hb)). lia.
Qed.
Lemma best_ne l :
  l <> [] -> filter (fun a => forallb (fun b => strength (digest_of b) <=? strength (digest_of a)) l) l <> [].
Proof.
  intros NE Q. destruct (strongest (fun a => strength (digest_of a)) l NE) as (a & Ha & Hm).
  assert (In a []) as []. rewrite <- Q. apply filter_In. split; [exact Ha|]. apply forallb_forall.
  intros b Hb. apply Z.leb_le. now apply Hm.
Qed.

(** The verdict on one signature. *)
Lemma verdict_exact E w v expected a h cx ls chains :
  all_regular w v a cx ls -> decided v a -> due E (f_bytes (w_file w)) expected (digest_of a) h ->
  snd (asd_verify E 0 a (Some h) v w) = Ok chains <-> properly_signed E w v expected a chains.
Proof.
  intros R D Du. rewrite (c59_exact E 0 a h v w cx ls chains R D). split.
  - intros (chain & -> & P). exists h, cx, ls, chain. split; [exact Du|]. split; [apply R|]. auto.
  - intros (h' & cx' & ls' & chain & Du' & Sc & -> & P). exists chain. split; [reflexivity|].
    rewrite (due_fun _ _ _ _ _ _ Du Du'). destruct R as (_ & _ & Sc' & _).
    destruct (signer_context_fun _ _ _ _ _ _ _ Sc' Sc) as [-> ->]. exact P.
Qed.
Lemma verdict_accepted E w v expected a h cx ls chains :
  all_regular w v a cx ls -> due E (f_bytes (w_file w)) expected (digest_of a) h ->
  properly_signed E w v expected a chains -> snd (asd_verify E 0 a (Some h) v w) = Ok chains.
Proof.
  intros R Du (h' & cx' & ls' & chain & Du' & Sc & -> & P).
  apply (c59_accepted E 0 a h v w cx ls chain R). rewrite (due_fun _ _ _ _ _ _ Du Du').
  destruct R as (_ & _ & Sc' & _). destruct (signer_context_fun _ _ _ _ _ _ _ Sc' Sc) as [-> ->]. exact P.
Qed.

Section FileLevel.
  Variables (load : loader) (E : env) (depth : nat) (mode : string) (expected : option (dict bytes)) (ign : bool)
    (v : vargs) (w : world) (l : list asd).
  Hypothesis T : terminates_with (fun k => iterate load depth true ign k (w_file w)) (l, None).
  Hypothesis NE : l <> [].
  Hypothesis K : known_names E expected.
  Hypothesis Sh : shareable w v l.
  Hypothesis Re : forall a, In a l -> exists cx ls, all_regular w v a cx ls.

  Lemma file_outcome :
    exists sel hash, chosen mode l sel /\ due_hashes E (f_bytes (w_file w)) expected sel hash /\
      exists N, forall fuel, (N <= fuel)%nat ->
      exists b, (b = true <-> conjunctive mode) /\
        outcome (alone E v hash sel w) b (verify_result load E depth fuel mode expected ign v w).
  Proof.
    eapply c20_alone; try eassumption.
    - intros a Ha. destruct (Re a Ha) as (cx & ls & R). eapply all_regular_usable; eassumption.
    - intros a c Ha C. destruct (Re a Ha) as (cx & ls & R). apply R.
  Qed.

  (** The verdicts on chosen signatures. *)
  Lemma alone_exact sel hash :
    (forall a, In a l -> decided v a) -> incl sel l -> due_hashes E (f_bytes (w_file w)) expected sel hash ->
    forall a chains, In a sel -> (snd (asd_verify E 0 a (Some (hash (digest_of a))) v w) = Ok chains <->
      properly_signed E w v expected a chains).
  Proof.
    intros D I H a chains Ha. destruct (Re a (I a Ha)) as (cx & ls & R).
    apply (verdict_exact E w v expected a _ cx ls chains R (D a (I a Ha)) (H a Ha)).
  Qed.

  Lemma all_hold_iff sel hash out :
    (forall a chains, In a sel -> (snd (asd_verify E 0 a (Some (hash (digest_of a))) v w) = Ok chains <->
      properly_signed E w v expected a chains)) ->
    map (fun ab => (fst ab, Ok (snd ab))) out = alone E v hash sel w <->
    Forall2 (fun a ac => fst ac = a /\ properly_signed E w v expected a (snd ac)) sel out.
  Proof.
    unfold alone. revert out. induction sel as [|a sel IH]; intros out H.
    - destruct out; cbn [map]; split; intros X; try constructor; try discriminate X; try inversion X; reflexivity.
    - destruct out as [|[b cs] out].
      + split; intros X; [discriminate X|inversion X].
      + cbn [map fst snd]. split; intros X.
        * injection X as -> E1 E2. constructor.
          { split; [reflexivity|]. cbn [snd]. apply H; [now left|]. now rewrite <- E1. }
          apply IH; [intros a0 cs0 Ha0; apply H; now right|]. exact E2.
        * inversion X as [|? ? ? ? [E1 P] F]; subst. cbn [fst snd] in *. f_equal.
          { f_equal. symmetry. apply H; [now left|exact P]. }
          apply IH; [intros a0 cs0 Ha0; apply H; now right|]. exact F.
  Qed.

  Theorem c59_all :
    mode = "all" -> (forall a, In a l -> decided v a) ->
    exists N, forall fuel, (N <= fuel)%nat -> forall out,
      verify_result load E depth fuel mode expected ign v w = Ok out <->
      Forall2 (fun a ac => fst ac = a /\ properly_signed E w v expected a (snd ac)) l out.
  Proof.
    intros M D. destruct file_outcome as (sel & hash & C & H & N & O). exists N. intros fuel F out.
    destruct (O fuel F) as (b & B & Oc). clear O.
    assert (b = true) as -> by (apply B; left; exact M).
    destruct C as (_ & _ & C). rewrite C in * by (rewrite M; discriminate). clear C sel.
    assert (X := fun a cs => alone_exact l hash D (fun a H => H) H a cs).
    rewrite <- (all_hold_iff l hash out X).
    inversion Oc as [o Eo Hb Er|pre a e post Ev Hs Hb Er| | |]; subst.
    - split; [intros Q; injection Q as <-; exact Eo|]. intros Q. f_equal.
      rewrite <- Q in Eo. clear -Eo. revert out Eo. induction o as [|[a c] o IH]; intros [|[b d] out] Q; try discriminate Q; [reflexivity|].
      cbn [map fst snd] in Q. injection Q as -> -> Q. f_equal. now apply IH.
    - split; [discriminate|]. intros Q. exfalso. rewrite Ev in Q.
      assert (In (a, Err e) (map (fun ab : asd * list (list cert) => (fst ab, Ok (snd ab))) out)).
      { rewrite Q. apply in_or_app. right. now left. }
      apply in_map_iff in H0 as (? & ? & _). discriminate.
  Qed.

  Theorem c59_first :
    mode = "first" -> (forall a, In a l -> decided v a) ->
    exists N, forall fuel, (N <= fuel)%nat -> forall out,
      verify_result load E depth fuel mode expected ign v w = Ok out <->
      exists a l' chains, l = a :: l' /\ out = [(a, chains)] /\ properly_signed E w v expected a chains.
  Proof.
    intros M D. destruct file_outcome as (sel & hash & C & H & N & O). exists N. intros fuel F out.
    destruct (O fuel F) as (b & B & Oc). clear O.
    assert (b = true) as -> by (apply B; right; exact M).
    destruct C as (C & _ & _). destruct (C M) as (a & l' & El & ->). clear C.
    assert (I : incl [a] l) by (intros x [<-|[]]; rewrite El; now left).
    assert (X := alone_exact [a] hash D I H a). unfold alone in Oc. cbn [map] in Oc.
    inversion Oc as [o Eo Hb Er|pre a0 e post Ev Hs Hb Er| | |].
    - destruct o as [|[a0 cs] [|]]; try discriminate Eo. cbn [map fst snd] in Eo. injection Eo as -> Eo.
      assert (P := proj1 (X cs (or_introl eq_refl)) (eq_sym Eo)). split.
      + intros Q. injection Q as <-. exists a, l', cs. auto.
      + intros (a1 & l1 & cs1 & E1 & -> & P1). rewrite El in E1. injection E1 as <- <-.
        apply (proj2 (X cs1 (or_introl eq_refl))) in P1. rewrite P1 in Eo. now injection Eo as ->.
    - split; [discriminate|]. intros (a1 & l1 & cs1 & E1 & -> & P1). exfalso. rewrite El in E1. injection E1 as <- <-.
      apply (proj2 (X cs1 (or_introl eq_refl))) in P1. rewrite P1 in Ev.
      destruct pre as [|? [|]]; discriminate Ev.
  Qed.

  (** In the other modes: the first proper one among the chosen ones. *)
  Theorem c59_any :
    ~ conjunctive mode -> (forall a, In a l -> decided v a) ->
    exists sel, chosen mode l sel /\
    exists N, forall fuel, (N <= fuel)%nat -> forall out,
      (verify_result load E depth fuel mode expected ign v w = Ok out ->
       exists pre a post chains, sel = pre ++ a :: post /\ out = [(a, chains)] /\ properly_signed E w v expected a chains /\
         forall b, In b pre -> ~ exists chains, properly_signed E w v expected b chains) /\
      ((forall a h, In a sel -> due E (f_bytes (w_file w)) expected (digest_of a) h ->
          ~ interrupts (a, snd (asd_verify E 0 a (Some h) v w))) ->
       forall pre a post chains, sel = pre ++ a :: post -> properly_signed E w v expected a chains ->
         (forall b, In b pre -> ~ exists chains, properly_signed E w v expected b chains) ->
         verify_result load E depth fuel mode expected ign v w = Ok [(a, chains)]).
  Proof.
    intros M D. destruct file_outcome as (sel & hash & C & H & N & O). exists sel. split; [exact C|]. exists N. intros fuel F out.
    destruct (O fuel F) as (b & B & Oc). clear O.
    assert (b = false) as -> by (destruct b; [exfalso; apply M, B; reflexivity|reflexivity]).
    assert (I := chosen_incl _ _ _ NE C).
    assert (X := alone_exact sel hash D I H).
    assert (ALL : forall pre0 x post0, alone E v hash sel w = pre0 ++ x :: post0 ->
              exists pre a post, sel = pre ++ a :: post /\ pre0 = alone E v hash pre w /\
                x = (a, snd (asd_verify E 0 a (Some (hash (digest_of a))) v w))).
    { intros pre0 x post0. unfold alone. clear. revert pre0. induction sel as [|a sel IH]; intros [|y pre0] Q; try discriminate Q.
      - cbn [map app] in Q. injection Q as <- <-. exists [], a, sel. auto.
      - cbn [map app] in Q. injection Q as <- Q. destruct (IH _ Q) as (pre & c & post & -> & -> & ->).
        exists (a :: pre), c, post. auto. }
    assert (FA : forall pre, Forall fails (alone E v hash pre w) -> incl pre sel ->
              forall b, In b pre -> ~ exists chains, properly_signed E w v expected b chains).
    { intros pre Fa In' b Hb (cs & P). apply X in P; [|now apply In'].
      rewrite Forall_forall in Fa. destruct (Fa (b, snd (asd_verify E 0 b (Some (hash (digest_of b))) v w))) as (e & Q & _).
      { unfold alone. apply in_map_iff. exists b. auto. }
      cbn [snd] in Q. congruence. }
    split.
    - intros V. rewrite V in Oc. inversion Oc as [| |pre a bb post Ev Fp Hb Er| |]; subst.
      destruct (ALL _ _ _ Ev) as (pre1 & a1 & post1 & -> & -> & Q). injection Q as <- Q.
      exists pre1, a, post1, bb. split; [reflexivity|]. split; [reflexivity|]. split.
      + apply X; [apply in_or_app; right; now left|]. now symmetry.
      + apply FA; [exact Fp|]. intros y Hy. apply in_or_app. now left.
    - intros NI pre a post cs Es P NP.
      assert (V : snd (asd_verify E 0 a (Some (hash (digest_of a))) v w) = Ok cs).
      { apply X; [rewrite Es; apply in_or_app; right; now left|exact P]. }
      assert (Fl : Forall fails (alone E v hash pre w)).
      { apply Forall_forall. intros y Hy. unfold alone in Hy. apply in_map_iff in Hy as (b & <- & Hb).
        assert (Hs : In b sel) by (rewrite Es; apply in_or_app; now left).
        destruct (snd (asd_verify E 0 b (Some (hash (digest_of b))) v w)) as [cs1|e] eqn:Vb.
        - exfalso. apply (NP b Hb). exists cs1. now apply X.
        - exists e. split; [reflexivity|]. destruct (issubclass (e_class e) Exception_) eqn:Is; [reflexivity|].
          exfalso. apply (NI b _ Hs (H b Hs)). rewrite Vb. exists e. auto. }
      assert (Al : alone E v hash sel w = alone E v hash pre w ++ (a, Ok cs) :: alone E v hash post w).
      { rewrite Es. unfold alone. rewrite map_app. cbn [map]. now rewrite V. }
      assert (FN : forall p x q p' x' q', p ++ x :: q = p' ++ x' :: q' -> Forall fails p -> Forall fails p' ->
                 ~ @fails asd (list (list cert)) x -> ~ fails x' -> p = p' /\ x = x' /\ q = q').
      { clear. induction p as [|y p IH]; intros x q [|y' p'] x' q' Q A A' Nx Nx'; cbn [app] in Q; injection Q as E1 E2; subst.
        - auto.
        - exfalso. inversion A'; subst. contradiction.
        - exfalso. inversion A; subst. contradiction.
        - inversion A; inversion A'; subst. destruct (IH _ _ _ _ _ E2) as (-> & -> & ->); auto. }
      inversion Oc as [| |p a1 b1 q Ev Fp Hb Er|p a1 e1 Ev Fp Hb Er|p a1 e1 q Ev Fp Ie Hb Er].
      + rewrite Al in Ev. destruct (FN _ _ _ _ _ _ Ev Fl Fp) as (_ & Q & _).
        * intros (e & Q & _). discriminate Q.
        * intros (e & Q & _). discriminate Q.
        * now injection Q as -> ->.
      + exfalso. rewrite Al in Fp. apply Forall_app in Fp as [_ Fp]. inversion Fp as [|? ? Q]; subst.
        destruct Q as (e & Q & _). discriminate Q.
      + exfalso. rewrite Al in Ev. destruct (FN _ _ _ _ _ _ Ev Fl Fp) as (_ & Q & _).
        * intros (e & Q & _). discriminate Q.
        * intros (e & Q & Q'). cbn [snd] in Q. injection Q as <-. congruence.
        * discriminate Q.
  Qed.

  (** A file all of whose signatures are proper is accepted in every mode, also if improper
      countersignatures were permitted. *)
  Theorem c59_file :
    (forall a, In a l -> exists chains, properly_signed E w v expected a chains) ->
    exists N, forall fuel, (N <= fuel)%nat ->
    exists out, verify_result load E depth fuel mode expected ign v w = Ok out /\ out <> [] /\
      Forall (fun ac => In (fst ac) l /\ properly_signed E w v expected (fst ac) (snd ac)) out.
  Proof.
    intros P. destruct file_outcome as (sel & hash & C & H & N & O). exists N. intros fuel F.
    destruct (O fuel F) as (b & _ & Oc). clear O. assert (I := chosen_incl _ _ _ NE C).
    assert (X : forall a, In a sel -> exists chains, properly_signed E w v expected a chains /\
              snd (asd_verify E 0 a (Some (hash (digest_of a))) v w) = Ok chains).
    { intros a Ha. destruct (P a (I a Ha)) as (cs & Pa). exists cs. split; [exact Pa|].
      destruct (Re a (I a Ha)) as (cx & ls & R). eapply verdict_accepted; eauto. }
    assert (Al : forall a r, In (a, r) (alone E v hash sel w) -> exists cs, r = Ok cs /\ In a l /\ properly_signed E w v expected a cs).
    { intros a r Hr. unfold alone in Hr. apply in_map_iff in Hr as (a0 & Q & Ha). injection Q as <- <-.
      destruct (X a0 Ha) as (cs & Pa & V). exists cs. auto. }
    assert (NS : sel <> []).
    { destruct C as (C1 & C2 & C3). destruct (string_dec mode "first") as [M|M].
      - destruct (C1 M) as (? & ? & _ & ->). discriminate.
      - destruct (string_dec mode "best") as [M'|M'].
        + rewrite (C2 M'). apply best_ne. exact NE.
        + now rewrite (C3 M M'). }
    inversion Oc as [o Eo Hb Er|pre a e post Ev Hs Hb Er|pre a bb post Ev Fp Hb Er|pre a e Ev Fp Hb Er|pre a e q Ev Fp Ie Hb Er].
    - exists o. split; [reflexivity|]. split.
      + intros ->. cbn [map] in Eo. destruct sel; [now apply NS|discriminate Eo].
      + apply Forall_forall. intros [a cs] Ho. destruct (Al a (Ok cs)) as (cs' & Q & Pa).
        { rewrite <- Eo. apply in_map_iff. exists (a, cs). auto. }
        injection Q as ->. exact Pa.
    - exfalso. destruct (Al a (Err e)) as (? & ? & _); [rewrite Ev; apply in_or_app; right; now left|discriminate].
    - exists [(a, bb)]. split; [reflexivity|]. split; [discriminate|]. constructor; [|constructor].
      destruct (Al a (Ok bb)) as (cs' & Q & Pa); [rewrite Ev; apply in_or_app; right; now left|].
      injection Q as ->. exact Pa.
    - exfalso. destruct (Al a (Err e)) as (? & ? & _); [rewrite Ev; apply in_or_app; right; now left|discriminate].
    - exfalso. destruct (Al a (Err e)) as (? & ? & _); [rewrite Ev; apply in_or_app; right; now left|discriminate].
  Qed.
End FileLevel.
