(** Proofs about which octets are a verified file; statements in PropertiesSigned.v. *)
From Coq Require Import Lia ZifyBool ZifyNat.
From Verif Require Import Base Monad ModelFile ModelFingerprint ModelPE SpecFingerprint SpecPE ProofsPE ProofsPE2 ProofsPE3
  ModelX509 SpecX509 ModelContext ModelPkcs7 ModelLazy ModelAuthenticode ModelLazyFile ModelDecode SpecPkcs7 ProofsPkcs7
  SpecAuthenticode SpecSignedPE ProofsSignedPE SpecDer ProofsLazy ProofsLazy2 SpecEnvelope ProofsEnvelope2 SpecOctets ProofsOctets
  SpecFrame SpecComplete SpecExact ProofsExact2 SpecWhole ProofsWhole ProofsDecode4 SpecAccepted ProofsAccepted4 ProofsAccepted5 SpecSigned.

From Verif Require ProofsFrame2 ProofsSignedPE2.

(** ** The table *)

Lemma table_at_secs f addr lim : table_at (f_bytes f) addr lim <->
  exists d s, snd (omit_sections f) = Ok (Some d) /\ dict_get "certtable" d = Some s /\ addr = rel_start s /\ lim = rel_start s + rel_length s.
Proof.
  destruct (c09 f) as [Hn Hs]. split.
  - intros (opt & size & magic & len & U & C & ->). destruct (Hs _ _ _ U) as (d & D & _ & _ & Ct & _).
    exists d, (mkRel addr len). split; [exact D|]. split; [apply Ct; exact C|]. split; reflexivity.
  - intros (d & s & D & G & -> & ->).
    assert (Us : exists opt size magic, SpecPE.usable (f_bytes f) opt size magic).
    { destruct (omit_sections_spec f) as (r & H1 & H2 & _). rewrite H1 in D. injection D as ->. inversion H2. eauto. }
    destruct Us as (opt & size & magic & U).
    destruct (Hs _ _ _ U) as (d' & D' & _ & _ & Ct & _). rewrite D in D'. injection D' as <-.
    exists opt, size, magic, (rel_length s). split; [exact U|]. split; [apply Ct; exact G|reflexivity].
Qed.

(** One list of consecutive entries is the beginning of the other. *)
Lemma entries_prefix data lim : forall es p last es' last',
  entries_at data lim p es last -> entries_at data lim p es' last' ->
  (exists r, es' = es ++ r /\ entries_at data lim last r last') \/
  (exists e r, es = es' ++ e :: r /\ last' < lim /\ entry_at data lim last' e).
Proof.
  induction es as [|e es IH]; intros p last es' last' H H'.
  - cbn in H. subst p. left. exists es'. split; [reflexivity|exact H'].
  - destruct es' as [|e' es'].
    + cbn in H'. subst p. destruct H as (L & He & _). right. exists e, es. split; [reflexivity|]. split; assumption.
    + destruct H as (L & He & H), H' as (L' & He' & H').
      assert (e' = e) as -> by (destruct He as (_ & _ & ->), He' as (_ & _ & ->); reflexivity).
      destruct (IH _ _ _ _ H H') as [(r & -> & R)|(x & r & -> & R)]; [left; exists r|right; exists x, r]; split; try reflexivity; assumption.
Qed.

Lemma entry_no_bad data lim p e : lim <= zlen data -> entry_at data lim p e -> ~ bad_header data lim p.
Proof. intros L (H1 & H2 & _) [B|[B|B]]; lia. Qed.

Lemma table_inside data addr lim : table_at data addr lim -> lim <= zlen data.
Proof. intros (opt & size & magic & len & _ & (_ & _ & _ & _ & _ & H) & ->). exact H. Qed.

(** What the walk over the table finds: [es] up to [last], and then the end or a bad header. *)
Lemma table_walk f addr lim : table_at (f_bytes f) addr lim ->
  exists es x last, terminates_with (fun n => cert_table n f) (es, x) /\ entries_at (f_bytes f) lim addr es last /\
    ((x = None /\ lim <= last) \/
     (exists e, x = Some e /\ e_class e = SignedPEParseError /\ last < lim /\ bad_header (f_bytes f) lim last)).
Proof.
  intros T. apply table_at_secs in T. destruct T as (d & s & D & G & -> & ->).
  destruct (c14_table f d s D G) as (es & x & ps & last & H1 & H2 & _ & _ & H3). exists es, x, last. auto.
Qed.

Lemma no_table_walk f : (forall addr lim, ~ table_at (f_bytes f) addr lim) ->
  exists e, e_class e = SignedPEParseError /\ terminates_with (fun n => cert_table n f) ([], Some e).
Proof.
  intros N. apply c14_no_table. intros d s D G. apply (N (rel_start s) (rel_start s + rel_length s)).
  apply table_at_secs. exists d, s. auto.
Qed.

(** ** Entries *)

Lemma unfolds_of : forall a, unfolds a (recursive_nested true a).
Proof.
  fix IH 1. intros [d s [i cs nested] pe]. cbn [recursive_nested].
  assert (F : exists ls, Forall2 unfolds nested ls /\ flat_map (recursive_nested true) nested = concat ls).
  { revert nested. fix IH2 1. intros [|x xs].
    - exists []. split; [constructor|reflexivity].
    - destruct (IH2 xs) as (ls & F & Q). exists (recursive_nested true x :: ls). split; [constructor; [apply IH|exact F]|].
      cbn [flat_map concat]. rewrite Q. reflexivity. }
  destruct F as (ls & F & Q). rewrite Q. constructor. exact F.
Qed.
Lemma unfolds_some a l : unfolds a l -> l <> [].
Proof. intros [d s i cs nested pe ls F] H. discriminate H. Qed.

Definition at_depth (load : loader) (depth : nat) : Prop :=
  forall b, from_envelope load depth true b = lz_from_envelope der_loader depth true b.

Lemma not_silenced depth b e : lz_from_envelope der_loader depth true b = Err e -> issubclass (e_class e) SignedPEParseError = false.
Proof.
  intros H. apply der_errors in H. destruct H as [H|H]; [rewrite <- H; reflexivity|].
  unfold parse_errors in H. repeat (destruct H as [H|H]; [rewrite <- H; reflexivity|]). destruct H.
Qed.

Lemma entries_back load depth ign tail : at_depth load depth ->
  forall es found l x, pure_iter load depth true tail es found = (l, x) -> silenced ign x = None ->
  (found = true \/ l <> []) ->
  exists es1 r, es = es1 ++ r /\ entries_signed es1 l /\
    ((r = [] /\ x = tail) \/ (exists c r', r = c :: r' /\ ce_revision c <> 0x200 /\ ign = true)).
Proof.
  intros L. induction es as [|c es IH]; intros found l x H Si F; cbn [pure_iter] in H.
  - injection H as <- <-. exists [], []. split; [reflexivity|]. split; [constructor|]. left. split; [reflexivity|].
    destruct F as [->|F]; [|congruence]. destruct tail; reflexivity.
  - destruct (Z.eqb_spec (ce_revision c) 0x200) as [R|R]; cbn [negb] in H.
    2:{ injection H as <- <-. exists [], (c :: es). split; [reflexivity|]. split; [constructor|]. right. exists c, es.
        split; [reflexivity|]. split; [exact R|]. cbn in Si. destruct ign; [reflexivity|discriminate Si]. }
    destruct (Z.eqb_spec (ce_type c) 2) as [T|T].
    + rewrite L in H. destruct (lz_from_envelope der_loader depth true (ce_certificate c)) as [a|e] eqn:Q.
      * destruct (pure_iter load depth true tail es true) as [l' x'] eqn:P. injection H as <- <-.
        destruct (IH true l' x' P Si (or_introl eq_refl)) as (es1 & r & -> & Hs & C).
        exists (c :: es1), r. split; [reflexivity|]. split; [|exact C].
        apply (signed_one c es1 a); [exact R|exact T|exact (envelope_back _ _ _ _ Q)|apply unfolds_of|exact Hs].
      * injection H as <- <-. unfold silenced in Si. rewrite (not_silenced _ _ _ Q) in Si. discriminate Si.
    + destruct (IH found l x H Si F) as (es1 & r & -> & Hs & C). exists (c :: es1), r. split; [reflexivity|].
      split; [apply signed_other; assumption|exact C].
Qed.

Lemma entries_on es l : entries_signed es l -> exists n, forall depth load, (n <= depth)%nat -> at_depth load depth ->
  forall tail r found, exists found', (found' = true <-> found = true \/ l <> []) /\
  pure_iter load depth true tail (es ++ r) found =
    (l ++ fst (pure_iter load depth true tail r found'), snd (pure_iter load depth true tail r found')).
Proof.
  induction 1 as [|c es l R T H IH|c es a la l R T Ho U H IH].
  - exists O. intros depth load _ _ tail r found. exists found. split; [tauto|]. cbn [app]. destruct (pure_iter _ _ _ _ r found); reflexivity.
  - destruct IH as (n & IH). exists n. intros depth load Hd L tail r found. destruct (IH depth load Hd L tail r found) as (f' & Hf & IH').
    exists f'. split; [exact Hf|]. cbn [app pure_iter]. rewrite R. cbn [negb Z.eqb Pos.eqb].
    destruct (Z.eqb_spec (ce_type c) 2); [contradiction|]. exact IH'.
  - destruct IH as (n & IH). destruct (envelope_at _ _ _ Ho) as (m & A). exists (n + m)%nat. intros depth load Hd L tail r found.
    destruct (IH depth load ltac:(lia) L tail r true) as (f' & Hf & IH').
    exists f'. split.
    + split; [|intros _; apply Hf; left; reflexivity]. intros _. right. intro Z. apply app_eq_nil in Z. exact (unfolds_some _ _ U (proj1 Z)).
    + cbn [app pure_iter]. rewrite R, T. cbn [negb Z.eqb Pos.eqb]. rewrite L, (A depth ltac:(lia)), IH', (unfolds_nested _ _ U).
      rewrite app_assoc. reflexivity.
Qed.

(** ** The iteration *)

Lemma iterated_back load depth ign f l : at_depth load depth ->
  terminates_with (fun k => iterate load depth true ign k f) (l, None) -> l <> [] -> signed_octets ign (f_bytes f) l.
Proof.
  intros L I Ne. split; [exact Ne|].
  assert (D : (exists addr lim, table_at (f_bytes f) addr lim) \/ forall addr lim, ~ table_at (f_bytes f) addr lim).
  { destruct (snd (omit_sections f)) as [[d|]|e] eqn:Q; [destruct (dict_get "certtable" d) as [s|] eqn:G|..].
    - left. exists (rel_start s), (rel_start s + rel_length s). apply table_at_secs. exists d, s. auto.
    - right. intros addr lim T. apply table_at_secs in T. destruct T as (d' & s & Q' & G' & _). congruence.
    - right. intros addr lim T. apply table_at_secs in T. destruct T as (d' & s & Q' & G' & _). congruence.
    - right. intros addr lim T. apply table_at_secs in T. destruct T as (d' & s & Q' & G' & _). congruence. }
  destruct D as [(addr & lim & T)|N].
  - destruct (table_walk _ _ _ T) as (es & x & last & W & A & C).
    pose proof (iterate_pure load depth true ign f es x W) as P. cbv zeta in P.
    pose proof (terminates_unique _ _ _ I P) as U. injection U as Ul Ux. clear P.
    destruct (pure_iter load depth true x es false) as [l' y] eqn:Pi. cbn [fst snd] in Ul, Ux. subst l'.
    destruct (entries_back _ _ ign _ L _ _ _ _ Pi (eq_sym Ux) (or_intror Ne)) as (es1 & r & -> & Hs & Cr).
    exists es1. split; [|exact Hs]. exists addr, lim.
    destruct Cr as [(-> & ->)|(c & r' & -> & Rc & Hi)].
    + rewrite app_nil_r in A. exists last. split; [exact T|]. split; [exact A|].
      destruct C as [(-> & C)|(e & -> & Ce & Cl & Cb)]; [left; exact C|right]. cbn in Ux. unfold silenced in Ux. rewrite Ce in Ux. cbn in Ux.
      destruct ign; [|discriminate Ux]. split; [reflexivity|]. split; [exact Cl|left; exact Cb].
    + assert (M : exists mid, entries_at (f_bytes f) lim addr es1 mid /\ entries_at (f_bytes f) lim mid (c :: r') last).
      { clear -A. revert addr A. induction es1 as [|e es1 IH]; intros addr A.
        - exists addr. split; [reflexivity|exact A].
        - destruct A as (A1 & A2 & A3). destruct (IH _ A3) as (mid & B1 & B2). exists mid. split; [|exact B2]. split; [exact A1|]. split; assumption. }
      destruct M as (mid & A1 & (A2 & A3 & _)). exists mid. split; [exact T|]. split; [exact A1|]. right. split; [exact Hi|].
      split; [exact A2|]. right. exists c. split; assumption.
  - destruct (no_table_walk f N) as (e & _ & W). exfalso. apply Ne.
    pose proof (iterate_pure load depth true ign f [] (Some e) W) as P. cbn in P.
    pose proof (terminates_unique _ _ _ I P) as U. injection U as Ul Ux. exact Ul.
Qed.

Lemma iterated_at ign f l : signed_octets ign (f_bytes f) l ->
  exists n, forall depth load, (n <= depth)%nat -> at_depth load depth ->
  terminates_with (fun k => iterate load depth true ign k f) (l, None).
Proof.
  intros (Ne & es & (addr & lim & last & T & A & C) & Hs).
  destruct (entries_on _ _ Hs) as (n & On). exists n. intros depth load Hd L.
  pose proof (table_inside _ _ _ T) as In.
  destruct (table_walk _ _ _ T) as (es' & x & last' & W & A' & C').
  pose proof (iterate_pure load depth true ign f es' x W) as P. cbv zeta in P.
  assert (G : exists r, es' = es ++ r /\ entries_at (f_bytes f) lim last r last').
  { destruct (entries_prefix _ _ _ _ _ _ _ A A') as [G|(e & r & _ & Lt & He)]; [exact G|].
    destruct C' as [(_ & C')|(y & _ & _ & _ & B)]; [lia|]. destruct (entry_no_bad _ _ _ _ In He B). }
  destruct G as (r & -> & Ar). destruct (On depth load Hd L x r false) as (f' & Hf & Q). rewrite Q in P. cbn [fst snd] in P.
  assert (f' = true) as -> by (apply Hf; right; exact Ne).
  assert (K : pure_iter load depth true x r true = ([], snd (pure_iter load depth true x r true)) /\
              silenced ign (snd (pure_iter load depth true x r true)) = None).
  { destruct C as [C|(-> & Lt & [B|(e & He & Re)])].
    - destruct r as [|c r]; [|destruct Ar as (Lt & _); lia]. cbn in Ar. subst last'.
      destruct C' as [(-> & _)|(y & _ & _ & Lt & _)]; [|lia]. split; reflexivity.
    - destruct r as [|c r]; [|destruct Ar as (_ & He & _); destruct (entry_no_bad _ _ _ _ In He B)]. cbn in Ar. subst last'.
      destruct C' as [(_ & C')|(y & -> & Cy & _ & _)]; [lia|]. cbn. split; [reflexivity|]. rewrite Cy. reflexivity.
    - destruct r as [|c r].
      + cbn in Ar. subst last'. destruct C' as [(_ & C')|(y & _ & _ & _ & B)]; [lia|]. destruct (entry_no_bad _ _ _ _ In He B).
      + destruct Ar as (_ & Hc & _). assert (c = e) as -> by (destruct He as (_ & _ & ->), Hc as (_ & _ & ->); reflexivity).
        cbn [pure_iter]. destruct (Z.eqb_spec (ce_revision e) 0x200); [contradiction|]. split; reflexivity. }
  destruct K as (K1 & K2). rewrite K2, K1 in P. cbn [fst] in P. rewrite app_nil_r in P. exact P.
Qed.

Definition loads depth : loader := complete der_loader depth true.
Lemma loads_at depth : at_depth (loads depth) depth.
Proof. intro b. apply complete_spec. Qed.

Lemma octets_iterated depth ign f x :
  terminates_with (fun k => octets_iterate depth ign k f) x <-> terminates_with (fun k => iterate (loads depth) depth true ign k f) x.
Proof.
  assert (Q : forall k, octets_iterate depth ign k f = iterate (loads depth) depth true ign k f).
  { intros k. unfold octets_iterate, iterate. destruct (signed_pe_init f) as [f' flen].
    rewrite <- (agree_iter der_loader (loads depth) depth (loads_at depth)). reflexivity. }
  unfold terminates_with. split; intros (N & H); exists N; intros k Hk; specialize (H k Hk); [rewrite <- Q|rewrite Q]; exact H.
Qed.

Theorem c87_read ign f l : l <> [] ->
  (exists depth, terminates_with (fun k => octets_iterate depth ign k f) (l, None)) <-> signed_octets ign (f_bytes f) l.
Proof.
  intros Ne. split.
  - intros (depth & I). apply octets_iterated in I. exact (iterated_back _ _ _ _ _ (loads_at depth) I Ne).
  - intros S. destruct (iterated_at _ _ _ S) as (n & H). exists n. apply octets_iterated. apply (H n _ (le_n n) (loads_at n)).
Qed.

Lemma octets_settled E depth expected ign v mode w r :
  octets_settle E depth expected ign v mode w r <-> settles (loads depth) E depth expected ign v mode w r.
Proof.
  unfold octets_settle, settles, lz_verify_result, verify_result.
  split; intros (N & H); exists N; intros fuel Hf; specialize (H fuel Hf);
    rewrite <- H; rewrite (agree_verify der_loader (loads depth) depth (loads_at depth)); reflexivity.
Qed.

Lemma settled_some load E depth mode expected ign v w :
  terminates_with (fun k => iterate load depth true ign k (w_file w)) ([], None) ->
  forall out, ~ settles load E depth expected ign v mode w (Ok out).
Proof.
  intros [N Hi] out [N' G]. destruct (ProofsSignedPE2.open_eq load E depth N mode expected ign v w _ _ (Hi N ltac:(lia))) as (w1 & _ & Q).
  specialize (G (N + N')%nat ltac:(lia)). unfold verify_result in G. rewrite (Q (N + N')%nat ltac:(lia)) in G. discriminate G.
Qed.

Lemma settles_exact E depth mode expected ign v w : lawful E ->
  (forall l, signed_octets ign (f_bytes (w_file w)) l -> shareable w v l /\ forall a, In a l -> tidy w v a) ->
  forall out, settles (loads depth) E depth expected ign v mode w (Ok out) <->
  exists l, terminates_with (fun k => iterate (loads depth) depth true ign k (w_file w)) (l, None) /\ l <> [] /\
    known_names E expected /\ accepted_as E w v expected mode l out.
Proof.
  intros Lw H out. destruct (ProofsFrame2.iterate_terminates (loads depth) depth ign (w_file w)) as (l & x & Hi).
  assert (D : (l, x) = ([], None) \/ (l, x) <> ([], None)) by (destruct l, x; [right; discriminate|left; reflexivity|right; discriminate|right; discriminate]).
  destruct D as [D|D].
  - rewrite D in Hi. split.
    + intros S. destruct (settled_some _ _ _ _ _ _ _ _ Hi _ S).
    + intros (l' & Hi' & Ne & _). pose proof (terminates_unique _ _ _ Hi Hi') as U. congruence.
  - apply c64_file; [exact Lw|]. intros l' Hi'. pose proof (terminates_unique _ _ _ Hi Hi') as U. rewrite U in D.
    apply H. apply (iterated_back _ _ _ _ _ (loads_at depth) Hi'). intros ->. apply D. reflexivity.
Qed.

Theorem c87_exact E mode expected ign v w : lawful E ->
  (forall l, signed_octets ign (f_bytes (w_file w)) l -> shareable w v l /\ forall a, In a l -> tidy w v a) ->
  forall out, (exists depth, octets_settle E depth expected ign v mode w (Ok out)) <->
  exists l, signed_octets ign (f_bytes (w_file w)) l /\ known_names E expected /\ accepted_as E w v expected mode l out.
Proof.
  intros Lw H out. split.
  - intros (depth & S). apply octets_settled in S. apply (settles_exact _ _ _ _ _ _ _ Lw H) in S.
    destruct S as (l & Hi & Ne & K & A). exists l. split; [exact (iterated_back _ _ _ _ _ (loads_at depth) Hi Ne)|]. split; assumption.
  - intros (l & S & K & A). destruct (iterated_at _ _ _ S) as (n & Hn). exists n. apply octets_settled.
    apply (settles_exact _ _ _ _ _ _ _ Lw H). exists l. split; [exact (Hn n _ (le_n n) (loads_at n))|]. split; [exact (proj1 S)|]. split; assumption.
Qed.

(** A file has at most one list of signatures. *)
Theorem c87_unique ign data l l' : signed_octets ign data l -> signed_octets ign data l' -> l = l'.
Proof.
  intros S S'. destruct (iterated_at ign (mkFile data 0) l S) as (n & H). destruct (iterated_at ign (mkFile data 0) l' S') as (m & H').
  specialize (H (n + m)%nat _ ltac:(lia) (loads_at _)). specialize (H' (n + m)%nat _ ltac:(lia) (loads_at _)).
  pose proof (terminates_unique _ _ _ H H') as U. congruence.
Qed.

Lemma table_at_fun data addr lim addr' lim' : table_at data addr lim -> table_at data addr' lim' -> addr = addr' /\ lim = lim'.
Proof.
  intros T T'. apply (table_at_secs (mkFile data 0)) in T. apply (table_at_secs (mkFile data 0)) in T'.
  destruct T as (d & s & D & G & -> & ->), T' as (d' & s' & D' & G' & -> & ->). rewrite D in D'. injection D' as <-.
  rewrite G in G'. injection G' as <-. split; reflexivity.
Qed.
Lemma signed_revisions es l : entries_signed es l -> Forall (fun c => ce_revision c = 0x200) es.
Proof. induction 1; constructor; assumption. Qed.

(** A table with an entry of another revision. *)
Theorem not_signed data addr lim es last l : table_at data addr lim -> entries_at data lim addr es last -> lim <= last ->
  ~ Forall (fun c => ce_revision c = 0x200) es -> ~ signed_octets false data l.
Proof.
  intros T A Le N (_ & es' & (addr' & lim' & last' & T' & A' & [C|(C & _)]) & H); [|discriminate C].
  destruct (table_at_fun _ _ _ _ _ T T') as (<- & <-). apply signed_revisions in H. apply N. clear N.
  destruct (entries_prefix _ _ _ _ _ _ _ A' A) as [(r & -> & R)|(e & r & -> & Lt & _)]; [|lia].
  destruct r as [|e r]; [rewrite app_nil_r; exact H|]. destruct R as (Lt & _). lia.
Qed.
