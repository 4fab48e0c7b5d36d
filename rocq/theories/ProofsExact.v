(** Proofs about exact acceptance. *)
From Verif Require Import Base Bytes Monad ModelFile ModelFingerprint ModelPE SpecFingerprint SpecPE
  ModelX509 SpecX509 ProofsFingerprint ProofsX509b ProofsPE ProofsPE2 ProofsPE3 ModelContext SpecContext ProofsContext ProofsContext2
  ModelPkcs7 ModelAuthenticode SpecPkcs7 SpecAuthenticode ProofsSigner ProofsSigner2 ProofsVerify ProofsVerify2 ProofsVerify3
  ProofsVerify5 SpecSignedPE SpecComplete ProofsComplete SpecExact.

Lemma fmt_cases {A} c k m : issubclass k Exception_ = true -> exists e, @raise_fmt A c k m = Err e /\ ordinary e /\
  (printable c -> e_class e = k) /\ (~ printable c -> e_class e = TypeError).
Proof.
  intros K. destruct (printable_dec c) as [P|P].
  - rewrite (printable_fmt c k m P). eexists. split; [reflexivity|]. split; [exact K|]. split; [reflexivity|contradiction].
  - destruct (@unprintable_fmt A c k m P) as (e & F & T). exists e. split; [exact F|]. unfold ordinary. rewrite T.
    split; [reflexivity|]. split; [contradiction|reflexivity].
Qed.

(** A result: accepted, passed over, or an ordinary error that ends the search. *)
Lemma signature_cases E i c legacy : lawful E ->
  (verify_issuer_signature E i c legacy = Ok tt /\ signs E legacy i c) \/
  (~ signs E legacy i c /\ exists e, verify_issuer_signature E i c legacy = Err e /\ ordinary e /\
     (issubclass (e_class e) VerificationError = true <-> declines E legacy i c)).
Proof.
  intros (L1 & L2 & L3 & L4 & _). destruct (verify_issuer_signature E i c legacy) as [[]|e] eqn:V.
  { left. split; [reflexivity|]. now apply issuer_signature_exact. }
  right. assert (NS : ~ signs E legacy i c).
  { intros S. apply issuer_signature_exact in S. congruence. }
  split; [exact NS|]. exists e. split; [reflexivity|].
  assert (D : forall alg, e_load_key E (c_key c) = Ok alg -> (declines E legacy i c <-> printable c)).
  { intros alg Hk. unfold declines. split; [intros (_ & _ & P); exact P|]. intros P. split; [exact NS|]. split; [eauto|exact P]. }
  (* a verification error of verify_signature is reported again *)
  assert (Again : forall e', (printable c -> e_class e' = CertificateVerificationError) -> (~ printable c -> e_class e' = TypeError) ->
    (if catches VerificationError e'
     then @raise_fmt unit c SignerInfoVerificationError "Could not verify the signer of the authenticated attributes"
     else Err e') = Err e ->
    ordinary e /\ (issubclass (e_class e) VerificationError = true <-> printable c)).
  { intros e' P1 P2 H. destruct (printable_dec c) as [P|P].
    - unfold catches in H. rewrite (P1 P) in H. cbn [issubclass] in H.
      destruct (@fmt_cases unit c SignerInfoVerificationError "Could not verify the signer of the authenticated attributes" eq_refl) as (e2 & F & O & K & _).
      change (issubclass CertificateVerificationError VerificationError) with true in H. cbv iota in H.
      rewrite F in H. injection H as <-. split; [exact O|]. rewrite (K P). split; [auto|reflexivity].
    - unfold catches in H. rewrite (P2 P) in H. change (issubclass TypeError VerificationError) with false in H. cbv iota in H.
      injection H as <-. unfold ordinary. rewrite (P2 P). split; [reflexivity|]. split; [discriminate|contradiction]. }
  unfold verify_issuer_signature, verify_signature in V.
  destruct (e_load_key E (c_key c)) as [alg|e0] eqn:Hk; cbn [rbind] in V.
  2:{ destruct (L1 _ _ Hk) as [O F]. unfold catches in V. rewrite F in V. injection V as <-.
      split; [exact O|]. split; [congruence|]. intros (_ & (k & Q) & _). congruence. }
  rewrite (D alg eq_refl).
  assert (Fin : forall m e', @raise_fmt unit c CertificateVerificationError m = Err e' ->
      (printable c -> e_class e' = CertificateVerificationError) /\ (~ printable c -> e_class e' = TypeError)).
  { intros m e' F'. destruct (@fmt_cases unit c CertificateVerificationError m eq_refl) as (e2 & F & _ & P1 & P2).
    rewrite F' in F. injection F as ->. auto. }
  assert (Fmt : forall m, (match @raise_fmt unit c CertificateVerificationError m with
     | Ok _ => Ok tt
     | Err e => if catches VerificationError e then raise_fmt c SignerInfoVerificationError "Could not verify the signer of the authenticated attributes" else Err e
     end) = Err e -> ordinary e /\ (issubclass (e_class e) VerificationError = true <-> printable c)).
  { intros m H. destruct (@raise_fmt unit c CertificateVerificationError m) as [u|e'] eqn:F; [now apply raise_fmt_not_ok in F|].
    destruct (Fin m e' F) as [P1 P2]. exact (Again e' P1 P2 H). }
  destruct (String.eqb alg "rsa") eqn:A1; cbn [rbind] in V.
  { destruct (e_rsa_verify E (c_key c) (si_signature i) (si_encoded i) (si_digest_alg i)) as [[]|e1] eqn:R; [discriminate V|].
    pose proof (L2 _ _ _ _ _ R) as O1. unfold catches at 1 in V. rewrite O1 in V. cbn [negb] in V.
    destruct (negb legacy || false); [exact (Fmt _ V)|].
    destruct (e_rsa_verify E (c_key c) (si_signature i) (e_hash E (si_digest_alg i) (si_encoded i)) "raw") as [[]|e2] eqn:R2; [discriminate V|].
    pose proof (L2 _ _ _ _ _ R2) as O2. unfold catches at 1 in V. rewrite O2 in V. cbn [negb] in V. exact (Fmt _ V). }
  assert (G : forall f : spki -> bytes -> bytes -> string -> res unit, (forall k s d a e, f k s d a = Err e -> ordinary e) ->
     (match match f (c_key c) (si_signature i) (si_encoded i) (si_digest_alg i) with
        | Ok _ => Ok tt
        | Err e0 => if negb (catches Exception_ e0) then Err e0
                    else if negb legacy || negb false then @raise_fmt unit c CertificateVerificationError "Invalid signature"
                    else match e_rsa_verify E (c_key c) (si_signature i) (e_hash E (si_digest_alg i) (si_encoded i)) "raw" with
                         | Ok _ => Ok tt
                         | Err e' => if negb (catches Exception_ e') then Err e' else raise_fmt c CertificateVerificationError "Invalid signature (legacy attempted)"
                         end
        end with
      | Ok _ => Ok tt
      | Err e => if catches VerificationError e then raise_fmt c SignerInfoVerificationError "Could not verify the signer of the authenticated attributes" else Err e
      end) = Err e -> ordinary e /\ (issubclass (e_class e) VerificationError = true <-> printable c)).
  { intros f Hf H. destruct (f (c_key c) (si_signature i) (si_encoded i) (si_digest_alg i)) as [[]|e1] eqn:R; [discriminate H|].
    unfold catches at 1 in H. rewrite (Hf _ _ _ _ _ R) in H. cbn [negb] in H. rewrite orb_true_r in H. exact (Fmt _ H). }
  destruct (String.eqb alg "dsa"); cbn [rbind] in V; [exact (G _ L3 V)|].
  destruct (String.eqb alg "ec"); cbn [rbind] in V; [exact (G _ L4 V)|].
  destruct (@raise_fmt (spki -> bytes -> bytes -> string -> res unit) c CertificateVerificationError "Signature algorithm is unsupported") as [u|e'] eqn:F;
    [now apply raise_fmt_not_ok in F|]. cbn [rbind] in V.
  destruct (@fmt_cases (spki -> bytes -> bytes -> string -> res unit) c CertificateVerificationError "Signature algorithm is unsupported" eq_refl) as (e2 & F' & _ & P1 & P2).
  rewrite F in F'. injection F' as ->. exact (Again _ P1 P2 V).
Qed.

(** ** Trust *)

Lemma p_store_cases E cx s root rest : stable cx ->
  (p_store E cx s (root :: rest) = Ok true /\
   store_accepts E s (contents s) (root :: rest) (asked_time E cx) (asked_usages cx)) \/
  (~ store_accepts E s (contents s) (root :: rest) (asked_time E cx) (asked_usages cx) /\
   exists e, p_store E cx s (root :: rest) = Err e /\ ordinary e /\
     (issubclass (e_class e) VerificationError = true <-> passes_over E s (contents s) (root :: rest) (asked_time E cx) (asked_usages cx))).
Proof.
  intros St. set (w := mkWorld [loaded s] [cx] (mkFile [] 0)).
  assert (Hs : nth_error (w_stores w) 0 = Some (loaded s)) by reflexivity.
  assert (Hc : nth_error (w_contexts w) 0 = Some cx) by reflexivity.
  pose proof (store_verify_trust_pure E 0 (loaded s) (root :: rest) w 0 cx Hs (ready_loaded_store s) Hc St) as P.
  rewrite (p_store_view E cx s (loaded s) _ (same_view_loaded s)) in P.
  destruct (same_view_loaded s) as (_ & T & K & _).
  assert (SA : store_accepts E (loaded s) (s_items (loaded s)) (root :: rest) (asked_time E cx) (asked_usages cx) <->
               store_accepts E s (contents s) (root :: rest) (asked_time E cx) (asked_usages cx)).
  { unfold store_accepts. rewrite items_loaded, T, K. tauto. }
  assert (PO : passes_over E (loaded s) (s_items (loaded s)) (root :: rest) (asked_time E cx) (asked_usages cx) <-> passes_over E s (contents s) (root :: rest) (asked_time E cx) (asked_usages cx)).
  { unfold passes_over, holds. rewrite items_loaded, T, K. tauto. }
  destruct (store_accepts_dec E 0 (loaded s) root rest w 0 cx Hs Hc St) as [[V A]|NA].
  - left. split; [|now apply SA]. rewrite V in P. congruence.
  - right. split; [now rewrite <- SA|].
    destruct (store_passes E 0 (loaded s) root rest w 0 cx Hs Hc St NA) as (e & V & Q).
    exists e. split; [rewrite V in P; congruence|]. split; [|now rewrite Q].
    destruct (store_verify_trust_spec E 0 (loaded s) root rest w 0 cx Hs Hc St) as [[V' _]|(_ & e' & V' & C)]; [congruence|].
    rewrite V in V'. injection V' as <-. unfold ordinary.
    destruct C as [(_ & _ & [C|C])|(_ & _ & [C|[C|C]] & _)]; now rewrite C.
Qed.

Lemma ve_ordinary e : issubclass (e_class e) VerificationError = true -> ordinary e.
Proof. unfold ordinary. destruct (e_class e); try reflexivity; discriminate. Qed.
Lemma not_trusted_ve e : issubclass (e_class e) CertificateNotTrustedVerificationError = true ->
  issubclass (e_class e) VerificationError = true.
Proof. destruct (e_class e); try reflexivity; discriminate. Qed.

Lemma p_trust_loop_cases E cx root rest l : stable cx -> forall last,
  (forall e, last = Some e -> issubclass (e_class e) VerificationError = true) ->
  ((exists o, p_trust_loop E cx (root :: rest) l last = Ok (true, o)) /\
   vouches E contents l (root :: rest) (asked_time E cx) (asked_usages cx)) \/
  (~ vouches E contents l (root :: rest) (asked_time E cx) (asked_usages cx) /\
   ((exists o, p_trust_loop E cx (root :: rest) l last = Ok (false, o) /\
       (forall e, o = Some e -> issubclass (e_class e) VerificationError = true) /\
       Forall (fun s => passes_over E s (contents s) (root :: rest) (asked_time E cx) (asked_usages cx)) l) \/
    (exists e, p_trust_loop E cx (root :: rest) l last = Err e /\ ordinary e /\
       issubclass (e_class e) VerificationError = false /\ ~ Forall (fun s => passes_over E s (contents s) (root :: rest) (asked_time E cx) (asked_usages cx)) l))).
Proof.
  intros St. induction l as [|s l IH]; intros last La; cbn [p_trust_loop].
  - right. split; [intros (pre & s & post & EQ & _); destruct pre; discriminate EQ|].
    left. exists last. auto.
  - destruct (p_store_cases E cx s root rest St) as [[P A]|(NA & e & P & O & V)]; rewrite P.
    + left. split; [eauto|]. exists [], s, l. auto.
    + assert (VL : vouches E contents (s :: l) (root :: rest) (asked_time E cx) (asked_usages cx) <->
                   passes_over E s (contents s) (root :: rest) (asked_time E cx) (asked_usages cx) /\ vouches E contents l (root :: rest) (asked_time E cx) (asked_usages cx)).
      { split.
        - intros ([|s0 pre] & s1 & post & EQ & A & F); injection EQ as EQ1 EQ2; [subst s1; contradiction|]. subst s0 l.
          inversion F; subst. split; [assumption|]. exists pre, s1, post. auto.
        - intros (Po & pre & s1 & post & EQ & A & F). subst l.
          exists (s :: pre), s1, post. repeat split; auto; try apply A. }
      rewrite VL. unfold catches.
      assert (G : forall last', (forall e, last' = Some e -> issubclass (e_class e) VerificationError = true) ->
        issubclass (e_class e) VerificationError = true ->
        ((exists o, p_trust_loop E cx (root :: rest) l last' = Ok (true, o)) /\
         passes_over E s (contents s) (root :: rest) (asked_time E cx) (asked_usages cx) /\ vouches E contents l (root :: rest) (asked_time E cx) (asked_usages cx)) \/
        (~ (passes_over E s (contents s) (root :: rest) (asked_time E cx) (asked_usages cx) /\ vouches E contents l (root :: rest) (asked_time E cx) (asked_usages cx)) /\
         ((exists o, p_trust_loop E cx (root :: rest) l last' = Ok (false, o) /\
             (forall e, o = Some e -> issubclass (e_class e) VerificationError = true) /\
             Forall (fun s => passes_over E s (contents s) (root :: rest) (asked_time E cx) (asked_usages cx)) (s :: l)) \/
          (exists e, p_trust_loop E cx (root :: rest) l last' = Err e /\ ordinary e /\
             issubclass (e_class e) VerificationError = false /\ ~ Forall (fun s => passes_over E s (contents s) (root :: rest) (asked_time E cx) (asked_usages cx)) (s :: l))))).
      { intros last' La' Ve. apply V in Ve. destruct (IH last' La') as [[H1 H2]|[H1 H2]]; [left; auto|].
        right. split; [tauto|]. destruct H2 as [(o & H2 & H3 & H4)|(e' & H2 & H3 & H4 & H5)].
        - left. exists o. split; [exact H2|]. split; [exact H3|]. apply Forall_cons; assumption.
        - right. exists e'. split; [exact H2|]. split; [exact H3|]. split; [exact H4|].
          intros F. apply H5. now inversion F. }
      destruct (issubclass (e_class e) CertificateNotTrustedVerificationError) eqn:K1.
      { apply G; [exact La|now apply not_trusted_ve]. }
      destruct (issubclass (e_class e) VerificationError) eqn:K2.
      { apply G; [|reflexivity]. intros e' [= <-]. exact K2. }
      right. assert (NP : ~ passes_over E s (contents s) (root :: rest) (asked_time E cx) (asked_usages cx)) by (intros Q; apply V in Q; discriminate Q).
      split; [tauto|]. right. exists e. split; [reflexivity|]. split; [exact O|]. split; [exact K2|].
      intros F. apply NP. now inversion F.
Qed.

Lemma p_trust_cases E cx root rest l : stable cx ->
  (p_trust E cx (root :: rest) l = Ok true /\
   vouches E contents l (root :: rest) (asked_time E cx) (asked_usages cx)) \/
  (~ vouches E contents l (root :: rest) (asked_time E cx) (asked_usages cx) /\
   exists e, p_trust E cx (root :: rest) l = Err e /\ ordinary e /\
     (issubclass (e_class e) VerificationError = true <-> Forall (fun s => passes_over E s (contents s) (root :: rest) (asked_time E cx) (asked_usages cx)) l)).
Proof.
  intros St. unfold p_trust.
  destruct (p_trust_loop_cases E cx root rest l St None ltac:(discriminate)) as [[[o ->] V]|(V & [(o & -> & Ho & F)|(e & -> & O & K & F)])].
  - left. auto.
  - right. split; [exact V|]. cbn [rbind fst snd]. destruct o as [e|].
    + exists e. split; [reflexivity|]. pose proof (Ho e eq_refl) as K. split; [now apply ve_ordinary|]. tauto.
    + eexists. split; [reflexivity|]. split; [reflexivity|]. split; [auto|reflexivity].
  - right. split; [exact V|]. exists e. split; [reflexivity|]. split; [exact O|]. rewrite K. split; [discriminate|contradiction].
Qed.

(** ** The chain of one certificate *)

Lemma map_ids_err known ids e : map_ids known ids = Err e -> e_class e = KeyError.
Proof.
  revert e. induction ids as [|i ids IH]; intros e; cbn [map_ids]; [discriminate|].
  destruct (by_id known i) as [c|]; [|intros [= <-]; reflexivity].
  destruct (map_ids known ids) as [cs|e']; cbn [rbind]; [discriminate|]. intros [= <-]. now apply IH.
Qed.

Lemma left_spent cx : asked_usages (after_usages cx) = left_usages cx.
Proof. unfold asked_usages, left_usages, after_usages. cbn [x_ekus]. destruct (x_ekus cx) as [[[] u]|]; reflexivity. Qed.

Lemma p_trust_nil E cx l : exists o, p_trust E cx [] l = Err o /\ (l <> [] -> ordinary o /\ issubclass (e_class o) VerificationError = false).
Proof.
  destruct l as [|s l]; unfold p_trust; cbn [p_trust_loop p_store rbind fst snd].
  - eexists. split; [reflexivity|]. intros H; now elim H.
  - unfold raise, catches. cbn [e_class].
    change (issubclass IndexError CertificateNotTrustedVerificationError) with false.
    change (issubclass IndexError VerificationError) with false. cbv iota. cbn [rbind].
    eexists. split; [reflexivity|]. intros _. split; reflexivity.
Qed.

Lemma valid_chain_fun E cx l c d d' : identified (c :: concat (map contents l)) ->
  valid_chain E cx l c d -> valid_chain E cx l c d' -> d = d'.
Proof.
  intros U (_ & A & I & _) (_ & A' & I' & _). rewrite A in A'. injection A' as A'.
  assert (Ok d = Ok d') as [= ->]; [|reflexivity].
  transitivity (map_ids (c :: concat (map contents l)) (map c_id d)); [symmetry|]; apply (map_ids_exact _ U); auto.
Qed.

Lemma p_verify_cases E l c cx : lawful E -> l <> [] -> identified (c :: concat (map contents l)) ->
  (exists chain, p_verify E l c cx = (spent cx, Ok chain) /\ valid_chain E cx l c chain /\ ~ refuses E cx l c) \/
  ((forall chain, ~ valid_chain E cx l c chain) /\
   exists cx' e, p_verify E l c cx = (cx', Err e) /\ ordinary e /\
     (issubclass (e_class e) VerificationError = true <-> refuses E cx l c) /\
     (refuses E cx l c -> cx' = spent cx)).
Proof.
  intros (_ & _ & _ & _ & L5 & L6) NE U. unfold p_verify, refuses, valid_chain. fold (answer E cx l c).
  destruct (e_mk_validation E (roots l) (x_timestamp cx) (x_opts cx) c (intermediates l)) as [[]|e0] eqn:M.
  2:{ right. split; [intros chain [[=] _]|]. exists cx, e0. split; [reflexivity|].
      destruct (L5 _ _ _ _ _ _ M) as [O F]. split; [exact O|]. rewrite F. split; [split; [discriminate|intros [[=] _]]|intros [[=] _]]. }
  change (after_usages cx) with (spent cx).
  destruct (answer E cx l c) as [ids|e0] eqn:Va.
  2:{ right. split; [intros chain (_ & [=] & _)|]. unfold catches. rewrite (L6 _ _ _ _ _ _ _ _ _ Va).
      destruct (@fmt_cases (list Z) c CertificateVerificationError "Chain verification failed" eq_refl) as (e1 & F & O & P1 & P2).
      rewrite F. cbn [rbind]. exists (spent cx), e1. split; [reflexivity|]. split; [exact O|]. split; [split|reflexivity].
      - intros V. split; [reflexivity|]. left. split; [eauto|]. destruct (printable_dec c) as [P|P]; [exact P|].
        rewrite (P2 P) in V. discriminate V.
      - intros (_ & [[_ P]|(r & rs & [=] & _)]). now rewrite (P1 P). }
  cbn [rbind].
  destruct (map_ids (c :: concat (map contents l)) ids) as [ch|e0] eqn:Mi; cbn [rbind].
  2:{ right. split.
      { intros chain (_ & [= ->] & I & _). assert (Err e0 = Ok chain) as [=]. rewrite <- Mi. apply (map_ids_exact _ U). auto. }
      exists (spent cx), e0. split; [reflexivity|].
      pose proof (map_ids_err _ _ _ Mi) as K. unfold ordinary. rewrite K. split; [reflexivity|]. split; [split; [discriminate|]|reflexivity].
      intros (_ & [[[e' [=]] _]|(r & rs & Q & I & _)]). injection Q as ->.
      assert (Err e0 = Ok (r :: rs)) as [=]. rewrite <- Mi. apply (map_ids_exact _ U). auto. }
  pose proof (proj1 (map_ids_exact _ U _ _) Mi) as [Ids I].
  assert (Un : forall d, ids = map c_id d -> incl d (c :: concat (map contents l)) -> d = ch).
  { intros d Q Id. assert (Ok ch = Ok d) as [= ->]; [|reflexivity]. rewrite <- Mi. apply (map_ids_exact _ U). auto. }
  destruct ch as [|root rest].
  { right. split.
    { intros chain (_ & [= Q] & I' & V). rewrite (Un chain Q I') in V. destruct V as (? & ? & ? & _ & (_ & (? & ? & ? & [=] & _) & _) & _). }
    destruct (p_trust_nil E (spent cx) l) as (o & -> & Ho). destruct (Ho NE) as [O F]. cbn [rbind].
    exists (spent cx), o. split; [reflexivity|]. split; [exact O|]. rewrite F. split; [split; [discriminate|]|reflexivity].
    intros (_ & [[[e' [=]] _]|(r & rs & [= Q] & I' & _)]). pose proof (Un (r :: rs) Q I'). discriminate. }
  pose proof (p_trust_cases E (spent cx) root rest l (after_usages_stable cx)) as T.
  change (asked_usages (spent cx)) with (asked_usages (after_usages cx)) in T. rewrite left_spent in T.
  change (asked_time E (spent cx)) with (asked_time E cx) in T.
  destruct T as [[-> V]|(NV & e' & -> & O & K)]; cbn [rbind].
  - left. exists (root :: rest). split; [reflexivity|]. split; [subst ids; auto|].
    intros (_ & [[[e' [=]] _]|(r & rs & [= Q] & I' & NV & _)]). apply NV. now rewrite (Un (r :: rs) Q I').
  - right. split.
    { intros chain (_ & [= Q] & I' & V). rewrite (Un chain Q I') in V. contradiction. }
    exists (spent cx), e'. split; [reflexivity|]. split; [exact O|]. rewrite K. split; [split|reflexivity].
    + intros F. split; [reflexivity|]. right. exists root, rest. rewrite Ids. auto.
    + intros (_ & [[[e0 [=]] _]|(r & rs & [= Q] & I' & _ & F)]). pose proof (Un (r :: rs) Q I') as [= -> ->]. exact F.
Qed.
