(** The outcome of AuthenticodeSignedData.verify as a function of the contexts and stores. *)
From Verif Require Import Base Bytes Monad ModelFile ModelFingerprint SpecFingerprint ProofsFingerprint ProofsFingerprint2 ProofsFingerprint3
  ModelPE SpecPE ProofsPE ProofsPE2 ProofsPE3 ModelX509 SpecX509
  ProofsX509 ProofsX509b ModelContext SpecContext ProofsCTL ProofsContext ProofsContext2 ModelPkcs7 ProofsPkcs7b
  ModelAuthenticode SpecAuthenticode ProofsSigner ProofsSigner2 ProofsVerify ProofsVerify2.
From Coq Require Import ZifyBool ZifyNat.

(** ** The computed hash does not depend on the position in the file *)

Lemma omit_position f : snd (omit_sections f) = snd (omit_sections (mkFile (f_bytes f) 0)).
Proof. destruct f as [data p]. cbn [f_bytes]. destruct (c08 data p) as (o & H1 & _ & H2). now rewrite H1, H2. Qed.

Lemma compute_hash_det E fuel fuel' alg w w' :
  f_bytes (w_file w') = f_bytes (w_file w) ->
  snd (compute_hash E fuel alg w) = snd (compute_hash E fuel' alg w') \/
  snd (compute_hash E fuel alg w) = Err out_of_fuel \/ snd (compute_hash E fuel' alg w') = Err out_of_fuel.
Proof.
  intros Hf.
  assert (Ho : snd (omit_sections (w_file w')) = snd (omit_sections (w_file w))).
  { now rewrite (omit_position (w_file w)), (omit_position (w_file w')), Hf. }
  assert (G : forall k fuel, exists o, snd (omit_sections (w_file k)) = Ok o /\
     (snd (compute_hash E fuel alg k) =
      match o with
      | Some secs => Ok (e_hash E alg (kept (map snd secs) (f_bytes (w_file k))))
      | None => raise RuntimeError "Can't return a single hash, use hashes() instead"
      end \/ snd (compute_hash E fuel alg k) = Err out_of_fuel)).
  { clear. intros k fuel. unfold compute_hash.
    destruct (authenticode_hashes (e_hash E) (w_file k) [alg]) as (_ & o & Ho & Hh). exists o. split; [assumption|].
    destruct (add_authenticode_hashers (fp_new [] (w_file k) default_block) [alg]) as [st b]. cbn [fst snd] in *.
    destruct o as [secs|].
    - destruct Hh as (-> & st' & inner & Ht & _ & Hin). unfold hash.
      destruct (hashes (e_hash E) fuel st) as [[st2 r2]|] eqn:Eh; [|now right].
      assert (Eq : (st', Ok [("authentihash", inner)]) = (st2, r2)).
      { eapply terminates_unique; [exact Ht| |exact Eh]. intros i j x. apply hashes_mono. }
      injection Eq as <- <-. left. cbn [snd rbind]. rewrite Hin.
      rewrite (in_dec_names [alg] (fun n => e_hash E n (kept (map snd secs) (f_bytes (w_file k))))); [reflexivity|now left].
    - destruct Hh as (-> & st' & Ht). unfold hash.
      destruct (hashes (e_hash E) fuel st) as [[st2 r2]|] eqn:Eh; [|now right].
      assert (Eq : (st', Ok []) = (st2, r2)).
      { eapply terminates_unique; [exact Ht| |exact Eh]. intros i j x. apply hashes_mono. }
      injection Eq as <- <-. left. reflexivity. }
  destruct (G w fuel) as (o & H1 & H2). destruct (G w' fuel') as (o' & H1' & H2').
  rewrite Ho, H1 in H1'. injection H1' as <-. rewrite Hf in H2'.
  destruct H2 as [->|H2]; [|auto]. destruct H2' as [->|H2']; auto.
Qed.

Lemma compute_hash_enough E alg w :
  exists N, forall fuel, (N <= fuel)%nat -> snd (compute_hash E fuel alg w) <> Err out_of_fuel.
Proof.
  unfold compute_hash.
  destruct (authenticode_hashes (e_hash E) (w_file w) [alg]) as (_ & o & Ho & Hh).
  destruct (add_authenticode_hashers (fp_new [] (w_file w) default_block) [alg]) as [st b]. cbn [fst snd] in *.
  destruct o as [secs|].
  - destruct Hh as (-> & st' & inner & (N & Ht) & _). exists N. intros fuel Hn. unfold hash. rewrite (Ht _ Hn).
    cbn [snd rbind]. destruct (dict_get alg inner); discriminate.
  - destruct Hh as (-> & st' & (N & Ht)). exists N. intros fuel Hn. unfold hash. rewrite (Ht _ Hn). discriminate.
Qed.

Lemma check_digests_det E fuel fuel' a expected w w' :
  f_bytes (w_file w') = f_bytes (w_file w) ->
  snd (check_digests E fuel a expected w) = snd (check_digests E fuel' a expected w') \/
  (expected = None /\
   (snd (check_digests E fuel a expected w) = Err out_of_fuel \/
    snd (check_digests E fuel' a expected w') = Err out_of_fuel)).
Proof.
  intros Hf. unfold check_digests. cbv zeta.
  destruct (negb _); [now left|]. destruct (negb _); [now left|]. unfold mbind.
  destruct expected as [h|].
  { cbn. destruct (negb _); [now left|]. destruct (negb _); now left. }
  destruct (asd_pe a); [|now left].
  pose proof (compute_hash_det E fuel fuel' (sd_digest_alg (asd_data a)) w w' Hf) as D.
  destruct (compute_hash E fuel (sd_digest_alg (asd_data a)) w) as [w1 [h|e]];
    destruct (compute_hash E fuel' (sd_digest_alg (asd_data a)) w') as [w1' [h'|e']]; cbn [snd] in *.
  - destruct D as [D|[D|D]]; try discriminate D. injection D as <-.
    destruct (negb _); [now left|]. destruct (negb _); now left.
  - destruct D as [D|[D|D]]; try discriminate D. injection D as ->. right. auto.
  - destruct D as [D|[D|D]]; try discriminate D. injection D as ->. right. auto.
  - destruct D as [D|[D|D]]; [injection D as <-; now left| |]; injection D as ->; auto.
Qed.

Lemma check_digests_enough E a expected w :
  exists N, forall fuel, (N <= fuel)%nat -> snd (check_digests E fuel a expected w) <> Err out_of_fuel.
Proof.
  destruct (compute_hash_enough E (sd_digest_alg (asd_data a)) w) as [N H]. exists N. intros fuel Hn. specialize (H fuel Hn).
  unfold check_digests. cbv zeta. destruct (negb _); [discriminate|]. destruct (negb _); [discriminate|].
  unfold mbind. destruct expected as [h|].
  { cbn. destruct (negb _); [discriminate|]. destruct (negb _); discriminate. }
  destruct (asd_pe a); [|discriminate].
  destruct (compute_hash E fuel (sd_digest_alg (asd_data a)) w) as [w1 [h|e]]; cbn [snd] in *; [|congruence].
  destruct (negb _); [discriminate|]. destruct (negb _); discriminate.
Qed.

Lemma check_digests_file E fuel a expected w w' :
  w_file w' = w_file w -> snd (check_digests E fuel a expected w') = snd (check_digests E fuel a expected w).
Proof.
  intros Hf. unfold check_digests. cbv zeta.
  destruct (negb _); [reflexivity|]. destruct (negb _); [reflexivity|]. unfold mbind.
  destruct expected as [h|].
  { cbn. destruct (negb _); [reflexivity|]. destruct (negb _); reflexivity. }
  destruct (asd_pe a); [|reflexivity].
  assert (D : snd (compute_hash E fuel (sd_digest_alg (asd_data a)) w') = snd (compute_hash E fuel (sd_digest_alg (asd_data a)) w)).
  { unfold compute_hash. rewrite Hf. destruct (add_authenticode_hashers _ _) as [st [b|e]]; [|reflexivity].
    destruct (hash (e_hash E) fuel st) as [[st' r]|]; reflexivity. }
  destruct (compute_hash E fuel _ w) as [w1 [h|e]], (compute_hash E fuel _ w') as [w1' [h'|e']]; cbn [snd] in D;
    try discriminate D.
  - injection D as ->. destruct (negb _); [reflexivity|]. destruct (negb _); reflexivity.
  - now injection D as ->.
Qed.

(** C27 with enough fuel. *)
Theorem c27_enough E a v w h :
  kwargs_ok a v -> algorithms_agree a -> expected_hash E (f_bytes (w_file w)) a None h ->
  h <> sp_digest (asd_spc a) \/ ~ content_matches E (asd_data a) (asi_info (asd_signer a)) ->
  exists N, forall fuel, (N <= fuel)%nat ->
    exists m, snd (asd_verify E fuel a None v w) = raise AuthenticodeInvalidDigestError m.
Proof.
  intros Kw A1 A2 A3. destruct (kwargs_prepare a v w Kw) as (w1 & x & y & P).
  destruct (prepare_shape _ _ _ _ _ _ P) as (_ & _ & _ & _ & Ef & _).
  destruct (check_digests_enough E a None w1) as [N Hn]. exists N. intros fuel Hf. specialize (Hn fuel Hf).
  destruct (check_digests_fail E fuel a None w1 h) as (_ & G & _). rewrite Ef in G. specialize (G A1 A2 A3).
  destruct G as [[m G]|[_ G]]; [|contradiction]. exists m.
  unfold asd_verify, mbind. rewrite P. destruct (check_digests E fuel a None w1) as [w2 r]. cbn [snd] in G. subst r. reflexivity.
Qed.

(** ** The countersignature *)

Definition p_counter (E : env) (a : asd) (c : countersigner) (l : list store) : M context unit := fun cy =>
  if negb (check_message_digest E c (si_signature (asi_info (asd_signer a)))) then
    (cy, raise AuthenticodeCounterSignerError "The expected hash of the encryptedDigest does not match")
  else
    let cy1 := at_time (cs_signing_time c) cy in
    let run i := match p_signer E false i None l (candidates E i l) cy1 with
                 | (cy2, Ok _) => (cy2, Ok tt)
                 | (cy2, Err e) => (cy2, Err e)
                 end in
    match c with
    | CSPlain i => run i
    | CSToken t =>
        if negb (option_bytes_eqb (content_digest E (r_data t)) (si_message_digest (r_signer t))) then
          (cy1, raise AuthenticodeCounterSignerError "The expected hash of the TstInfo does not match SignerInfo")
        else run (r_signer t)
    end.

Lemma check_countersigner_pure E a c y tr w cy l :
  nth_error (w_contexts w) y = Some cy -> refs w (x_stores cy) l -> Forall readable l ->
  exists w', turned y (fst (p_counter E a c l cy)) w w' /\
  check_countersigner E a c y tr w = (w', snd (p_counter E a c l cy)).
Proof.
  intros Hc Hr R. unfold check_countersigner, p_counter.
  destruct (negb (check_message_digest E c _)).
  { exists w. split; [now apply turned_refl|reflexivity]. }
  unfold mbind. rewrite (set_timestamp_ok _ _ _ _ Hc).
  set (cy1 := at_time (cs_signing_time c) cy).
  set (w1 := with_context y cy1 w).
  assert (Hc1 : nth_error (w_contexts w1) y = Some cy1) by now apply (with_context_nth _ cy).
  assert (Hr1 : refs w1 (x_stores cy1) l) by exact Hr.
  assert (T1 : turned y cy1 w w1) by apply turned_with.
  destruct c as [i|t]; cbn [cs_verify].
  - destruct (signer_verify_pure E false i y None w1 cy1 l Hc1 Hr1 R) as (w2 & T2 & ->).
    exists w2. destruct (p_signer E false i None l (candidates E i l) cy1) as [cy2 [ch|e]]; cbn [fst snd] in *;
      (split; [eapply turned_trans; eassumption|reflexivity]).
  - unfold rsd_verify. destruct (negb (option_bytes_eqb _ _)).
    { exists w1. split; [exact T1|reflexivity]. }
    unfold mbind, mret.
    destruct (signer_verify_pure E false (r_signer t) y None w1 cy1 l Hc1 Hr1 R) as (w2 & T2 & ->).
    exists w2. destruct (p_signer E false (r_signer t) None l (candidates E (r_signer t) l) cy1) as [cy2 [ch|e]]; cbn [fst snd] in *;
      (split; [eapply turned_trans; eassumption|reflexivity]).
Qed.

(** What comes after the check. *)
Definition p_mode (mode : string) (c : countersigner) (r : res unit) : res (option datetime) :=
  match r with
  | Ok _ => Ok (cs_signing_time c)
  | Err e =>
      if catches Exception_ e then
        if String.eqb mode "strict"
        then raise AuthenticodeCounterSignerError "An error occurred while validating the countersignature"
        else Ok None
      else Err e
  end.

(** The contexts of a verification: of the signer, and of the countersigner to be checked. *)
Definition situation (w : world) (a : asd) (v : vargs) (cx : context) (l : list store)
  (oc : option (countersigner * context * list store)) : Prop :=
  signer_context w a v cx l /\ Forall readable l /\
  match oc with
  | Some (c, cy, ly) => considered a v c /\ counter_context w a c v cy ly /\ Forall readable ly
  | None => forall c, ~ considered a v c
  end.

Definition p_result (E : env) (a : asd) (mode : string) (cx : context) (l : list store)
  (oc : option (countersigner * context * list store)) : res (list (list cert)) :=
  let? st := match oc with
             | None => Ok None
             | Some (c, cy, ly) => p_mode mode c (snd (p_counter E a c ly cy))
             end in
  snd (p_signer E true (asi_info (asd_signer a)) st l (candidates E (asi_info (asd_signer a)) l) cx).

Lemma p_signer_view E auth i st l l' cx :
  Forall2 same_view l l' ->
  p_signer E auth i st l' (candidates E i l') cx = p_signer E auth i st l (candidates E i l) cx.
Proof.
  intros V. unfold candidates, matching. rewrite (same_view_contents _ _ V). unfold p_signer, mbind.
  assert (G : forall cs acc k, mfold (p_body E auth i st l') cs acc k = mfold (p_body E auth i st l) cs acc k).
  { induction cs as [|c cs IH]; intros acc k; [reflexivity|]. cbn [mfold]. unfold mbind.
    assert (p_body E auth i st l' c acc k = p_body E auth i st l c acc k) as ->.
    { unfold p_body, p_issuer. destruct (verify_issuer_signature _ _ _ _); [|reflexivity].
      now rewrite (p_verify_view E l l' c _ V). }
    destruct (p_body E auth i st l c acc k) as [k' [a|e]]; [apply IH|reflexivity]. }
  rewrite G. reflexivity.
Qed.

(** The verification with two different contexts. *)
Lemma asd_verify_pure E fuel a expected v w w1 x y cx l oc :
  situation w a v cx l oc -> (oc <> None -> distinct_contexts v) -> prepare_contexts a v w = (w1, Ok (x, y)) ->
  snd (asd_verify E fuel a expected v w) =
  (let? _ := snd (check_digests E fuel a expected w1) in p_result E a (va_mode v) cx l oc).
Proof.
  intros (S & R & C) Dc P. destruct (prepare_signer _ _ _ _ _ _ _ _ P S) as [Hx Hr].
  unfold asd_verify, mbind. rewrite P. cbn [fst snd].
  destruct (check_digests E fuel a expected w1) as [w2 [[]|e]] eqn:D; cbn [rbind snd]; [|reflexivity].
  destruct (check_digests_objects _ _ _ _ _ _ _ D) as (D1 & D2 & D3).
  assert (Hx2 : nth_error (w_contexts w2) x = Some cx) by now rewrite D2.
  assert (Hr2 : refs w2 (x_stores cx) l) by (unfold refs; now rewrite D1).
  unfold p_result.
  destruct oc as [[[c cy] ly]|].
  - destruct C as (K & C & Ry).
    destruct (prepare_counter _ _ _ _ _ _ _ _ _ P K C) as (y0 & -> & Hy & Hry & Hne). specialize (Hne cx l S (Dc ltac:(discriminate))).
    assert (Hy2 : nth_error (w_contexts w2) y0 = Some cy) by now rewrite D2.
    assert (Hry2 : refs w2 (x_stores cy) ly) by (unfold refs; now rewrite D1).
    destruct (check_countersigner_pure E a c y0 (va_trusted v) w2 cy ly Hy2 Hry2 Ry) as (w3 & T3 & E3).
    destruct K as [K1 K2]. unfold countersignature_time. rewrite K1.
    destruct (String.eqb_spec (va_mode v) "ignore") as [|_]; [contradiction|]. rewrite E3.
    assert (G : forall st, snd (signer_verify E true (asi_info (asd_signer a)) x st w3) =
      snd (p_signer E true (asi_info (asd_signer a)) st l (candidates E (asi_info (asd_signer a)) l) cx)).
    { intros st. destruct T3 as [V3 T3]. destruct (views_refs _ _ _ _ V3 Hr2) as (l3 & Hr3 & Vl).
      destruct (signer_verify_pure E true (asi_info (asd_signer a)) x st w3 cx l3) as (w4 & _ & ->).
      - rewrite T3, nth_list_set. destruct (Nat.eqb_spec y0 x); [contradiction|assumption].
      - assumption.
      - eapply same_view_readable; eassumption.
      - cbn [snd]. now rewrite (p_signer_view E true _ st l l3 cx Vl). }
    unfold p_mode. destruct (snd (p_counter E a c ly cy)) as [[]|e]; [apply G|].
    destruct (catches Exception_ e); [|reflexivity].
    destruct (String.eqb (va_mode v) "strict"); [reflexivity|]. apply G.
  - assert (countersignature_time E a v y w2 = (w2, Ok None)) as ->.
    { destruct (countersignature_time E a v y w2) as [w3 r3] eqn:Et.
      destruct (counter_time_run _ _ _ _ _ _ _ Et) as [(_ & -> & ->)|[(k & K & _)|(k & _ & _ & K & _)]].
      - reflexivity.
      - now elim (C k).
      - now elim (C k). }
    cbn [rbind]. destruct (signer_verify_pure E true (asi_info (asd_signer a)) x None w2 cx l Hx2 Hr2 R) as (w4 & _ & ->).
    reflexivity.
Qed.
