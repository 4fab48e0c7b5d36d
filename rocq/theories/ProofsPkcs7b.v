(** Proofs about parsed signatures, continued: classes of errors, nested signatures,
    repeated attributes, the input of the signature check. *)
From Verif Require Import Base Bytes Monad ModelX509 SpecX509 ProofsX509 ProofsX509b ModelPkcs7 SpecPkcs7
  ProofsPkcs7 ModelAuthenticode.
From Coq Require Import ZifyBool ZifyNat.

(** ** The input of the signature check *)

Lemma verify_issuer_signature_ok E i c legacy :
  verify_issuer_signature E i c legacy = Ok tt <->
  scheme_accepts E (c_key c) (si_signature i) (si_encoded i) (si_digest_alg i) \/
  (legacy = true /\ legacy_accepts E (c_key c) (si_signature i) (si_encoded i) (si_digest_alg i)).
Proof.
  rewrite <- verify_signature_ok. unfold verify_issuer_signature.
  destruct (verify_signature E c _ _ _ legacy) as [[]|e]; [reflexivity|].
  split; [|discriminate]. destruct (catches VerificationError e); [|discriminate].
  intros H. now apply raise_fmt_not_ok in H.
Qed.

Lemma signer_encoded need exp r i :
  parse_signer need exp r = Ok i -> si_encoded i = encode_attributes (contents_of r).
Proof. intros H. apply parse_signer_sound in H. destruct H. reflexivity. Qed.

(** ** All errors *)

Lemma accuracy_err a e : accuracy_to_python a = Err e -> e_class e = OverflowError.
Proof.
  assert (T : forall us e, timedelta us = Err e -> e_class e = OverflowError).
  { intros us e'. unfold timedelta. destruct (_ && _); [discriminate|]. intros H; injection H as <-. reflexivity. }
  assert (A : forall d f u e, accuracy_add d f u = Err e -> e_class e = OverflowError).
  { intros d f u e'. destruct f as [z|]; [|discriminate].
    destruct (Z.eq_dec z 0) as [->|Hz]; [discriminate|].
    assert (accuracy_add d (Some z) u =
            let? x := timedelta (z * u) in timedelta (d + x)) as -> by (destruct z; congruence || reflexivity).
    destruct (timedelta (z * u)) eqn:E; cbn [rbind]; [apply T|].
    intros H; injection H as <-. eauto. }
  destruct a as [[[s ms] mu]|]; cbn [accuracy_to_python]; [|discriminate].
  destruct (accuracy_add 0 s 1000000) eqn:E1; cbn [rbind]; [|intros H; injection H as <-; eauto].
  destruct (accuracy_add _ ms 1000) eqn:E2; cbn [rbind]; [|intros H; injection H as <-; eauto].
  eauto.
Qed.

Ltac cls := first [now left | right; cbn; tauto].

Lemma data_class exp r e : parse_signed_data exp r = Err e -> parse_class (e_class e).
Proof.
  destruct r as [algs ct content certs crls signers].
  destruct algs as [|a [|b l]].
  - cbn. intros H; injection H as <-. cls.
  - intros H. apply parse_signed_data_err in H. now left.
  - cbn. intros H; injection H as <-. cls.
Qed.

Lemma content_class c e : ci_content c = Err e -> parse_class (e_class e).
Proof. destruct c as [s|t []]; cbn; intros H; try discriminate H; injection H as <-; cls. Qed.

Lemma rsd_class r e : parse_rsd r = Err e -> parse_class (e_class e).
Proof.
  unfold parse_rsd.
  destruct (parse_signed_data _ r) eqn:D; cbn [rbind]; [|intros H; injection H as <-; eapply data_class; eassumption].
  destruct (map_res _ _) as [l|] eqn:L; cbn [rbind].
  - destruct (parse_tst _) eqn:T; cbn [rbind].
    + destruct l as [|x [|]]; intros H; try discriminate H; injection H as <-; cls.
    + intros H; injection H as <-. destruct (raw_value_of r) as [s|t|]; cbn [parse_tst] in T;
        [injection T as <-; cls| |injection T as <-; cls].
      destruct (negb _); [injection T as <-; cls|].
      destruct (get_digest_algorithm _) eqn:G; cbn [rbind] in T;
        [|injection T as <-; left; eapply digest_err; eassumption].
      destruct (accuracy_to_python _) eqn:A; cbn [rbind] in T.
      * destruct (rt_tsa t); cbn [rbind] in T; try discriminate T; injection T as <-; cls.
      * injection T as <-. apply accuracy_err in A. rewrite A. cls.
  - intros H; injection H as <-. apply map_res_err in L as (s & _ & He).
    unfold parse_rfc3161_signer in He.
    destruct (parse_signer _ _ s) eqn:P; cbn [rbind] in He;
      [|injection He as <-; left; eapply parse_signer_err; eassumption].
    destruct (counter_signature s) as [[c|]|] eqn:C; cbn [rbind] in He;
      [injection He as <-; cls|discriminate He|injection He as <-; left; eapply single_err; eassumption].
Qed.

Lemma asi_class d sub s e :
  (forall r e, sub r = Err e -> parse_class (e_class e)) ->
  parse_asi d sub s = Err e -> parse_class (e_class e).
Proof.
  intros Hsub. unfold parse_asi. fold (nested_one sub).
  destruct (parse_signer _ _ s) as [i|] eqn:P; cbn [rbind];
    [|intros H; injection H as <-; left; eapply parse_signer_err; eassumption].
  destruct (counter_signature s) as [cs|] eqn:C; cbn [rbind];
    [|intros H; injection H as <-; left; eapply single_err; eassumption].
  destruct (match cs with Some _ => _ | None => _ end) as [plain|] eqn:K; cbn [rbind].
  2:{ intros H; injection H as <-. destruct cs as [c|]; [|discriminate K].
      destruct (parse_countersigner d c) eqn:PC; cbn [rbind] in K; [discriminate K|]. injection K as <-.
      apply parse_countersigner_err in PC as [|[PC _]]; [now left|]. rewrite PC. cls. }
  destruct (single_count (attr_values as_statement_type _) _) eqn:S1; cbn [rbind];
    [|intros H; injection H as <-; left; eapply single_count_err; eassumption].
  destruct (single_count (attr_values as_opus_info _) _) eqn:S2; cbn [rbind];
    [|intros H; injection H as <-; left; eapply single_count_err; eassumption].
  destruct (match attr_values as_nested _ with Some _ => _ | None => _ end) as [nested|] eqn:N; cbn [rbind].
  2:{ intros H; injection H as <-. destruct (attr_values as_nested _) as [l|]; [|discriminate N].
      apply map_res_err in N as (c & _ & He). unfold nested_one in He.
      destruct (negb _); [injection He as <-; cls|].
      destruct (ci_content c) eqn:CC; cbn [rbind] in He; [eauto|].
      injection He as <-. eapply content_class; eassumption. }
  destruct (present _ && present _); [intros H; injection H as <-; cls|].
  destruct (attr_values as_token _) as [l|]; cbn [rbind]; [|discriminate].
  destruct l as [|c [|]]; cbn [rbind]; try (intros H; injection H as <-; cls).
  destruct (negb _); cbn [rbind]; [intros H; injection H as <-; cls|].
  destruct (ci_content c) eqn:CC; cbn [rbind]; [|intros H; injection H as <-; eapply content_class; eassumption].
  destruct (parse_rsd _) eqn:R; cbn [rbind]; [discriminate|].
  intros H; injection H as <-. eapply rsd_class; eassumption.
Qed.

Lemma asd_class d pe r e : parse_asd d pe r = Err e -> parse_class (e_class e).
Proof.
  revert r e. induction d as [|d IH]; intros r e; cbn [parse_asd].
  { intros H; injection H as <-. cls. }
  destruct (parse_signed_data _ r) eqn:D; cbn [rbind]; [|intros H; injection H as <-; eapply data_class; eassumption].
  destruct (map_res _ _) as [l|] eqn:L; cbn [rbind].
  - destruct (parse_spc _) eqn:P; cbn [rbind].
    + destruct l as [|s [|]]; try (intros H; injection H as <-; cls).
      destruct (raw_crls r); [discriminate|]. intros H; injection H as <-. cls.
    + intros H; injection H as <-. destruct (raw_value_of r) as [p|t|]; cbn [parse_spc] in P;
        [|injection P as <-; cls|injection P as <-; cls].
      destruct (negb _); [injection P as <-; cls|].
      destruct (negb _); [injection P as <-; cls|].
      destruct (get_digest_algorithm _) eqn:G; cbn [rbind] in P; [discriminate P|].
      injection P as <-. left. eapply digest_err; eassumption.
  - intros H; injection H as <-. apply map_res_err in L as (s & _ & He). eapply asi_class; eassumption.
Qed.

(** ** Nested signatures *)

Lemma nested_reads_in pe u nested b :
  nested_reads pe u nested -> In b nested -> exists r, asd_reads pe r b.
Proof.
  intros H. inversion H as [u' H0 E0 E|u' l n H0 HA E0 E]; subst; [intros []|].
  clear H H0. induction HA as [|s a l m Hs _ IH]; [intros []|]. intros [<-|Hb]; eauto.
Qed.

Fixpoint asd_size (a : asd) : nat :=
  match a with ASD _ _ (ASI _ _ nested) _ => S (fold_right (fun b n => asd_size b + n)%nat 0%nat nested) end.

Lemma asd_size_in nested b :
  In b nested -> (asd_size b <= fold_right (fun b n => asd_size b + n)%nat 0%nat nested)%nat.
Proof. induction nested; cbn; [tauto|]. intros [->|H]; [lia|]. specialize (IHnested H). lia. Qed.

Lemma recursive_reads pe r a b :
  asd_reads pe r a -> In b (recursive_nested true a) -> exists r', asd_reads pe r' b.
Proof.
  remember (asd_size a) as n eqn:Hn. assert (asd_size a <= n)%nat as Hle by lia. clear Hn.
  revert r a Hle. induction n as [|n IH]; intros r a Hle H Hb.
  - destruct a as [d s [i cs nested] p]. cbn [asd_size] in Hle. lia.
  - destruct a as [d s [i cs nested] p]. cbn [recursive_nested] in Hb. cbn [asd_size] in Hle.
    destruct Hb as [<-|Hb]; [eauto|].
    apply in_flat_map in Hb as (a' & Ha' & Hb).
    inversion H; subst.
    match goal with X : nested_reads _ _ nested |- _ => destruct (nested_reads_in _ _ _ _ X Ha') as (r' & Hr') end.
    apply (IH r' a'); [|assumption|assumption]. apply asd_size_in in Ha'. lia.
Qed.

(** ** Repeated attributes *)

Lemma has_attr_occurs {A} (f : raw_attr -> option A) l v :
  has_attr f l v -> (occurrences f l <= 1)%nat ->
  exists pre a post, l = pre ++ a :: post /\ f a = Some v /\
    Forall (fun b => f b = None) pre /\ Forall (fun b => f b = None) post.
Proof.
  intros (pre & a & post & -> & Ha & Hp) Ho. exists pre, a, post. split; [reflexivity|].
  split; [assumption|]. split; [|assumption].
  unfold occurrences in Ho. rewrite filter_app, app_length in Ho. cbn [filter] in Ho. rewrite Ha in Ho.
  cbn [length] in Ho.
  assert (length (filter (fun a => match f a with Some _ => true | None => false end) pre) = 0)%nat as Hz by lia.
  clear -Hz. induction pre as [|b pre IH]; [constructor|]. cbn [filter] in Hz.
  destruct (f b) eqn:E; [discriminate Hz|]. constructor; auto.
Qed.
