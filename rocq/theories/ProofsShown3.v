(** Proofs that what is shown is what the signed octets tell; statements in PropertiesShown.v. *)
From Coq Require Import Lia ZifyBool ZifyNat.
From Verif Require Import Base Bytes Monad ModelX509 ModelContext ModelPkcs7 ModelLazy ModelAuthenticode ModelLazyFile ModelDer ModelSpc
  ModelDecode ModelShown SpecAuthenticode SpecLazy SpecDer ProofsDer ProofsAsn ProofsAsn2 ProofsDecode ProofsDecode2 ProofsDecode3.
From Verif Require Import SpecBer SpecStl ProofsStl SpecRead ProofsRead ProofsBer2 SpecEnvelope ProofsEnvelope ProofsEnvelope2 SpecShown ProofsShown ProofsShown2.
From Verif Require ProofsPkcs7.

Lemma signed_octets_read t o : signs_octets t o -> o = encode_attributes (signed_contents (t_contents t)).
Proof.
  intros (version & sid & alg & signed & salg & signature & unsigned & ts & H & M & ->). f_equal. apply decoded_is in H; [|apart].
  pose proof (seq_contents SignerInfo _ _ _ H eq_refl) as C0.
  destruct (open_seq SignerInfo _ _ _ _ H eq_refl ltac:(alike)) as (b & d & C & K & Al). rewrite C0 in C. injection C as <-.
  unfold signed_contents. rewrite K. destruct signed as [v|]; cbn [members] in M; subst.
  - fld 3%nat SignerInfo Al t3 D3 G3 F3 R3. destruct (members_at CMSAttribute _ _ _ D3) as (I3 & C3). rewrite F3, C3. reflexivity.
  - rewrite (at_absent 3 SignerInfo _ _ _ _ _ _ _ Al ltac:(names) eq_refl eq_refl). reflexivity.
Qed.

Lemma content_first u typ t digest : is_a MsContent u (VSeq [Some (VSeq [Some (VPrim typ); Some (VAny t)]); digest]) ->
  exists v rest o rest', parse_tlv (t_contents u) = Ok (v, rest) /\ t_tag v = 16 /\ parse_tlv (t_contents v) = Ok (o, rest') /\ t_tag o = 6.
Proof.
  intros H. apply decoded_is in H; [|apart]. pose proof (seq_contents SpcIndirectDataContent _ _ _ H eq_refl) as C0.
  destruct (open_seq SpcIndirectDataContent _ _ _ _ H eq_refl ltac:(alike)) as (b & d & C & K & Al).
  rewrite C0 in C. injection C as <-.
  fld 0%nat SpcIndirectDataContent Al t1 D1 G1 F1 R1.
  destruct (open_seq SpcAttributeTypeAndOptionalValue _ _ _ _ D1 eq_refl ltac:(alike)) as (b1 & d1 & C1 & K1 & Al1).
  fld 0%nat SpcAttributeTypeAndOptionalValue Al1 t3 D3 G3 F3 R3.
  assert (Hb : read SpcIndirectDataContent (children SpcIndirectDataContent (t_contents u)) "data" contents_of = Ok b1).
  { rewrite K, R1. exact C1. }
  assert (Hr : read SpcAttributeTypeAndOptionalValue (children SpcAttributeTypeAndOptionalValue b1) "type" (read_oid spc_attribute_types) =
               Ok (SpecPrim.called spc_attribute_types typ)).
  { rewrite K1, R3. exact (oid_at _ _ _ _ D3). }
  apply head_field in Hb. destruct Hb as (v & rest & l & H1 & _ & H2). apply contents_seq in H2. destruct H2 as [T ->].
  apply head_field in Hr. destruct Hr as (o & rest' & l' & J1 & _ & J2). unfold read_oid in J2. inv J2 x Hx.
  apply contents_prim in Hx. destruct Hx as [T' _]. exists v, rest, o, rest'. auto.
Qed.

Lemma any_held b u : holds_a AAny b (VAny u) -> exists rest, parse_tlv b = Ok (u, rest).
Proof.
  intros H. destruct (held_inv _ _ _ H) as (t & rest & P & D). apply decoded_is in D; [|constructor].
  cbn [decode unwrap rbind] in D. injection D as ->. exists rest. exact P.
Qed.

Theorem tied_told a x : tied a x -> shown_as_signed a x.
Proof.
  intros ((c & E & S) & (c' & spc & C & K & S')). split.
  - intros t s H T. apply signed_octets_read in H. rewrite E in H. apply ProofsPkcs7.encode_injective in H. subst c.
    destruct (signer_told _ _ T) as (_ & R). apply signer_signed in R. congruence.
  - intros u t p H (typ & digest & flags & file & H1 & H2 & B & M).
    destruct (image_told _ _ _ _ H2 B M) as (s & I1 & I2 & I3). destruct (content_told _ _ _ _ _ H1 I1) as (_ & R).
    destruct (content_first _ _ _ _ H1) as (v & rest & o & rest' & P1 & P2 & P3 & P4).
    destruct (spc_first _ _ K) as (w & r & o1 & r1 & Q1 & Q2 & Q3 & Q4).
    assert (Ec : c' = t_contents u).
    { destruct H as [H|H].
      - rewrite H in C. destruct C as [->|(u' & rest2 & P & ->)]; [reflexivity|]. exfalso.
        rewrite P1 in P. injection P as <- <-. rewrite P3 in Q1. injection Q1 as <- <-. congruence.
      - destruct (any_held _ _ H) as (rest2 & P). destruct C as [->|(u' & rest3 & P' & ->)].
        + exfalso. rewrite P in Q1. injection Q1 as <- <-. rewrite P1 in Q3. injection Q3 as <- <-. congruence.
        + rewrite P in P'. injection P' as <- <-. reflexivity. }
    subst c'. rewrite R in S'. injection S' as <-. split; assumption.
Qed.
Theorem envelope_told depth pe b a : lz_from_envelope der_loader depth pe b = Ok a ->
  exists l, show_envelope b = Ok l /\ Forall2 shown_as_signed (recursive_nested true a) l.
Proof.
  intros H. destruct (envelope_shown _ _ _ _ H) as (l & E & F). exists l. split; [exact E|].
  clear E H. induction F; constructor; [apply tied_told; assumption|assumption].
Qed.

Lemma shows_tied b a x : shows b a x -> tied a x /\ opened b a.
Proof.
  intros (depth & pe & top & l & i & H & E & N1 & N2). split.
  - destruct (envelope_shown _ _ _ _ H) as (l' & E' & F). rewrite E in E'. injection E' as <-. clear E H.
    revert i N1 N2. induction F as [|y z ys zs T F IH]; intros [|i] N1 N2; try discriminate N1.
    + injection N1 as <-. injection N2 as <-. exact T.
    + exact (IH _ N1 N2).
  - exists depth, pe, top. split; [exact H|]. eapply nth_error_In. exact N1.
Qed.
Theorem shown_determined E b b' a a' x x' : shows b a x -> shows b' a' x' ->
  si_encoded (asi_info (asd_signer a)) = si_encoded (asi_info (asd_signer a')) ->
  fst x = fst x' /\
  (content_matches E (asd_data a) (asi_info (asd_signer a)) -> content_matches E (asd_data a') (asi_info (asd_signer a')) ->
   snd x = snd x' \/
   collides E (sd_digest_alg (asd_data a)) (sd_digest_alg (asd_data a')) (sd_octets (asd_data a)) (sd_octets (asd_data a'))).
Proof.
  intros H H' Es. destruct (shows_tied _ _ _ H) as [T O1]. destruct (shows_tied _ _ _ H') as [T' O2].
  split; [exact (tied_signer _ _ _ _ T T' Es)|]. intros M M'.
  destruct (attributes_determined _ _ _ _ _ _ O1 O2 (or_introl eq_refl) (or_introl eq_refl) Es) as (Hm & _).
  unfold content_matches in M, M'. rewrite M, M' in Hm. injection Hm as Hm.
  destruct (list_eq_dec Byte.byte_eq_dec (sd_octets (asd_data a)) (sd_octets (asd_data a'))) as [Eo|No];
    [left; exact (tied_image _ _ _ _ T T' Eo)|right; split; [exact No|exact Hm]].
Qed.
Theorem content_shown u t p : content_ok u t p ->
  exists s, show_spc (t_contents u) = Ok s /\ image_tells t s /\ sh_image_publisher s = p.
Proof.
  intros (typ & digest & flags & file & H1 & H2 & B & M).
  destruct (image_told _ _ _ _ H2 B M) as (s & I1 & I2 & I3). destruct (content_told _ _ _ _ _ H1 I1) as (_ & R). exists s. auto.
Qed.
