(** Proofs that what a signature tells is read as it is written; statements in PropertiesShown.v. *)
From Coq Require Import Lia ZifyBool ZifyNat.
From Verif Require Import Base Monad ModelX509 ModelPkcs7 ModelLazy ModelDer ModelSpc ModelDecode ModelShown SpecAsn ProofsDer ProofsAsn ProofsAsn2.
From Verif Require Import ProofsDecode2 ProofsLazy ProofsLazy2 SpecPrim ProofsPrim4 SpecBer SpecStl ProofsStl SpecRead ProofsRead ProofsBer2 SpecEnvelope ProofsEnvelope ProofsEnvelope2 SpecShown.

(** ** Texts and links *)

Lemma ascii_told b : ascii_octets b -> ascii_text b = Ok (ascii_chars b).
Proof.
  induction 1 as [|x b X F IH]; [reflexivity|]. cbn [ascii_text ascii_chars map]. replace (128 <=? Z_of_byte x) with false by lia.
  rewrite IH. reflexivity.
Qed.
Lemma text_told tg t v u : decode MsText tg t = Ok v -> text_tells v u -> read_spc_string SpcString tg t = Ok u.
Proof.
  intros H [(-> & U)|(b & -> & B & ->)].
  - destruct (open_choice _ (alts_of SpcString) _ _ _ _ H ltac:(alike)) as (i & x & y & x' & y' & w & N1 & N2 & _ & D & K).
    destruct i as [|[|[|i]]]; try discriminate N1. injection N1 as <- <-. injection N2 as <- <-.
    unfold read_spc_string. change SpcString with (AChoice (alts_of SpcString)). rewrite K.
    unfold aBMPString. rewrite (prim_at _ _ _ _ D). cbn [rbind]. apply utf16_ok. exact U.
  - destruct (open_choice _ (alts_of SpcString) _ _ _ _ H ltac:(alike)) as (i & x & y & x' & y' & w & N1 & N2 & _ & D & K).
    destruct i as [|[|[|i]]]; try discriminate N1. injection N1 as <- <-. injection N2 as <- <-.
    unfold read_spc_string. change SpcString with (AChoice (alts_of SpcString)). rewrite K.
    unfold aIA5String. rewrite (prim_at _ _ _ _ D). cbn [rbind]. apply ascii_told. exact B.
Qed.
Lemma link_told tg t v n : decode MsLink tg t = Ok v -> link_tells v n -> show_link SpcLink tg t = Ok n.
Proof.
  intros H L. assert (exists n w, v = VChoice n w) as (m & w & ->) by exact (choice_value _ _ _ _ H).
  destruct (open_choice _ (alts_of SpcLink) _ _ _ _ H ltac:(alike)) as (i & x & y & x' & y' & u & N1 & N2 & _ & D & K).
  unfold show_link. change SpcLink with (AChoice (alts_of SpcLink)). rewrite K. clear K.
  destruct i as [|[|[|i]]]; try (destruct i; discriminate N1); injection N1 as <- <- <-; injection N2 as <- <-.
  - destruct L as [(b & E & B & ->)|[(x1 & x2 & E & _)|(x & s & E & _)]]; try discriminate E. injection E as ->.
    unfold aIA5String. rewrite String.eqb_refl, (prim_at _ _ _ _ D). cbn [rbind]. rewrite (ascii_told _ B). reflexivity.
  - destruct L as [(b & E & B & _)|[(x1 & x2 & E & ->)|(x & s & E & _)]]; try discriminate E. injection E as ->.
    destruct (open_seq SpcSerializedObject _ _ _ _ D eq_refl ltac:(alike)) as (b & d & C & Kd & Al).
    cbn [String.eqb Ascii.eqb Bool.eqb]. rewrite C. cbn [rbind]. rewrite Kd.
    fld 0%nat SpcSerializedObject Al t1 D1 G1 F1 R1. rewrite R1. unfold SpcUuid, aOctetString. rewrite (prim_at _ _ _ _ D1). cbn [rbind].
    fld 1%nat SpcSerializedObject Al t2 D2 G2 F2 R2. rewrite R2. unfold aOctetString. rewrite (prim_at _ _ _ _ D2). reflexivity.
  - destruct L as [(b & E & B & _)|[(x1 & x2 & E & _)|(x & s & E & T & ->)]]; try discriminate E. injection E as ->.
    cbn [String.eqb Ascii.eqb Bool.eqb]. rewrite (text_told _ _ _ _ D T). reflexivity.
Qed.

Lemma maybe_read {A} a' n (k : asn -> tagging -> tlv -> res A) (P : aval -> A -> Prop) i fs vs d x tg p x' p' o r :
  aligned fs vs d -> NoDup (map fst fs) -> nth_error fs i = Some (n, (x, (tg, p))) ->
  dict_get n (seq_fields a') = Some (x', (tg, p')) -> nth_error vs i = Some o -> maybe P o r ->
  (forall t v y, decode x tg t = Ok v -> P v y -> k x' tg t = Ok y) ->
  read_field a' (Ok d) n k = Ok r.
Proof.
  intros Al ND Hf Hf' Hv M K. destruct o as [v|], r as [y|]; try contradiction M.
  - destruct (at_present i a' _ _ _ _ _ _ _ _ _ _ Al ND Hf Hf' _ Hv) as (t & D & _ & F & _). rewrite F, (K _ _ _ D M). reflexivity.
  - exact (at_absent i a' _ _ _ _ _ _ _ Al ND Hf Hv _ _).
Qed.

Lemma opus_told t name info publisher : opus_tells t name info publisher -> show_opus t = Ok (name, info, publisher).
Proof.
  intros (a & b & c & H & M1 & M2 & M3). apply decoded_is in H; [|apart].
  destruct (open_seq SpcSpOpusInfo _ _ _ _ H eq_refl ltac:(alike)) as (o & d & C & K & Al).
  unfold show_opus. rewrite C. cbn [rbind]. rewrite K.
  rewrite (maybe_read SpcSpOpusInfo _ _ _ 0 _ _ _ _ _ _ _ _ _ _ Al ltac:(names) eq_refl eq_refl eq_refl M1 (text_told _)). cbn [rbind].
  rewrite (maybe_read SpcSpOpusInfo _ _ _ 1 _ _ _ _ _ _ _ _ _ _ Al ltac:(names) eq_refl eq_refl eq_refl M2 (link_told _)). cbn [rbind].
  rewrite (maybe_read SpcSpOpusInfo _ _ _ 2 _ _ _ _ _ _ _ _ _ _ Al ltac:(names) eq_refl eq_refl eq_refl M3 (link_told _)). reflexivity.
Qed.

(** ** Attributes *)

Lemma statement_told t l : statement_tells t l ->
  (let? b := contents_of SpcStatementType Untagged t in
   let? l := parse_all b in
   let? names := map_res (read_oid spc_statement_types aObjectIdentifier Untagged) l in
   Ok (Some names)) = Ok (Some l).
Proof.
  intros (ids & H & F). apply decoded_is in H; [|apart]. destruct (seqof_items _ _ _ _ H) as (us & vs & V & I & D). injection V as <-.
  unfold items_of in I. change (contents_of SpcStatementType Untagged t) with (contents_of (ASeqOf (APrim 6)) Untagged t).
  destruct (contents_of (ASeqOf (APrim 6)) Untagged t) as [b|]; cbn [rbind] in *; [|discriminate I]. rewrite I. cbn [rbind].
  clear I H. enough (E : map_res (read_oid spc_statement_types aObjectIdentifier Untagged) us = Ok l) by (rewrite E; reflexivity).
  revert us D. induction F as [|id n ids l N F IH]; intros us D; inversion D as [|u w us' ws Du Ds]; subst; [reflexivity|].
  cbn [map_res]. unfold aObjectIdentifier at 1. rewrite (oid_at _ _ _ _ Du). cbn [rbind]. rewrite (IH _ Ds). cbn [rbind]. do 2 f_equal.
  rewrite called_is. native_in N. unfold oid_native, spc_statement_types. cbn [dict_get]. destruct N as [(E & ->)|[(E & ->)|(E1 & E2 & ->)]].
  - rewrite E. reflexivity.
  - rewrite E. reflexivity.
  - apply String.eqb_neq in E1, E2. rewrite ?E1, ?E2, ?(String.eqb_sym _ (dotted id)), ?E1, ?E2. reflexivity.
Qed.

Definition named (x a : string * list tlv) : Prop := exists oid, fst a = oid_text oid /\ x = (called attribute_types oid, snd a).
Lemma attribute_told t a : attribute t a -> exists x, show_attr t = Ok x /\ named x a.
Proof.
  intros (oid & H & E). apply decoded_is in H; [|apart]. destruct (open_seq CMSAttribute _ _ _ _ H eq_refl ltac:(alike)) as (b & d & C & K & Al).
  unfold show_attr. rewrite C. cbn [rbind]. rewrite K.
  fld 0%nat CMSAttribute Al t0 D0 G0 F0 R0. rewrite R0. unfold aObjectIdentifier at 1. rewrite (oid_at _ _ _ _ D0). cbn [rbind].
  fld 1%nat CMSAttribute Al t1 D1 G1 F1 R1. rewrite R1. destruct (members_at AAny _ _ _ D1) as (I1 & _). rewrite I1. cbn [rbind].
  eexists. split; [reflexivity|]. exists oid. split; [exact E|reflexivity].
Qed.
Lemma attributes_told ts l : Forall2 attribute ts l -> exists d, map_res show_attr ts = Ok d /\ Forall2 named d l.
Proof.
  induction 1 as [|t a ts l H F (d & E & N)]; [exists []; split; [reflexivity|constructor]|].
  destruct (attribute_told _ _ H) as (x & Ex & Nx). exists (x :: d). cbn [map_res]. rewrite Ex. cbn [rbind]. rewrite E. split; [reflexivity|].
  constructor; assumption.
Qed.

Lemma show_values_app n d d' : show_values n (d ++ d') = match show_values n d' with Some w => Some w | None => show_values n d end.
Proof.
  induction d as [|[t v] d IH]; cbn [app show_values]; [destruct (show_values n d'); reflexivity|].
  rewrite IH. destruct (show_values n d'); reflexivity.
Qed.
Section Last.
  Context (n typ : string) (iff_name : forall b, called attribute_types b = n <-> oid_text b = typ).
  Lemma last_absent d l : Forall2 named d l -> Forall (fun a => fst a <> typ) l -> show_values n d = None.
  Proof using iff_name.
    induction 1 as [|x a d l (oid & E & ->) F IH]; intros N; [reflexivity|]. inversion N as [|? ? N1 N2]; subst. cbn [show_values].
    rewrite (IH N2). destruct (String.eqb_spec (called attribute_types oid) n) as [Q|Q]; [|reflexivity].
    apply iff_name in Q. rewrite <- E in Q. contradiction.
  Qed.
  Lemma last_told d l o : Forall2 named d l -> last_of typ l o -> show_values n d = o.
  Proof using iff_name.
    intros F H. destruct H as [l N|l v r N]; [exact (last_absent _ _ F N)|].
    apply Forall2_app_inv_r in F. destruct F as (d1 & d2 & F1 & F2 & ->). inversion F2 as [|x a d3 r' (oid & E & ->) F3]; subst.
    rewrite show_values_app. cbn [show_values fst snd] in *. rewrite (last_absent _ _ F3 N).
    rewrite (proj2 (iff_name oid) (eq_sym E)), String.eqb_refl. reflexivity.
  Qed.
End Last.
Lemma statement_name b : called attribute_types b = "microsoft_spc_statement_type" <-> oid_text b = "1.3.6.1.4.1.311.2.1.11".
Proof. rewrite called_is, identifier_is. apply names_iff; [reflexivity|reflexivity|one_name]. Qed.
Lemma opus_name b : called attribute_types b = "microsoft_spc_sp_opus_info" <-> oid_text b = "1.3.6.1.4.1.311.2.1.12".
Proof. rewrite called_is, identifier_is. apply names_iff; [reflexivity|reflexivity|one_name]. Qed.

Lemma signed_told t l : signed_attributes t l -> exists d,
  contents_of SignerInfo Untagged t = Ok (t_contents t) /\
  show_dict (children SignerInfo (t_contents t)) "signed_attrs" = Ok d /\ Forall2 named d l.
Proof.
  intros (version & sid & alg & signed & salg & signature & unsigned & ts & H & M & F). apply decoded_is in H; [|apart].
  pose proof (seq_contents SignerInfo _ _ _ H eq_refl) as C0.
  destruct (open_seq SignerInfo _ _ _ _ H eq_refl ltac:(alike)) as (b & d & C & K & Al). rewrite C0 in C. injection C as <-.
  destruct (attributes_told _ _ F) as (x & E & N). exists x. split; [exact C0|]. split; [|exact N].
  unfold show_dict. rewrite K. destruct signed as [v|]; cbn [members] in M; subst.
  - fld 3%nat SignerInfo Al t3 D3 G3 F3 R3. destruct (members_at CMSAttribute _ _ _ D3) as (I3 & C3). rewrite F3, I3. cbn [rbind]. exact E.
  - rewrite (at_absent 3 SignerInfo _ _ _ _ _ _ _ Al ltac:(names) eq_refl eq_refl). cbn [rbind]. exact E.
Qed.
Theorem signer_told t s : signer_tells t s -> contents_of SignerInfo Untagged t = Ok (t_contents t) /\ show_signer (t_contents t) = Ok s.
Proof.
  intros (l & o1 & o2 & H & L1 & L2 & T1 & T2). destruct (signed_told _ _ H) as (d & C & E & N). split; [exact C|].
  unfold show_signer. rewrite E. cbn [rbind]. unfold show_statement, show_opus_info.
  rewrite (last_told _ _ statement_name _ _ _ N L1), (last_told _ _ opus_name _ _ _ N L2).
  destruct s as [st name info publisher]. cbn [sh_statement_types sh_program_name sh_more_info sh_publisher_info] in *.
  assert (E1 : match o1 with
               | None => Ok None
               | Some [t] => let? b := contents_of SpcStatementType Untagged t in
                             let? l := parse_all b in
                             let? names := map_res (read_oid spc_statement_types aObjectIdentifier Untagged) l in Ok (Some names)
               | Some _ => raise AuthenticodeParseError "Only one SpcStatementType expected in SignerInfo.authenticatedAttributes"
               end = Ok st).
  { destruct o1 as [[|x [|]]|], st as [names|]; try contradiction T1; [exact (statement_told _ _ T1)|reflexivity]. }
  rewrite E1. cbn [rbind]. destruct o2 as [[|x [|]]|]; try contradiction T2.
  - rewrite (opus_told _ _ _ _ T2). reflexivity.
  - destruct T2 as (-> & -> & ->). reflexivity.
Qed.
(** Not exactly one value. *)
Theorem signer_counted t l v : signed_attributes t l -> length v <> 1%nat ->
  (last_of "1.3.6.1.4.1.311.2.1.11" l (Some v) \/
   last_of "1.3.6.1.4.1.311.2.1.11" l None /\ last_of "1.3.6.1.4.1.311.2.1.12" l (Some v)) ->
  exists e, show_signer (t_contents t) = Err e /\ e_class e = AuthenticodeParseError.
Proof.
  intros H Lv Q. destruct (signed_told _ _ H) as (d & C & E & N). unfold show_signer. rewrite E. cbn [rbind].
  unfold show_statement, show_opus_info. destruct Q as [Q|[Q1 Q2]].
  - rewrite (last_told _ _ statement_name _ _ _ N Q). destruct v as [|x [|y v]]; try (eexists; split; reflexivity). contradiction Lv; reflexivity.
  - rewrite (last_told _ _ statement_name _ _ _ N Q1). cbn [rbind].
    rewrite (last_told _ _ opus_name _ _ _ N Q2). destruct v as [|x [|y v]]; try (eexists; split; reflexivity). contradiction Lv; reflexivity.
Qed.

(** ** The image *)

Lemma set_flags_in x bits : forall i names,
  In x (set_flags i names bits) <->
  exists j, nth_error bits j = Some true /\ x = match nth_error names j with Some n => FName n | None => FBit (i + j) end.
Proof.
  induction bits as [|b bits IH]; intros i names; cbn [set_flags].
  - split; [intros []|]. intros (j & H & _). destruct j; discriminate H.
  - rewrite in_app_iff, IH. split.
    + intros [H|(j & H & ->)].
      * destruct b; [|destruct H]. destruct H as [<-|[]]. exists 0%nat. split; [reflexivity|].
        destruct names; cbn [nth_error]; [rewrite Nat.add_0_r|]; reflexivity.
      * exists (S j). split; [exact H|]. destruct names as [|n names]; cbn [nth_error].
        -- destruct j; cbn [nth_error]; rewrite Nat.add_succ_comm; reflexivity.
        -- rewrite Nat.add_succ_comm. reflexivity.
    + intros (j & H & ->). destruct j as [|j]; cbn [nth_error] in H.
      * injection H as ->. left. left. destruct names; cbn [nth_error]; [rewrite Nat.add_0_r|]; reflexivity.
      * right. exists j. split; [exact H|]. destruct names as [|n names]; cbn [nth_error].
        -- destruct j; cbn [nth_error]; rewrite Nat.add_succ_comm; reflexivity.
        -- rewrite Nat.add_succ_comm. reflexivity.
Qed.
Lemma set_flags_nodup bits : forall i names, NoDup names -> NoDup (set_flags i names bits).
Proof.
  induction bits as [|b bits IH]; intros i names N; cbn [set_flags]; [constructor|].
  assert (N' : NoDup match names with [] => [] | _ :: l => l end) by (destruct names; [exact N|inversion N; assumption]).
  destruct b; cbn [app]; [|exact (IH _ _ N')]. constructor; [|exact (IH _ _ N')]. rewrite set_flags_in. intros (j & _ & E).
  destruct names as [|n names].
  - destruct j; cbn [nth_error] in E; injection E; lia.
  - destruct (nth_error names j) as [m|] eqn:Q; [|discriminate E]. injection E as ->. inversion N as [|? ? Hn _]; subst.
    apply Hn. eapply nth_error_In. exact Q.
Qed.
Lemma flat_bits l : forall i, nth_error (flat_map octet_bits l) i = Some true <-> bit_at l i.
Proof.
  induction l as [|x l IH]; intros i; cbn [flat_map].
  - split; [destruct i; discriminate|]. intros (x & H & _). destruct (i / 8)%nat; discriminate H.
  - destruct (Nat.lt_ge_cases i 8) as [L|L].
    + rewrite nth_error_app1 by exact L. unfold bit_at. rewrite (Nat.div_small i 8) by exact L. rewrite (Nat.mod_small i 8) by exact L.
      cbn [nth_error]. split.
      * intros H. exists x. split; [reflexivity|].
        do 8 (destruct i as [|i]; [injection H as H; exact H|]). lia.
      * intros (y & E & H). injection E as <-.
        do 8 (destruct i as [|i]; [cbn [octet_bits map nth_error]; rewrite <- H; reflexivity|]). lia.
    + rewrite nth_error_app2 by exact L. change (length (octet_bits x)) with 8%nat. rewrite IH. unfold bit_at.
      assert (E : i = ((i - 8) + 1 * 8)%nat) by lia.
      assert (E1 : (i / 8 = S ((i - 8) / 8))%nat) by (rewrite E at 1; rewrite Nat.div_add by lia; lia).
      assert (E2 : (i mod 8 = (i - 8) mod 8)%nat) by (rewrite E at 1; apply Nat.mod_add; lia).
      rewrite E1, E2. reflexivity.
Qed.
Lemma nth_error_take {A} (l : list A) n i x : nth_error (firstn n l) i = Some x <-> nth_error l i = Some x /\ (i < n)%nat.
Proof.
  revert l i. induction n as [|n IH]; intros l i; cbn [firstn].
  - split; [destruct i; discriminate|]. intros [_ H]. lia.
  - destruct l as [|y l]; [split; [destruct i; discriminate|]; intros [H _]; destruct i; discriminate H|].
    destruct i as [|i]; cbn [nth_error]; [split; [intros H; split; [exact H|lia]|tauto]|]. rewrite IH. split; intros [H1 H2]; (split; [exact H1|lia]).
Qed.
Lemma nth_error_ztake {A} (l : list A) z i x : nth_error (ztake z l) i = Some x <-> nth_error l i = Some x /\ Z.of_nat i < z.
Proof.
  unfold ztake. destruct (zlen l <=? z) eqn:E.
  - split; [|tauto]. intros H. split; [exact H|]. assert (nth_error l i <> None) as N by (rewrite H; discriminate).
    apply nth_error_Some in N. unfold zlen in E. lia.
  - rewrite nth_error_take. split; intros [H L]; (split; [exact H|lia]).
Qed.
Lemma flags_told v tg t : decode (APrim 3) tg t = Ok v -> bits_ok v -> exists l, show_flags (APrim 3) tg t = Ok l /\ flags_tell v l.
Proof.
  intros D (unused & b & -> & U & Z0). unfold show_flags. rewrite (prim_at _ _ _ _ D). cbn [rbind]. rewrite (bits_read _ _ U Z0). cbn [rbind].
  eexists. split; [reflexivity|]. exists unused, b. split; [reflexivity|]. split; [exact U|]. split; [exact Z0|].
  split; [apply set_flags_nodup; repeat constructor; cbn [In]; intuition discriminate|].
  intros x. rewrite set_flags_in. split.
  - intros (j & H & ->). exists j. rewrite nth_error_ztake in H. destruct H as [H L]. rewrite flat_bits in H.
    split; [|split; [exact H|lia]]. destruct j as [|[|[|j]]]; try reflexivity. cbn [pe_image_flags nth_error flag_of].
    destruct j; reflexivity.
  - intros (i & -> & H & L). exists i. rewrite nth_error_ztake, flat_bits. split; [split; [exact H|lia]|].
    destruct i as [|[|[|j]]]; try reflexivity. cbn [pe_image_flags nth_error flag_of]. destruct j; reflexivity.
Qed.
Theorem image_told t flags file p : is_a MsImage t (VSeq [flags; file]) -> ok_if_present bits_ok flags -> maybe link_tells file p ->
  exists s, show_image t = Ok s /\ image_tells t s /\ sh_image_publisher s = p.
Proof.
  intros H B M. pose proof H as H0. apply decoded_is in H; [|apart]. destruct (open_seq SpcPeImageData _ _ _ _ H eq_refl ltac:(alike)) as (b & d & C & K & Al).
  assert (E1 : exists l, (let? flags := read_field SpcPeImageData (Ok d) "flags" show_flags in
                          Ok (match flags with Some l => l | None => [FName "include_resources"] end)) = Ok l /\
               match flags with None => l = [FName "include_resources"] | Some v => flags_tell v l end).
  { destruct flags as [v|].
    - fld 0%nat SpcPeImageData Al t1 D1 G1 F1 R1. rewrite F1. destruct (flags_told _ _ _ D1 B) as (l & E & T).
      unfold SpcPeImageFlags, aBitString. rewrite E. exists l. split; [reflexivity|exact T].
    - rewrite (at_absent 0 SpcPeImageData _ _ _ _ _ _ _ Al ltac:(names) eq_refl eq_refl). eexists. split; reflexivity. }
  destruct E1 as (l & E1 & T). unfold show_image. rewrite C. cbn [rbind]. rewrite K.
  rewrite (maybe_read SpcPeImageData _ _ _ 1 _ _ _ _ _ _ _ _ _ _ Al ltac:(names) eq_refl eq_refl eq_refl M (link_told _)).
  destruct (read_field SpcPeImageData (Ok d) "flags" show_flags) as [o|]; cbn [rbind] in *; [|discriminate E1].
  eexists. split; [reflexivity|]. split; [|reflexivity]. exists flags, file. injection E1 as ->.
  split; [exact H0|]. cbn [sh_image_flags sh_image_publisher]. split; [exact T|exact M].
Qed.
(** The image in a SpcIndirectDataContent. *)
Theorem content_told u typ t digest s : is_a MsContent u (VSeq [Some (VSeq [Some (VPrim typ); Some (VAny t)]); digest]) ->
  show_image t = Ok s -> contents_of SpcIndirectDataContent Untagged u = Ok (t_contents u) /\ show_spc (t_contents u) = Ok s.
Proof.
  intros H S. apply decoded_is in H; [|apart]. pose proof (seq_contents SpcIndirectDataContent _ _ _ H eq_refl) as C0. split; [exact C0|].
  destruct (open_seq SpcIndirectDataContent _ _ _ _ H eq_refl ltac:(alike)) as (b & d & C & K & Al).
  rewrite C0 in C. injection C as <-. unfold show_spc. rewrite K.
  fld 0%nat SpcIndirectDataContent Al t1 D1 G1 F1 R1. rewrite R1.
  destruct (open_seq SpcAttributeTypeAndOptionalValue _ _ _ _ D1 eq_refl ltac:(alike)) as (b1 & d1 & C1 & K1 & Al1).
  rewrite C1. cbn [rbind]. rewrite K1.
  fld 1%nat SpcAttributeTypeAndOptionalValue Al1 t3 D3 G3 F3 R3. rewrite F3. cbn [decode unwrap rbind] in D3. injection D3 as ->.
  rewrite S. reflexivity.
Qed.
