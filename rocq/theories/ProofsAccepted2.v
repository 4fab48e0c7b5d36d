(** Proofs that what is accepted was written; statements in PropertiesAccepted.v.  Contents. *)
From Coq Require Import Lia ZifyBool ZifyNat.
From Verif Require Import Base Monad ModelX509 ModelPkcs7 ModelLazy ModelDer ModelSpc ModelDecode SpecAsn ProofsDer ProofsAsn ProofsAsn2.
From Verif Require Import ProofsDecode2 ProofsDecode3 ProofsLazy2 SpecPrim SpecTime ProofsTime ProofsPrim3 ProofsPrim4 SpecBer SpecStl ProofsStl SpecRead ProofsRead ProofsBer2
  SpecEnvelope ProofsEnvelope ProofsEnvelope2 SpecShown.
From Verif Require SpecPkcs7 ProofsPkcs7 Bytes.
From Verif Require Import SpecAccepted ProofsAccepted.

(** ** Texts and links *)

Lemma utf16_back b u : utf16 None b = Ok u -> b = utf16_be u /\ Forall scalar u.
Proof. intros H. apply (bmp_text b u) in H. destruct H as (F & ->). split; [reflexivity|exact F]. Qed.
Lemma ascii_back b u : ascii_text b = Ok u -> ascii_octets b.
Proof.
  revert u. induction b as [|x b IH]; intros u; [constructor|]. cbn [ascii_text]. destruct (128 <=? Z_of_byte x) eqn:E; [discriminate|].
  intros H. inv H l Hl. constructor; [lia|exact (IH _ Hl)].
Qed.
Lemma text_back tg t u : read_spc_string SpcString tg t = Ok u -> exists v, decode MsText tg t = Ok v /\ text_ok v.
Proof.
  unfold read_spc_string, SpcString. intros H.
  destruct (choice_back (alts_of MsText) _ _ _ _ _ H ltac:(alike)) as (i & n & x & y & x' & y' & w & N1 & N2 & U & Q & D).
  which i N1 N2; inv Q b Hb; (eexists; split; [apply D; exact (prim_back _ _ _ _ Hb)|]); cbn [String.eqb Ascii.eqb Bool.eqb] in Q.
  - apply utf16_back in Q. destruct Q as (-> & F). left. exists u. split; [reflexivity|exact F].
  - right. exists b. split; [reflexivity|exact (ascii_back _ _ Q)].
Qed.
Lemma link_back tg t u : read_spc_link SpcLink tg t = Ok u -> exists v, decode MsLink tg t = Ok v /\ link_ok v.
Proof.
  unfold read_spc_link, SpcLink. intros H.
  destruct (choice_back (alts_of MsLink) _ _ _ _ _ H ltac:(alike)) as (i & n & x & y & x' & y' & w & N1 & N2 & U & Q & D).
  which i N1 N2; cbn [String.eqb Ascii.eqb Bool.eqb] in Q.
  - inv Q b Hb. eexists. split; [apply D; exact (prim_back _ _ _ _ Hb)|]. left. exists b. split; [reflexivity|exact (ascii_back _ _ Q)].
  - inv Q b Hb. cbv zeta in Q. destruct (children SpcSerializedObject b) as [d|] eqn:K; [|discriminate Q]. clear H.
    shape K SpcSerializedObject. intros t1 t2. told. intros Q K. rd Q. inv Q c Hc. rd Q. inv Q e He. eexists. split.
    + apply D. close SpcSerializedObject MsMoniker Hb K. present (prim_back _ _ _ _ Hc). present (prim_back _ _ _ _ He). constructor.
    + right. left. exists c, e. reflexivity.
  - destruct (text_back _ _ _ Q) as (v & Dv & T). eexists. split; [apply D; exact Dv|]. right. right. exists v. split; [reflexivity|exact T].
Qed.

(** An optional field of a structure that could be read. *)
Lemma opt_back {A} a d n x tg p o (k : asn -> tagging -> tlv -> res A) r z tz (P : aval -> Prop) :
  read_field a (Ok d) n k = Ok r -> dict_get n d = Some o -> dict_get n (seq_fields a) = Some (x, (tg, p)) ->
  (forall t y, k x tg t = Ok y -> exists v, decode z tz t = Ok v /\ P v) ->
  exists v, opt_decode z tz o v /\ ok_if_present P v.
Proof.
  intros H G F B. destruct o as [t|].
  - rewrite (proj1 (read_at a d n x tg p t k G F)) in H. inv H y Hy. destruct (B _ _ Hy) as (v & D & Pv). exists (Some v). split; assumption.
  - exists None. split; exact I.
Qed.

Lemma opus_back t o x1 x2 x3 : read_opus t = Ok o -> lu_program_name o = Ok x1 -> lu_more_info o = Ok x2 -> lu_publisher_info o = Ok x3 ->
  opus_ok t.
Proof.
  intros H H1 H2 H3. unfold read_opus in H. inv H b Hb. cbv zeta in H. injection H as <-. cbn [lu_program_name lu_more_info lu_publisher_info] in *.
  inv H1 y1 K1. inv H2 y2 K2. inv H3 y3 K3. clear H1 H2 H3. destruct (children SpcSpOpusInfo b) as [d|] eqn:K; [|discriminate K1].
  shape K SpcSpOpusInfo. intros o1 _ o2 _ o3 _. told. intros K3 K2 K1 K.
  destruct (opt_back _ _ _ _ _ _ _ _ _ _ _ _ K1 eq_refl eq_refl (text_back _)) as (v1 & D1 & P1).
  destruct (opt_back _ _ _ _ _ _ _ _ _ _ _ _ K2 eq_refl eq_refl (link_back _)) as (v2 & D2 & P2).
  destruct (opt_back _ _ _ _ _ _ _ _ _ _ _ _ K3 eq_refl eq_refl (link_back _)) as (v3 & D3 & P3).
  exists v1, v2, v3. split; [|split; [exact P1|split; [exact P2|exact P3]]].
  apply is_decoded; [reflexivity|]. close SpcSpOpusInfo MsOpus Hb K. maybe D1. maybe D2. maybe D3. constructor.
Qed.
Lemma flags_back tg t l : read_flags SpcPeImageFlags tg t = Ok l -> exists v, decode (APrim 3) tg t = Ok v /\ bits_ok v.
Proof.
  unfold read_flags, SpcPeImageFlags, aBitString. intros H. inv H b Hb. inv H bs Hbs. exists (VPrim b). split; [exact (prim_back _ _ _ _ Hb)|].
  unfold bit_string in Hbs. destruct b as [|n r]; [discriminate Hbs|]. exists n, r. split; [reflexivity|]. cbv zeta in Hbs.
  destruct ((0 <? Z_of_byte n) && (zlen r =? 0)) eqn:E1; [discriminate Hbs|]. destruct (7 <? Z_of_byte n) eqn:E2; [discriminate Hbs|].
  split; [lia|]. intros ->. change (zlen (@nil byte)) with 0 in E1. pose proof (Bytes.Z_of_byte_range n) as R. clear - E1 R.
  assert (Z_of_byte n = 0) by lia. apply Bytes.Z_of_byte_inj. rewrite H. reflexivity.
Qed.
Lemma image_back t x y : lm_flags (read_image t) = Ok x -> lm_file (read_image t) = Ok y -> image_ok t.
Proof.
  unfold read_image. cbn [lm_flags lm_file]. intros H1 H2. destruct (contents_of SpcPeImageData Untagged t) as [b|] eqn:Hb; [|discriminate H1].
  cbn [rbind] in *. destruct (children SpcPeImageData b) as [d|] eqn:K; [|discriminate H1]. inv H1 y1 K1. inv H2 y2 K2. clear H1 H2.
  shape K SpcPeImageData. intros o1 _ o2 _. told. intros K1 K2 K.
  destruct (opt_back _ _ _ _ _ _ _ _ _ _ _ _ K1 eq_refl eq_refl (flags_back _)) as (v1 & D1 & P1).
  destruct (opt_back _ _ _ _ _ _ _ _ _ _ _ _ K2 eq_refl eq_refl (link_back _)) as (v2 & D2 & P2).
  exists v1, v2. split; [|split; assumption]. apply is_decoded; [reflexivity|]. close SpcPeImageData MsImage Hb K. maybe D1. maybe D2. constructor.
Qed.

(** ** The content of a signature *)

Lemma accepted_digest v n : digest_in v n -> exists a, alg_means v a /\ SpecPkcs7.accepted a n.
Proof. intros H. exact H. Qed.
Lemma spc_back t s : contents_of SpcIndirectDataContent Untagged t = Ok (t_contents t) -> lz_spc_info (LVSpc (read_spc (t_contents t))) = Ok s ->
  exists v r, is_a MsContent t v /\ spc_says v r /\ SpecPkcs7.spc_reads r s.
Proof.
  intros Hb H. cbn [lz_spc_info] in H. unfold read_spc in H. cbn [lp_type lp_value lp_digest_alg lp_digest] in H.
  destruct (children SpcIndirectDataContent (t_contents t)) as [d|] eqn:K; [|discriminate H].
  shape K SpcIndirectDataContent. intros t1 t2. told. intros H K. rd H.
  destruct (contents_of SpcAttributeTypeAndOptionalValue Untagged t1) as [b1|] eqn:Hb1; [|discriminate H]. cbn [rbind] in H.
  destruct (children SpcAttributeTypeAndOptionalValue b1) as [d1|] eqn:K1; [|discriminate H].
  shape K1 SpcAttributeTypeAndOptionalValue. intros t3 o _. told. intros H K1. rd H. inv H typ Ht.
  destruct (String.eqb_spec typ "microsoft_spc_pe_image_data") as [->|]; cbn [negb] in H; [|discriminate H].
  destruct (oid_back _ _ _ _ Ht) as (oid & D3 & E3). destruct o as [u|]; rd H; [|discriminate H].
  inv H fl Hfl. inv H fi Hfi. pose proof (image_back _ _ _ Hfl Hfi) as I. clear Hfl Hfi.
  destruct (contents_of DigestInfo Untagged t2) as [b2|] eqn:Hb2; [|discriminate H]. cbn [rbind] in H.
  destruct (children DigestInfo b2) as [d2|] eqn:K2; [|discriminate H].
  shape K2 DigestInfo. intros t5 t6. told. intros H K2. rd H. unfold algid_ok in H. cbn [rbind] in H. inv H alg Ha. inv H dg Hd. injection H as <-.
  destruct (digest_back _ _ _ Ha) as (va & D5 & a & A1 & A2).
  exists (VSeq [Some (VSeq [Some (VPrim oid); Some (VAny u)]); Some (VSeq [Some va; Some (VPrim dg)])]),
    (mkRawSpc "microsoft_spc_pe_image_data" true a dg).
  split; [|split].
  - apply is_decoded; [reflexivity|]. close SpcIndirectDataContent MsContent Hb K.
    eapply AlignedPresent; [close SpcAttributeTypeAndOptionalValue (ASeq [field "type" (APrim 6); field_with "value" AAny Untagged Optional]) Hb1 K1;
      present D3; present (any_back Untagged u u eq_refl); constructor|].
    eapply AlignedPresent; [close DigestInfo (ASeq [field "digest_algorithm" X509Algorithm; field "digest" (APrim 4)]) Hb2 K2;
      present D5; present (prim_back _ _ _ _ Hd); constructor|]. constructor.
  - exists oid, (Some (VAny u)), va. split; [reflexivity|]. split; [exact E3|]. split; [exact A1|]. split; [reflexivity|].
    exists u. split; [reflexivity|]. intros _. exact I.
  - repeat split; try exact (proj1 A2); try exact (proj1 (proj2 A2)); exact (proj2 (proj2 A2)).
Qed.

(** ** The content of a token *)

Lemma plain_back tg t s : read_oid [] (APrim 6) tg t = Ok s -> exists b, decode (APrim 6) tg t = Ok (VPrim b) /\ s = oid_text b.
Proof. intros H. destruct (oid_back _ _ _ _ H) as (b & D & ->). exists b. split; [exact D|reflexivity]. Qed.

Lemma match_flat : forall fs l d, match_fields fs l = Ok d -> l = concat (map (fun p : string * option tlv => part (snd p)) d).
Proof.
  induction fs as [|[n [x [tg p]]] fs IH]; intros l d M.
  - destruct l; cbn in M; [|discriminate M]. injection M as <-. reflexivity.
  - destruct l as [|t l].
    + destruct p; cbn [match_fields] in M; [discriminate M| |]; inv M d' Hd; injection M as <-; cbn [map concat snd part app]; exact (IH _ _ Hd).
    + destruct p; cbn [match_fields] in M; [|destruct (id_in t (first_ids x tg))..]; inv M d' Hd; injection M as <-;
        cbn [map concat snd part app]; try exact (IH _ _ Hd); f_equal; exact (IH _ _ Hd).
Qed.
Lemma part_id t id : id_in t (Some [id]) = true -> (t_class t, t_tag t) = id.
Proof. destruct id as [c g]. cbn [id_in existsb]. unfold id_eqb. cbn [fst snd]. intros H. f_equal; lia. Qed.
Lemma integer_back a d n tg o z : read_field a (Ok d) n read_int = Ok z -> dict_get n d = Some o ->
  dict_get n (seq_fields a) = Some (aInteger, (tg, Optional)) ->
  exists v, opt_decode (APrim 2) tg o v /\ maybe integer_means v z.
Proof.
  intros H G F. destruct o as [t|].
  - rewrite (proj1 (read_at a d n _ tg Optional t read_int G F)) in H. inv H y Hy. injection H as <-. unfold aInteger in Hy.
    destruct (int_back _ _ _ Hy) as (b & D & ->). exists (Some (VPrim b)). split; [exact D|]. exists b. split; reflexivity.
  - rewrite (read_absent a d n read_int G) in H. injection H as <-. exists None. split; [exact I|reflexivity].
Qed.
Lemma accuracy_back t y us : read_accuracy Accuracy Untagged t = Ok y -> lz_accuracy_to_python (Some y) = Ok us ->
  exists v r, is_a TspAccuracy t v /\ accuracy_says v r /\ SpecPkcs7.accuracy_fits (Some r) us.
Proof.
  unfold read_accuracy. intros H Q. inv H b Hb. cbv zeta in H. injection H as <-. cbn [lz_accuracy_to_python ly_seconds ly_millis ly_micros] in Q.
  destruct (children Accuracy b) as [d|] eqn:K; [|discriminate Q]. shape K Accuracy. intros o1 _ o2 _ o3 _. told. intros Q K.
  inv Q s Hs. inv Q d1 H1. inv Q ms Hms. inv Q d2 H2. inv Q mu Hmu.
  destruct (integer_back _ _ _ _ _ _ Hs eq_refl eq_refl) as (v1 & D1 & M1).
  destruct (integer_back _ _ _ _ _ _ Hms eq_refl eq_refl) as (v2 & D2 & M2).
  destruct (integer_back _ _ _ _ _ _ Hmu eq_refl eq_refl) as (v3 & D3 & M3).
  exists (VSeq [v1; v2; v3]), (s, ms, mu). split; [|split].
  - apply is_decoded; [reflexivity|]. close Accuracy TspAccuracy Hb K. maybe D1. maybe D2. maybe D3. constructor.
  - exists v1, v2, v3. split; [reflexivity|]. split; [exact M1|]. split; [exact M2|exact M3].
  - apply ProofsPkcs7.accuracy_ok. cbn [accuracy_to_python]. rewrite H1. cbn [rbind]. rewrite H2. cbn [rbind]. exact Q.
Qed.
Lemma tsa_back t s : choice_of GeneralName (Explicit 0) t
    (fun n x y u => if String.eqb n "directory_name" then Ok (LzTsaDirectory (read_name x y u)) else Ok (LzTsaOther n)) = Ok s ->
  lz_authority s = Ok tt -> exists v name, spells true TspName (Explicit 0) (VChoice "directory_name" v) t /\ name_means v name.
Proof.
  unfold GeneralName. intros H Q. destruct (choice_back (alts_of TspName) _ _ _ _ _ H ltac:(alike)) as (i & n & x & y & x' & y' & w & N1 & N2 & U & R & D).
  which i N1 N2; cbn [String.eqb Ascii.eqb Bool.eqb] in R; injection R as <-; cbn [lz_authority] in Q; try discriminate Q.
  inv Q nm Hn. destruct (name_back _ _ _ Hn) as (v & Dv & M). exists v, nm. split; [|exact M].
  apply decode_spells; [reflexivity| |exact (D _ Dv)]. intros _ k Hk. discriminate Hk.
Qed.
Lemma tst_back t i : contents_of TSTInfo Untagged t = Ok (t_contents t) -> lz_tst_info (LVTst (read_tst (t_contents t))) = Ok i -> tst_in t i.
Proof.
  intros Hb H. cbn [lz_tst_info] in H. unfold read_tst in H.
  cbn [lt_version lt_policy lt_hash_alg lt_hashed_message lt_serial lt_gen_time lt_accuracy lt_tsa] in H.
  destruct (children TSTInfo (t_contents t)) as [d|] eqn:K; [|discriminate H].
  shape K TSTInfo. intros t1 t2 t3 t4 t5 o1 I1 o2 I2 o3 I3 o4 I4 o5 I5. told. intros H K. rd H.
  inv H version Hv. inv Hv b1 Hb1. injection Hv as <-. destruct (String.eqb (version_native 0 b1) "v1") eqn:V; cbn [negb] in H; [|discriminate H].
  apply String.eqb_eq, version_v1 in V. inv H policy Hp. destruct (plain_back _ _ _ Hp) as (b2 & D2 & ->).
  destruct (contents_of MessageImprint Untagged t3) as [b3|] eqn:Hb3; [|discriminate H]. cbn [rbind] in H.
  destruct (children MessageImprint b3) as [d3|] eqn:K3; [|discriminate H].
  shape K3 MessageImprint. intros u1 u2. told. intros H K3. rd H. unfold algid_ok in H. cbn [rbind] in H. inv H alg Ha. inv H dg Hd.
  destruct (digest_back _ _ _ Ha) as (va & D3 & A). inv H serial Hs. destruct (int_back _ _ _ Hs) as (b4 & D4 & ->).
  inv H z Hz. inv Hz b5 Hb5. inv H acc Hacc. inv H us Hus. inv H tsa Htsa. inv H unit Hu. destruct unit. injection H as <-.
  assert (L : parse_all (t_contents t) = Ok (t1 :: t2 :: t3 :: t4 :: t5 :: part o1 ++ part o2 ++ part o3 ++ part o4 ++ part o5)).
  { unfold children in K. inv K l Hl. rewrite Hl. rewrite (match_flat _ _ _ K). cbn [map concat snd part app].
    rewrite !app_nil_r. reflexivity. }
  apply (TstIn t t1 t2 t3 t4 t5 o1 o2 o3 o4 o5 b1 b2 va alg dg b4 b5 z us).
  - apply is_decoded; [reflexivity|]. rewrite decode_seqof. cbn [contents_of] in Hb. inv Hb w Hw. injection Hb as Hc.
    change (expect Untagged true 16 t = Ok w) in Hw. rewrite Hw. cbn [rbind]. rewrite Hc, L. cbn [rbind]. rewrite all_any. reflexivity.
  - destruct o1; [exact (part_id _ _ I1)|exact I].
  - destruct o2; [exact (part_id _ _ I2)|exact I].
  - destruct o3; [exact (part_id _ _ I3)|exact I].
  - destruct o4; [exact (part_id _ _ I4)|exact I].
  - destruct o5; [exact (part_id _ _ I5)|exact I].
  - apply is_decoded; [reflexivity|]. exact (prim_back _ _ _ _ Hb1).
  - exact V.
  - apply is_decoded; [reflexivity|exact D2].
  - apply is_decoded; [reflexivity|]. close MessageImprint TspImprint Hb3 K3. present D3. present (prim_back _ _ _ _ Hd). constructor.
  - exact A.
  - apply is_decoded; [reflexivity|exact D4].
  - apply is_decoded; [reflexivity|]. exact (prim_back _ _ _ _ Hb5).
  - apply general_exact. exact Hz.
  - destruct o1 as [x|]; rd Hacc.
    + inv Hacc y Hy. injection Hacc as <-. exact (accuracy_back _ _ _ Hy Hus).
    + injection Hacc as <-. cbn [lz_accuracy_to_python] in Hus. injection Hus as <-. reflexivity.
  - destruct o4 as [x|]; [|exact I]. rd Htsa. inv Htsa y Hy. inv Hy y' Hy'. injection Hy as <-. injection Htsa as <-. exact (tsa_back _ _ Hy' Hu).
Qed.
