(** Proofs that what is accepted was written; statements in PropertiesAccepted.v.  Signatures. *)
From Coq Require Import Lia ZifyBool ZifyNat.
From Verif Require Import Base Monad ModelX509 ModelPkcs7 ModelLazy ModelDer ModelSpc ModelDecode ModelShown SpecAsn ProofsDer ProofsAsn ProofsAsn2.
From Verif Require Import ProofsDecode2 ProofsDecode3 ProofsLazy2 SpecPrim SpecTime ProofsTime ProofsPrim3 ProofsPrim4 SpecBer SpecStl ProofsStl SpecRead ProofsRead ProofsBer2
  SpecEnvelope ProofsEnvelope ProofsEnvelope2 SpecShown ProofsShown.
From Verif Require SpecPkcs7 ProofsPkcs7.
From Verif Require Import ProofsShown2 SpecAccepted ProofsAccepted ProofsAccepted2.

(** ** Content *)

Lemma octets_back t b : contents_of (APrim 4) (Explicit 0) t = Ok b ->
  exists u, decode AAny (Explicit 0) t = Ok (VAny u) /\ octet_string u /\ b = t_contents u.
Proof.
  cbn [contents_of]. intros H. inv H u Hu. injection H as <-. unfold expect in Hu. inv Hu w Hw.
  exists w. split; [exact (any_back _ _ _ Hw)|]. unfold octet_string, universal.
  repeat match type of Hu with (if ?c then _ else _) = _ => let E := fresh "E" in destruct c eqn:E; try discriminate Hu end.
  injection Hu as <-. cbn in *. repeat split; lia || (destruct (t_cons w); [discriminate|reflexivity]) || reflexivity.
Qed.
Lemma seq_any a t b : a = ASeq (seq_fields a) -> contents_of a Untagged t = Ok b -> b = t_contents t /\ contents_of a Untagged t = Ok (t_contents t).
Proof.
  intros E H. pose proof H as H'. rewrite E in H. cbn [contents_of] in H. inv H u Hu. injection H as <-. unfold expect in Hu. cbn [unwrap rbind] in Hu.
  repeat match type of Hu with (if ?c then _ else _) = _ => destruct c; try discriminate Hu end. injection Hu as <-. split; [reflexivity|exact H'].
Qed.

(** The type and the content of a ContentInfo in a SignedData. *)
Lemma encap_back t b typ : contents_of ContentInfo Untagged t = Ok b ->
  read ContentInfo (children ContentInfo b) "content_type" (read_oid content_types) = Ok typ ->
  exists oid t1 o, decode (APrim 6) Untagged t1 = Ok (VPrim oid) /\ typ = called content_types oid /\
    children ContentInfo b = @Ok (dict (option tlv)) [("content_type", Some t1); ("content", o)] /\
    (forall v, opt_decode AAny (Explicit 0) o v -> decode CmsContentInfo Untagged t = Ok (VSeq [Some (VPrim oid); v])).
Proof.
  intros Hb H. destruct (children ContentInfo b) as [d|] eqn:K; [|discriminate H].
  shape K ContentInfo. intros t1 o _. told. intros H K. rd H. destruct (oid_back _ _ _ _ H) as (oid & D & ->).
  exists oid, t1, o. split; [exact D|]. split; [reflexivity|]. split; [reflexivity|].
  intros v Dv. close ContentInfo CmsContentInfo Hb K. present D. maybe Dv. constructor.
Qed.
Lemma encap_same b d : children ContentInfo b = Ok d -> children EncapsulatedContentInfo b = Ok d.
Proof.
  unfold children. intros H. inv H l Hl. rewrite Hl. cbn [rbind]. rewrite <- H. symmetry. apply match_fields_alike. alike.
Qed.
Lemma load_any b t r : parse_tlv b = Ok (t, r) -> holds_a AAny b (VAny t).
Proof. intros H. apply load_written; [reflexivity|]. unfold load. rewrite H. reflexivity. Qed.
Lemma load_is a b t r v : taggable a = true -> parse_tlv b = Ok (t, r) -> is_a a t v -> distinct a -> holds_a a b v.
Proof. intros T H I D. apply load_written; [exact T|]. unfold load. rewrite H. cbn [rbind]. exact (decoded_is _ _ _ D I). Qed.

Lemma spc_content t b version c value spc : contents_of ContentInfo Untagged t = Ok b ->
  read ContentInfo (children ContentInfo b) "content_type" (read_oid content_types) = Ok spc_type ->
  read_content (version_native 0 version) b = Ok c -> lo_value c = Ok value -> lz_spc_info value = Ok spc ->
  exists typ u r, decode CmsContentInfo Untagged t = Ok (VSeq [Some (VPrim typ); Some (VAny u)]) /\
    oid_text typ = "1.3.6.1.4.1.311.2.1.4" /\
    content_says version (oid_text typ) (Some (VAny u)) (mkRawContent (lo_octets c) (RVSpc r)) /\ SpecPkcs7.spc_reads r spc.
Proof.
  intros Hb Ht Hc Hv Hs. destruct (encap_back _ _ _ Hb Ht) as (oid & t1 & o & D1 & T & K & Close).
  assert (O : oid_text oid = "1.3.6.1.4.1.311.2.1.4").
  { apply String.eqb_eq. rewrite <- name_spc, <- T. reflexivity. }
  unfold read_content in Hc. destruct (String.eqb_spec (version_native 0 version) "v1") as [V|V].
  - apply version_v1 in V. rewrite K in Hc, Ht. cbv zeta in Hc. rd Hc. rd Ht. rewrite Ht in Hc. cbn [rbind] in Hc.
    destruct o as [x|]; rd Hc; [|injection Hc as <-; injection Hv as <-; discriminate Hs]. inv Hc o Ho. inv Ho u Hu. injection Ho as <-.
    change (String.eqb spc_type "microsoft_spc_indirect_data_content") with true in Hc. cbv iota in Hc.
    inv Hc d Hd. injection Hc as <-. cbn [lo_value lo_octets] in *. injection Hv as <-.
    destruct (seq_any SpcIndirectDataContent _ _ eq_refl Hd) as (-> & Hd'). destruct (spc_back _ _ Hd' Hs) as (v & r & I & S & R).
    exists oid, u, r. split; [apply Close; exact (any_back _ _ _ Hu)|]. split; [exact O|]. split; [|exact R].
    exact (ContentSpc1 _ _ _ _ _ V O I S).
  - assert (V' : signed_integer version <> 1) by (intros E; apply V, version_v1, E).
    rewrite (encap_same _ _ K) in Hc. rewrite K in Ht. cbv zeta in Hc. rd Hc. rd Ht. rewrite Ht in Hc. cbn [rbind] in Hc.
    destruct o as [x|]; rd Hc; [|injection Hc as <-; injection Hv as <-; discriminate Hs]. inv Hc o Ho. inv Ho d Hd. injection Ho as <-.
    injection Hc as <-. cbn [lo_value lo_octets] in *. inv Hv p Hp. destruct p as [w rest].
    change (String.eqb spc_type "microsoft_spc_indirect_data_content") with true in Hv. cbv iota in Hv. inv Hv e He. injection Hv as <-.
    destruct (seq_any SpcIndirectDataContent _ _ eq_refl He) as (-> & He'). destruct (spc_back _ _ He' Hs) as (v & r & I & S & R).
    destruct (octets_back _ _ Hd) as (u & Du & Ou & ->). exists oid, u, r. split; [apply Close; exact Du|]. split; [exact O|]. split; [|exact R].
    refine (ContentSpc _ _ _ _ _ V' O Ou _ S). refine (load_is MsContent _ _ _ _ eq_refl Hp I _). apply types_distinct. cbn. tauto.
Qed.
Lemma tst_content t b version c value tst : contents_of ContentInfo Untagged t = Ok b ->
  read ContentInfo (children ContentInfo b) "content_type" (read_oid content_types) = Ok "tst_info" ->
  read_content (version_native 0 version) b = Ok c -> lo_value c = Ok value -> lz_tst_info value = Ok tst ->
  exists typ u w, decode CmsContentInfo Untagged t = Ok (VSeq [Some (VPrim typ); Some (VAny u)]) /\
    oid_text typ = "1.2.840.113549.1.9.16.1.4" /\ signed_integer version <> 1 /\ octet_string u /\ lo_octets c = t_contents u /\
    holds_a AAny (t_contents u) (VAny w) /\ tst_in w tst.
Proof.
  intros Hb Ht Hc Hv Hs. destruct (encap_back _ _ _ Hb Ht) as (oid & t1 & o & D1 & T & K & Close).
  assert (O : oid_text oid = "1.2.840.113549.1.9.16.1.4").
  { apply String.eqb_eq. rewrite <- name_tst, <- T. reflexivity. }
  unfold read_content in Hc. destruct (String.eqb_spec (version_native 0 version) "v1") as [V|V].
  - exfalso. inv Hc typ Hty. rewrite Ht in Hty. injection Hty as <-. inv Hc u Hu.
    destruct u as [u|]; [|injection Hc as <-; injection Hv as <-; discriminate Hs].
    change (String.eqb "tst_info" "microsoft_spc_indirect_data_content") with false in Hc. cbv iota in Hc.
    injection Hc as <-. injection Hv as <-. discriminate Hs.
  - assert (V' : signed_integer version <> 1) by (intros E; apply V, version_v1, E).
    rewrite (encap_same _ _ K) in Hc. rewrite K in Ht. cbv zeta in Hc. rd Hc. rd Ht. rewrite Ht in Hc. cbn [rbind] in Hc.
    destruct o as [x|]; rd Hc; [|injection Hc as <-; injection Hv as <-; discriminate Hs]. inv Hc o Ho. inv Ho d Hd. injection Ho as <-.
    injection Hc as <-. cbn [lo_value lo_octets] in *. inv Hv p Hp. destruct p as [w rest].
    change (String.eqb "tst_info" "microsoft_spc_indirect_data_content") with false in Hv. cbv iota in Hv.
    change (String.eqb "tst_info" "tst_info") with true in Hv. cbv iota in Hv. inv Hv e He. injection Hv as <-.
    destruct (seq_any TSTInfo _ _ eq_refl He) as (-> & He'). pose proof (tst_back _ _ He' Hs) as I.
    destruct (octets_back _ _ Hd) as (u & Du & Ou & ->). exists oid, u, w. split; [apply Close; exact Du|]. split; [exact O|].
    split; [exact V'|]. split; [exact Ou|]. split; [reflexivity|]. split; [exact (load_any _ _ _ Hp)|exact I].
Qed.

(** ** Certificates *)

Lemma choice_of_certificate t x : read_choice t = Ok x ->
  x = LzCertificate (read_certificate t) \/ (exists k, x = LzOtherChoice k) /\ t_class t = 2 /\ 0 <= t_tag t <= 3.
Proof.
  unfold read_choice, choice_of, CertificateChoices. cbn [unwrap rbind find_alt].
  destruct (id_in t (first_ids Certificate Untagged)); [intros H; injection H as <-; left; reflexivity|].
  destruct (id_in t (first_ids AAny (Implicit 0))) eqn:E0; [apply id_implicit in E0|
  destruct (id_in t (first_ids AAny (Implicit 1))) eqn:E1; [apply id_implicit in E1|
  destruct (id_in t (first_ids AAny (Implicit 2))) eqn:E2; [apply id_implicit in E2|
  destruct (id_in t (first_ids AAny (Implicit 3))) eqn:E3; [apply id_implicit in E3|discriminate]]]];
  intros H; injection H as <-; right; (split; [eexists; reflexivity|lia]).
Qed.
Lemma certificates_back : forall ts cs, lz_certificates (map read_choice ts) = Ok cs ->
  exists l, Forall2 choice_says ts l /\ SpecPkcs7.certificates_of l cs.
Proof.
  induction ts as [|t ts IH]; intros cs H; cbn [map lz_certificates] in H.
  - injection H as <-. exists []. split; constructor.
  - inv H x Hx. destruct (choice_of_certificate _ _ Hx) as [->|((k & ->) & C & G)].
    + inv H c Hc. inv H ys Hys. injection H as <-. destruct (IH _ Hys) as (l & F & Q).
      destruct (certificate_back _ _ Hc) as (v & D & M & I1 & I2). exists (ChoiceCertificate c :: l). split; constructor; try assumption.
      apply (ChoiceX509 t v c); [apply is_decoded; [reflexivity|exact D]|exact M|exact I2|exact I1].
    + destruct (IH _ H) as (l & F & Q). exists (ChoiceOther k :: l). split; constructor; try assumption. constructor; assumption.
Qed.

(** ** Attributes *)

Lemma attribute_back t typ v : show_attr t = Ok (typ, v) -> exists a, attribute t a /\ named (typ, v) a.
Proof.
  unfold show_attr. intros H. inv H b Hb. cbv zeta in H. destruct (children CMSAttribute b) as [d|] eqn:K; [|discriminate H].
  shape K CMSAttribute. intros t1 t2. told. intros H K. rd H. inv H s Hs. rd H. inv H l Hl. injection H as <- <-.
  destruct (oid_back _ _ _ _ Hs) as (oid & D & ->). exists (oid_text oid, l). split.
  - exists oid. split; [|reflexivity]. apply is_decoded; [reflexivity|]. close CMSAttribute CmsAttribute Hb K.
    present D. present (set_back _ _ _ _ Hl). constructor.
  - exists oid. split; reflexivity.
Qed.
Lemma attributes_back : forall ts d, map_res show_attr ts = Ok d -> exists l, Forall2 attribute ts l /\ Forall2 named d l.
Proof.
  induction ts as [|t ts IH]; intros d H; cbn [map_res] in H.
  - injection H as <-. exists []. split; constructor.
  - inv H x Ha. destruct x as [typ v]. inv H d' Hd. injection H as <-. destruct (attribute_back _ _ _ Ha) as (a & A1 & A2). destruct (IH _ Hd) as (l & F1 & F2).
    exists (a :: l). split; constructor; assumption.
Qed.
Lemma named_last n o d l : (forall oid, String.eqb (called attribute_types oid) n = String.eqb (oid_text oid) o) -> Forall2 named d l ->
  last_of o l (show_values n d).
Proof.
  intros E. induction 1 as [|x a d l (oid & A & ->) F IH]; [constructor; constructor|]. destruct a as [typ v]. cbn [fst snd] in *. subst typ.
  cbn [show_values]. destruct (show_values n d) as [w|].
  - inversion IH as [|l0 v0 r R]; subst. exact (LastSome o ((oid_text oid, v) :: l0) w r R).
  - rewrite E. inversion IH as [l0 R|]; subst. destruct (String.eqb_spec (oid_text oid) o) as [<-|N].
    + exact (LastSome _ [] v l R).
    + constructor. constructor; assumption.
Qed.
Lemma simple_begins {A} tag (k : bytes -> res A) t x : simple_item tag k t = Ok x ->
  begins_with false [tag] t /\ decode (APrim tag) Untagged t = Ok (VPrim (t_contents t)) /\ x = k (t_contents t).
Proof.
  unfold simple_item. intros H. inv H u Hu. injection H as <-. cbn [decode]. rewrite Hu. cbn [rbind]. unfold expect in Hu. cbn [unwrap rbind] in Hu.
  repeat match type of Hu with (if ?c then _ else _) = _ => let E := fresh "E" in destruct c eqn:E; try discriminate Hu end.
  injection Hu as <-. split; [|split; reflexivity]. unfold begins_with. cbn [In].
  cbn in *. repeat split; try lia; try (destruct (t_cons t); [discriminate|reflexivity]).
Qed.
Lemma seq_begins a t b : a = ASeq (seq_fields a) -> contents_of a Untagged t = Ok b -> begins_with true [16] t.
Proof.
  intros E H. rewrite E in H. cbn [contents_of] in H. inv H u Hu. unfold expect in Hu. cbn [unwrap rbind] in Hu.
  repeat match type of Hu with (if ?c then _ else _) = _ => let E := fresh "E" in destruct c eqn:E; try discriminate Hu end.
  unfold begins_with. cbn [In]. cbn in *. repeat split; try lia; try (destruct (t_cons t); [reflexivity|discriminate]).
Qed.
Lemma time_begins {A} t (k : string -> asn -> tagging -> tlv -> res A) x : choice_of Time Untagged t k = Ok x ->
  (forall n x y u z, k n x y u = Ok z -> exists b, contents_of x y u = Ok b) -> begins_with false [23; 24] t.
Proof.
  unfold Time. intros H Q. destruct (choice_back (alts_of X509Time) _ _ _ _ _ H ltac:(alike)) as (i & n & a & y & a' & y' & w & N1 & N2 & U & R & D).
  cbn [unwrap] in U. injection U as <-. which i N1 N2; destruct (Q _ _ _ _ _ R) as (b & C); cbn [contents_of] in C; inv C u Hu;
    unfold expect in Hu; cbn [unwrap rbind] in Hu;
    (match type of Hu with (if ?c then _ else _) = _ => destruct c eqn:E; [|discriminate Hu] end);
    unfold begins_with; cbn [In]; (repeat split; try lia; try (destruct (t_cons t); [cbn in E; lia|reflexivity])).
Qed.

Lemma all_of {A} (k : tlv -> res A) (P : tlv -> Prop) : (forall t x, k t = Ok x -> P t) -> forall ts l, map_res k ts = Ok l -> Forall P ts.
Proof.
  intros H. induction ts as [|t ts IH]; intros l M; [constructor|]. cbn [map_res] in M. inv M x Hx. inv M xs Hxs.
  constructor; [exact (H _ _ Hx)|exact (IH _ Hxs)].
Qed.
Ltac implausible := unfold plausible; split; [|split; [|split]]; intros P; try discriminate P; cbn [In] in P;
  repeat (destruct P as [P|P]; [try discriminate P|]); try contradiction P.
Lemma typed_plausible f oid v : lz_readable (of_values f (called attribute_types oid) v) = Ok tt -> Forall (plausible (oid_text oid)) v.
Proof.
  intros R. unfold of_values in R.
  rewrite name_content_type, name_message_digest, name_signing_time, name_counter, name_statement, name_opus, name_nested, name_token in R.
  generalize dependent (oid_text oid). intros typ R.
  assert (K : forall B (k : tlv -> res B) (s : string), typ = s -> (forall t x, k t = Ok x -> plausible s t) ->
              (exists l, map_res k v = Ok l) -> Forall (plausible typ) v).
  { intros B k s -> H (l & M). exact (all_of _ _ H _ _ M). }
  assert (Y : forall B (k : tlv -> res B), (let? _ := map_res k v in Ok tt) = Ok tt -> exists l, map_res k v = Ok l).
  { intros B k H. destruct (map_res k v) as [l|]; [exists l; reflexivity|discriminate H]. }
  destruct (String.eqb_spec typ "1.2.840.113549.1.9.3") as [E|N3].
  { apply (K _ _ _ E) with (2 := Y _ _ R). intros t x H. apply simple_begins in H as (H & _). implausible; exact H. }
  destruct (String.eqb_spec typ "1.2.840.113549.1.9.4") as [E|N4].
  { apply (K _ _ _ E) with (2 := Y _ _ R). intros t x H. apply simple_begins in H as (H & _). implausible; exact H. }
  destruct (String.eqb_spec typ "1.2.840.113549.1.9.5") as [E|N5].
  { apply (K _ _ _ E) with (2 := Y _ _ R). intros t x H. apply time_begins in H; [implausible; exact H|].
    intros n x1 y1 u1 z1 Q. inv Q b Hb. exists b. exact Hb. }
  destruct (String.eqb_spec typ "1.2.840.113549.1.9.6") as [E|N6].
  { apply (K _ _ _ E) with (2 := Y _ _ R). intros t x H. inv H b Hb. apply (seq_begins SignerInfo) in Hb; [|reflexivity].
    implausible; exact Hb. }
  destruct (String.eqb_spec typ "1.3.6.1.4.1.311.2.1.11") as [E|N11].
  { apply (K _ _ _ E) with (2 := Y _ _ R). intros t x H. unfold statement_of in H. inv H b Hb.
    apply (seq_begins (ASeq [])) in Hb; [|reflexivity]. implausible; exact Hb. }
  destruct (String.eqb_spec typ "1.3.6.1.4.1.311.2.1.12") as [E|N12].
  { apply (K _ _ _ E) with (2 := Y _ _ R). intros t x H. unfold read_opus in H. inv H b Hb.
    apply (seq_begins SpcSpOpusInfo) in Hb; [|reflexivity]. implausible; exact Hb. }
  destruct (String.eqb_spec typ "1.3.6.1.4.1.311.2.4.1") as [E|N41].
  { apply (K _ _ _ E) with (2 := Y _ _ R). intros t x H. unfold info_of in H. inv H b Hb.
    apply (seq_begins ContentInfo) in Hb; [|reflexivity]. implausible; exact Hb. }
  destruct (String.eqb_spec typ "1.3.6.1.4.1.311.3.3.1") as [E|N33].
  { apply (K _ _ _ E) with (2 := Y _ _ R). intros t x H. unfold info_of in H. inv H b Hb.
    apply (seq_begins ContentInfo) in Hb; [|reflexivity]. implausible; exact Hb. }
  clear R K Y. apply Forall_forall. intros t _. implausible; try congruence.
Qed.
Lemma named_plausible f : forall au d l, Forall2 (tied_attr f) au d -> Forall2 named d l -> Forall (fun a => Forall (plausible (fst a)) (snd a)) l.
Proof.
  intros au d l F. revert l. induction F as [|x p au d (-> & R) F IH]; intros l N; inversion N as [|? a ? l' (oid & A & ->) N']; subst; constructor.
  - rewrite A. cbn [fst snd] in R. exact (typed_plausible _ _ _ R).
  - exact (IH _ N').
Qed.
Lemma dict_back f ts au : lz_attributes (Ok (map (read_attr (S f)) ts)) = Ok au ->
  exists d l, Forall2 (tied_attr f) au d /\ Forall2 named d l /\ Forall2 attribute ts l /\
    Forall (fun a => Forall (plausible (fst a)) (snd a)) l.
Proof.
  intros H. destruct (attributes_shown _ _ _ H) as (d & M & F). destruct (attributes_back _ _ M) as (l & A & N). exists d, l.
  split; [exact F|]. split; [exact N|]. split; [exact A|]. exact (named_plausible _ _ _ _ F N).
Qed.

(** What a lookup of a kind of attributes finds. *)
Definition finds {A} (g : lz_attr -> option (res (list A))) (k : tlv -> res A) (o : string) (au : list lz_attr) (l : list (string * list tlv)) : Prop :=
  match lz_values g au with
  | None => last_of o l None
  | Some xs => exists ts, last_of o l (Some ts) /\ map_res k ts = Ok xs
  end.
Lemma finding {A} n (g : lz_attr -> option (res (list A))) k o f au d l :
  (forall typ v, g (of_values f typ v) = if String.eqb typ n then Some (map_res k v) else None) ->
  (forall v, lz_readable (of_values f n v) = Ok tt -> exists l, map_res k v = Ok l) ->
  (forall oid, String.eqb (called attribute_types oid) n = String.eqb (oid_text oid) o) ->
  Forall2 (tied_attr f) au d -> Forall2 named d l -> finds g k o au l.
Proof.
  intros Hg Hr E F N. pose proof (values_shown f n g k Hg Hr au d F) as V. pose proof (named_last n o d l E N) as L. unfold finds.
  destruct (show_values n d) as [v|].
  - destruct V as (xs & M & ->). exists v. split; assumption.
  - rewrite V. exact L.
Qed.
Definition item_type := simple_item 6 (fun b => Ok (oid_native content_types b)).
Definition item_digest := simple_item 4 (fun b => Ok b).
Definition item_time (t : tlv) := choice_of Time Untagged t (fun n x y u => let? b := contents_of x y u in Ok (time_native n b)).
Definition item_signer (f : nat) (t : tlv) := let? b := contents_of SignerInfo Untagged t in Ok (read_si f b).
Section Finding.
  Context (f : nat) (au : list lz_attr) (d w : list (string * list tlv)) (F : Forall2 (tied_attr f) au d) (N : Forall2 named d w).
  Lemma find_type : finds lz_content_type item_type "1.2.840.113549.1.9.3" au w.
  Proof using F N. apply (finding "content_type" _ _ _ f au d w); [by_type|cbv beta delta [item_type item_digest item_time item_signer]; by_reading|exact name_content_type|exact F|exact N]. Qed.
  Lemma find_digest : finds lz_message_digest item_digest "1.2.840.113549.1.9.4" au w.
  Proof using F N. apply (finding "message_digest" _ _ _ f au d w); [by_type|cbv beta delta [item_type item_digest item_time item_signer]; by_reading|exact name_message_digest|exact F|exact N]. Qed.
  Lemma find_time : finds lz_signing_time item_time "1.2.840.113549.1.9.5" au w.
  Proof using F N. apply (finding "signing_time" _ _ _ f au d w); [by_type|cbv beta delta [item_type item_digest item_time item_signer]; by_reading|exact name_signing_time|exact F|exact N]. Qed.
  Lemma find_counter : finds lz_counter_signature (item_signer f) "1.2.840.113549.1.9.6" au w.
  Proof using F N. apply (finding "counter_signature" _ _ _ f au d w); [by_type|cbv beta delta [item_type item_digest item_time item_signer]; by_reading|exact name_counter|exact F|exact N]. Qed.
  Lemma find_statement : finds lz_statement_type statement_of "1.3.6.1.4.1.311.2.1.11" au w.
  Proof using F N. apply (finding "microsoft_spc_statement_type" _ _ _ f au d w); [by_type|cbv beta delta [item_type item_digest item_time item_signer]; by_reading|exact name_statement|exact F|exact N]. Qed.
  Lemma find_opus : finds lz_opus_info read_opus "1.3.6.1.4.1.311.2.1.12" au w.
  Proof using F N. apply (finding "microsoft_spc_sp_opus_info" _ _ _ f au d w); [by_type|cbv beta delta [item_type item_digest item_time item_signer]; by_reading|exact name_opus|exact F|exact N]. Qed.
  Lemma find_nested : finds lz_nested (info_of f) "1.3.6.1.4.1.311.2.4.1" au w.
  Proof using F N. apply (finding "microsoft_nested_signature" _ _ _ f au d w); [by_type|cbv beta delta [item_type item_digest item_time item_signer]; by_reading|exact name_nested|exact F|exact N]. Qed.
  Lemma find_token : finds lz_token (info_of f) "1.3.6.1.4.1.311.3.3.1" au w.
  Proof using F N. apply (finding "microsoft_time_stamp_token" _ _ _ f au d w); [by_type|cbv beta delta [item_type item_digest item_time item_signer]; by_reading|exact name_token|exact F|exact N]. Qed.
End Finding.
Lemma one_of {A} (k : tlv -> res A) ts x : map_res k ts = Ok [x] -> exists t, ts = [t] /\ k t = Ok x.
Proof. intros H. apply ProofsPkcs7.map_res_single in H. exact H. Qed.

(** ** Signers *)

(** The name of a type of content, and its identifier. *)
Definition same_type (ex typ : option string) : Prop :=
  match ex, typ with
  | None, None => True
  | Some s, Some e => forall oid, String.eqb (called content_types oid) s = String.eqb (oid_text oid) e
  | _, _ => False
  end.
(** What is known of a SignerInfo that was parsed. *)
Definition parsed (need : bool) (typ : option string) (f : nat) (t : tlv) (i : sinfo) (auth unauth : list lz_attr) : Prop :=
  exists signed unsigned d d', signer_in need typ t i signed unsigned /\
    Forall2 (tied_attr f) auth d /\ Forall2 named d signed /\ Forall2 (tied_attr f) unauth d' /\ Forall2 named d' unsigned.
Lemma sid_back t n z : (let? s := choice_of SignerIdentifier Untagged t
    (fun n x y u =>
       if String.eqb n "issuer_and_serial_number" then
         let is := (let? b := contents_of x y u in children IssuerAndSerialNumber b) in
         Ok (LzIssuerSerial (read IssuerAndSerialNumber is "issuer" read_name)
                            (read IssuerAndSerialNumber is "serial_number" read_int))
       else Ok LzKeyIdentifier) in
    match s with LzKeyIdentifier => raise SignerInfoParseError "" | LzIssuerSerial issuer serial =>
      let? i := issuer in let? s := serial in Ok (i, s) end) = Ok (n, z) ->
  exists v b, decode CmsSid Untagged t = Ok (VChoice "issuer_and_serial_number" (VSeq [Some v; Some (VPrim b)])) /\
    name_means v n /\ z = signed_integer b.
Proof.
  unfold SignerIdentifier. intros H. inv H s Hs. destruct (choice_back (alts_of CmsSid) _ _ _ _ _ Hs ltac:(alike))
    as (i & m & x & y & x' & y' & w & N1 & N2 & U & R & D).
  which i N1 N2; cbn [String.eqb Ascii.eqb Bool.eqb] in R; [|injection R as <-; discriminate H].
  cbv zeta in R. injection R as <-.
  change (let? u := expect Untagged true 16 w in Ok (t_contents u)) with (contents_of IssuerAndSerialNumber Untagged w) in H. destruct (contents_of IssuerAndSerialNumber Untagged w) as [b|] eqn:Hb; [|discriminate H]. cbn [rbind] in H.
  destruct (children IssuerAndSerialNumber b) as [d|] eqn:K; [|discriminate H]. clear Hs.
  shape K IssuerAndSerialNumber. intros t1 t2. told. intros H K. rd H. inv H n' Hn. inv H z' Hz. injection H as -> ->.
  destruct (name_back _ _ _ Hn) as (v & D1 & M). destruct (int_back _ _ _ Hz) as (c & D2 & ->). exists v, c. split; [|split; [exact M|reflexivity]].
  apply D. close IssuerAndSerialNumber CmsIssuerSerial Hb K. present D1. present D2. constructor.
Qed.
Lemma attrs_read f b n au : lz_attributes (let? o := read_field SignerInfo (children SignerInfo b) n items_of in
    match o with None => Ok [] | Some l => Ok (map (read_attr f) l) end) = Ok au ->
  exists o, read_field SignerInfo (children SignerInfo b) n items_of = Ok o /\
    lz_attributes (Ok (map (read_attr f) (match o with Some l => l | None => [] end))) = Ok au.
Proof.
  intros H. destruct (read_field SignerInfo (children SignerInfo b) n items_of) as [[l|]|]; [exists (Some l)|exists None|discriminate H];
    split; try reflexivity; exact H.
Qed.
Lemma set_opt a d n x tg o r : read_field a (Ok d) n items_of = Ok r -> dict_get n d = Some o ->
  dict_get n (seq_fields a) = Some (ASetOf x, (tg, Optional)) ->
  exists v, opt_decode (ASetOf AAny) tg o v /\ members v (match r with Some l => l | None => [] end) /\
    (match read_field a (Ok d) n contents_of with Ok (Some b) => b | _ => [] end) =
    concat (map tlv_dump (match r with Some l => l | None => [] end)).
Proof.
  intros H G E. destruct o as [t|].
  - rewrite (proj1 (read_at a d n _ tg Optional t items_of G E)) in H. rewrite (proj1 (read_at a d n _ tg Optional t contents_of G E)).
    inv H l Hl. injection H as <-. pose proof (set_back _ _ _ _ Hl) as D. destruct (members_at x _ _ _ D) as (_ & ->).
    exists (Some (VList (map VAny l))). split; [exact D|]. split; reflexivity.
  - rewrite (read_absent a d n items_of G) in H. rewrite (read_absent a d n contents_of G). injection H as <-. exists None.
    split; [exact I|]. split; reflexivity.
Qed.

Lemma item_time_back t z : item_time t = Ok (Ok z) -> exists v, is_a X509Time t v /\ time_means v z.
Proof.
  intros H. assert (R : read_time Time Untagged t = Ok z).
  { revert H. unfold item_time, read_time, choice_of, Time. cbn [unwrap rbind find_alt].
    repeat match goal with |- context [if ?c then _ else _] => destruct c end; try discriminate;
      intros H; inv H b Hb; rewrite Hb; cbn [rbind]; injection H as H; exact H. }
  destruct (time_back _ _ _ R) as (v & D & M). exists v. split; [apply is_decoded; [reflexivity|exact D]|exact M].
Qed.
Lemma signer_back need ex typ f t b i auth unauth : same_type ex typ -> contents_of SignerInfo Untagged t = Ok b ->
  lz_signer need ex (read_si f b) = Ok (i, (auth, unauth)) -> exists f', f = S (S f') /\ parsed need typ f' t i auth unauth.
Proof.
  intros Same Hb H. destruct f as [|f]; [discriminate H|]. cbn [read_si lz_signer] in H. inv H s Hs. destruct s as [iss ser|]; [|discriminate].
  inv H issuer H1. inv H serial H2. inv H auth' H3. inv H tt1 H4. inv H unauth' H5. inv H salg' H6.
  inv H sg' H7. inv H dalg' H8. inv H alg H9. inv H md H10. inv H ct H11. inv H tt2 H12. inv H st H13.
  injection H as <- <- <-. apply attrs_read in H3 as (r1 & R1 & A1). apply attrs_read in H5 as (r2 & R2 & A2).
  destruct f as [|f].
  { exfalso. destruct (match r1 with Some l => l | None => [] end) as [|x l]; [|discriminate A1].
    cbn [map lz_attributes rbind map_res] in A1. injection A1 as <-. discriminate H4. }
  exists f. split; [reflexivity|]. destruct (dict_back _ _ _ A1) as (d1 & l1 & T1 & N1 & B1 & P1).
  destruct (dict_back _ _ _ A2) as (d2 & l2 & T2 & N2 & B2 & P2). clear A1 A2.
  exists l1, l2, d1, d2. split; [|split; [exact T1|split; [exact N1|split; [exact T2|exact N2]]]].
  pose proof (find_type _ _ _ _ T1 N1) as F1. pose proof (find_digest _ _ _ _ T1 N1) as F2. pose proof (find_time _ _ _ _ T1 N1) as F3.
  unfold finds in F1, F2, F3.
  assert (Sid : (let? s := read SignerInfo (children SignerInfo b) "sid"
           (fun a tg t => choice_of a tg t
              (fun n x y u =>
                 if String.eqb n "issuer_and_serial_number" then
                   let is := (let? b := contents_of x y u in children IssuerAndSerialNumber b) in
                   Ok (LzIssuerSerial (read IssuerAndSerialNumber is "issuer" read_name)
                                      (read IssuerAndSerialNumber is "serial_number" read_int))
                 else Ok LzKeyIdentifier)) in
     match s with LzKeyIdentifier => raise SignerInfoParseError "" | LzIssuerSerial issuer serial =>
       let? i := issuer in let? s := serial in Ok (i, s) end) = Ok (issuer, serial)).
  { cbv zeta. rewrite Hs. cbn [rbind]. rewrite H1. cbn [rbind]. rewrite H2. reflexivity. }
  clear Hs H1 H2 iss ser. destruct (children SignerInfo b) as [d|] eqn:K; [|discriminate Sid].
  shape K SignerInfo. intros t1 t2 t3 o1 _ t4 t5 o2 _. told. intros R1 R2 H6 H7 H8 Sid K.
  rd H6. rd H7. rd H8. rd Sid. unfold algid_ok in H8. injection H8 as <-.
  destruct (sid_back _ _ _ Sid) as (vi & bs & Ds & Mi & ->). clear Sid. destruct (algorithm_back _ _ _ _ H6) as (so & params & Da & ->).
  destruct (digest_back _ _ _ H9) as (va & Dd & Md). pose proof (prim_back _ _ _ _ H7) as Dsig. clear H6 H7 H9.
  destruct (set_opt _ _ _ _ _ _ _ R1 eq_refl eq_refl) as (v1 & D1 & M1 & E1). rewrite E1. clear E1 R1.
  destruct (set_opt _ _ _ _ _ _ _ R2 eq_refl eq_refl) as (v2 & D2 & M2 & _). clear R2.
  destruct (lz_values lz_content_type auth') as [xs1|]; [|discriminate H4]. destruct F1 as (ts1 & L1 & Q1).
  destruct (lz_values lz_message_digest auth') as [xs2|]; [|discriminate H4]. destruct F2 as (ts2 & L2 & Q2).
  unfold lz_single in H10, H11.
  destruct xs1 as [|y1 [|]]; try discriminate H11. inv H11 ct' Hct. injection H11 as <-. subst y1.
  destruct xs2 as [|y2 [|]]; try discriminate H10. inv H10 md' Hmd. injection H10 as <-. subst y2.
  destruct (one_of _ _ _ Q1) as (x1 & -> & X1). destruct (one_of _ _ _ Q2) as (x2 & -> & X2). clear Q1 Q2.
  apply simple_begins in X1 as (_ & X1 & Y1). apply simple_begins in X2 as (_ & X2 & Y2). injection Y1 as ->. injection Y2 as ->.
  rewrite <- called_is in *.
  eapply SignerIn with (ts1 := match r1 with Some l => l | None => [] end) (ts2 := match r2 with Some l => l | None => [] end).
  - apply is_decoded; [reflexivity|]. close SignerInfo CmsSigner Hb K.
    present (any_back Untagged t1 t1 eq_refl). present Ds. present Dd. maybe D1. present Da. present Dsig. maybe D2. constructor.
  - exact Mi.
  - exact Md.
  - split; [exact M1|]. split; [exact B1|exact P1].
  - split; [exact M2|]. split; [exact B2|exact P2].
  - exact L1.
  - apply is_decoded; [reflexivity|exact X1].
  - intros e ->. unfold same_type in Same. destruct ex as [s|]; [|contradiction Same]. specialize (Same (t_contents x1)).
    destruct (String.eqb (called content_types (t_contents x1)) s); [|discriminate H12]. symmetry in Same. apply String.eqb_eq. exact Same.
  - exact L2.
  - apply is_decoded; [reflexivity|exact X2].
  - destruct (lz_values lz_signing_time auth') as [xs3|].
    + destruct F3 as (ts3 & L3 & Q3). destruct xs3 as [|y3 [|]]; try discriminate H13. inv H13 st' Hst. injection H13 as <-. subst y3.
      destruct (one_of _ _ _ Q3) as (x3 & -> & X3). destruct (item_time_back _ _ X3) as (v & I3 & M3). exists x3, v. auto.
    + injection H13 as <-. exact F3.
  - intros ->. destruct (lz_values lz_signing_time auth') as [xs3|]; [|discriminate H4]. destruct xs3 as [|y3 [|]]; try discriminate H13.
    inv H13 st' Hst. injection H13 as <-. discriminate.
Qed.
