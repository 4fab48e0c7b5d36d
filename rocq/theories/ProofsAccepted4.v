(** Proofs that what is accepted was written; statements in PropertiesAccepted.v.  Nesting. *)
From Coq Require Import Lia ZifyBool ZifyNat.
From Verif Require Import Base Monad ModelX509 ModelPkcs7 ModelLazy ModelDer ModelSpc ModelDecode ModelShown SpecAsn ProofsDer ProofsAsn ProofsAsn2.
From Verif Require Import ProofsDecode2 ProofsDecode3 ProofsLazy2 SpecPrim SpecTime ProofsTime ProofsPrim3 ProofsPrim4 SpecBer SpecStl ProofsStl SpecRead ProofsRead ProofsBer2
  SpecEnvelope ProofsEnvelope ProofsEnvelope2 SpecShown ProofsShown.
From Verif Require SpecPkcs7 ProofsPkcs7.
From Verif Require Import ProofsShown2 SpecAccepted ProofsAccepted ProofsAccepted2 ProofsAccepted3.

(** ** Countersigners *)

Lemma item_signer_back f t r : item_signer f t = Ok r -> exists b, contents_of SignerInfo Untagged t = Ok b /\ r = read_si f b.
Proof. unfold item_signer. intros H. inv H b Hb. injection H as <-. exists b. split; [exact Hb|reflexivity]. Qed.
Lemma counter_back : forall depth f t r i, item_signer f t = Ok r -> lz_countersigner depth r = Ok i -> counter_in t i.
Proof.
  induction depth as [|depth IH]; intros f t r i Hr H; [discriminate H|]. destruct (item_signer_back _ _ _ Hr) as (b & Hb & ->).
  cbn [lz_countersigner] in H. inv H p Hp. destruct p as [i' [auth unauth]]. cbn [fst snd] in H.
  destruct (signer_back true None None _ _ _ _ _ _ I Hb Hp) as (f' & -> & signed & unsigned & d & d' & S & _ & _ & T & N).
  pose proof (find_counter _ _ _ _ T N) as F. unfold finds in F. inv H cs Hcs. unfold lz_countersignature in Hcs.
  destruct (lz_values lz_counter_signature unauth) as [l|].
  - destruct F as (ts & L & M). destruct l as [|x [|]]; try discriminate Hcs. injection Hcs as <-. inv H j Hj. injection H as <-.
    destruct (one_of _ _ _ M) as (u & -> & U). exact (CounterMore _ _ _ _ _ _ S L (IH _ _ _ _ U Hj)).
  - injection Hcs as <-. injection H as <-. exact (CounterLast _ _ _ _ S F).
Qed.

(** ** Content infos *)

Lemma ci_back {A} f x c m (sub : lz_sd -> res A) a : info_of f x = Ok c -> lz_sub m sub c = Ok a ->
  exists u b f', envelope_in x u /\ contents_of SignedData Untagged u = Ok b /\ sub (read_sd f' b) = Ok a.
Proof.
  unfold info_of. intros H Q. inv H b Hb. injection H as <-. destruct f as [|f]; [discriminate Q|]. cbn [read_ci lz_sub] in Q. inv Q typ Ht.
  destruct (encap_back _ _ _ Hb Ht) as (oid & t1 & o & D1 & T & K & Close).
  destruct (String.eqb_spec typ "signed_data") as [E|]; [|discriminate Q]. cbn [negb] in Q. inv Q y Hy. inv Hy nm Hnm. rewrite Ht in Hnm.
  injection Hnm as <-. rewrite K in Hy. destruct o as [z|]; rd Hy; [|injection Hy as <-; discriminate Q].
  inv Hy o Ho. inv Ho u Hu. injection Ho as <-. rewrite E in Hy. change (String.eqb "signed_data" "signed_data") with true in Hy. cbv iota in Hy.
  inv Hy e He. injection Hy as <-. cbn [lz_content_info rbind] in Q. exists u, e, f. split; [|split; [exact He|exact Q]].
  exists oid. split.
  - apply is_decoded; [reflexivity|]. apply Close. exact (any_back _ _ _ Hu).
  - apply String.eqb_eq. rewrite <- name_signed, <- T, E. reflexivity.
Qed.

(** ** Signed data *)

Definition signed_fields (t1 t2 t3 : tlv) (o1 o2 : option tlv) (t4 : tlv) : dict (option tlv) :=
  [("version", Some t1); ("digest_algorithms", Some t2); ("encap_content_info", Some t3); ("certificates", o1); ("crls", o2);
   ("signer_infos", Some t4)].
Lemma sd_back expected f b sd value ss : lz_signed_data expected (read_sd (S f) b) = Ok (sd, value) -> lz_signers (read_sd (S f) b) = Ok ss ->
  exists t1 t2 t3 o1 o2 t4 version valg alg bb c vcerts cs sts,
    children SignedData b = Ok (signed_fields t1 t2 t3 o1 o2 t4) /\
    decode (APrim 2) Untagged t1 = Ok (VPrim version) /\
    decode (ASetOf X509Algorithm) Untagged t2 = Ok (VList [valg]) /\ digest_in valg alg /\
    contents_of ContentInfo Untagged t3 = Ok bb /\
    read ContentInfo (children ContentInfo bb) "content_type" (read_oid content_types) = Ok expected /\
    read_content (version_native 0 version) bb = Ok c /\ lo_value c = Ok value /\
    opt_decode (ASetOf AAny) (Implicit 0) o1 vcerts /\ certs_in vcerts cs /\
    decode (ASetOf AAny) Untagged t4 = Ok (VList (map VAny sts)) /\
    map_res (item_signer f) sts = Ok ss /\
    sd = mkSdata alg expected (lo_octets c) cs.
Proof.
  intros H S. cbn [read_sd lz_signed_data lz_signers] in *. destruct (children SignedData b) as [d|] eqn:K; [|discriminate H].
  shape K SignedData. intros t1 t2 t3 o1 _ o2 _ t4. told. intros H S K. rd H. rd S. inv H algs Halgs. inv Halgs v Hv. inv Hv version Hver. injection Hv as <-.
  inv Halgs l Hl. injection Halgs as <-. inv H alg Ha. destruct l as [|x [|]]; try discriminate Ha. inv H ct Hct. inv Hct bb Hbb.
  inv H u Hu. destruct (String.eqb_spec ct expected) as [->|]; [|discriminate Hu]. inv H c Hc. inv Hc v Hv. inv Hv w Hw. injection Hv as <-.
  rewrite Hw in Hver. injection Hver as ->. inv Hc bb' Hbb'. rewrite Hbb in Hbb'. injection Hbb' as <-.
  inv H val Hval. inv H certs Hcerts. inv H cs Hcs. injection H as <- <-. inv S sts Hsts.
  destruct (digest_back _ _ _ Ha) as (va & Da & Ma). inv Hcerts r Hr.
  destruct (set_opt _ _ _ _ _ _ _ Hr eq_refl eq_refl) as (vc & Dc & Mc & _).
  exists t1, t2, t3, o1, o2, t4, version, va, alg, bb, c, vc, cs, sts. split; [reflexivity|]. split; [exact (prim_back _ _ _ _ Hw)|].
  split. { unfold items_of in Hl. cbn [contents_of] in Hl. inv Hl e He. inv He e' He'. injection He as <-. rewrite decode_setof, He'. cbn [rbind].
           rewrite Hl. cbn [rbind decode_all]. rewrite Da. reflexivity. }
  split; [exact Ma|]. split; [exact Hbb|]. split; [exact Hct|]. split; [exact Hc|]. split; [exact Hval|]. split; [exact Dc|].
  split. { assert (E : certs = map read_choice (match r with Some l => l | None => [] end)) by (destruct r; injection Hcerts as <-; reflexivity).
           rewrite E in Hcs. destruct (certificates_back _ _ Hcs) as (l & F & Q). exists (match r with Some l => l | None => [] end), l. auto. }
  split; [exact (set_back _ _ _ _ Hsts)|]. split; [exact S|reflexivity].
Qed.

Lemma one_of' {A B} (k : A -> res B) l x : map_res k l = Ok [x] -> exists t, l = [t] /\ k t = Ok x.
Proof. intros H. apply ProofsPkcs7.map_res_single in H. exact H. Qed.
Lemma token_back f u b r : contents_of SignedData Untagged u = Ok b -> lz_rsd (read_sd f b) = Ok r -> token_in u r.
Proof.
  intros Hb H. destruct f as [|f]; [discriminate H|]. unfold lz_rsd in H. inv H p Hp. destruct p as [sd value]. inv H ss Hss.
  inv H signers Hsig. cbn [fst snd] in H. inv H tst Htst. destruct signers as [|s [|]]; try discriminate H. injection H as <-.
  destruct (sd_back _ _ _ _ _ _ Hp Hss)
    as (t1 & t2 & t3 & o1 & o2 & t4 & version & valg & alg & bb & c & vcerts & cs & sts & K & D1 & D2 & Ma & Hbb & Ht & Hc & Hv & Dc & Mc & D4 & Ms & ->).
  destruct (one_of' _ _ _ Hsig) as (s' & -> & Hs). destruct (one_of _ _ _ Ms) as (x & -> & Hx). clear Hsig Ms Hp Hss.
  destruct (tst_content _ _ _ _ _ _ Hbb Ht Hc Hv Htst) as (typ & y & w & D3 & O & V & Os & Eo & Hw & I).
  destruct (item_signer_back _ _ _ Hx) as (sb & Hsb & ->). unfold lz_rfc3161_signer in Hs. inv Hs q Hq. destruct q as [i [auth unauth]].
  cbn [fst snd] in Hs. destruct (signer_back false (Some "tst_info") (Some "1.2.840.113549.1.9.16.1.4") _ _ _ _ _ _ name_tst Hsb Hq)
    as (f' & -> & signed & unsigned & d & d' & S & _ & _ & T & N).
  pose proof (find_counter _ _ _ _ T N) as F. unfold finds in F. inv Hs k Hk. unfold lz_countersignature in Hk. rewrite Eo.
  destruct (lz_values lz_counter_signature unauth) as [l|]; [exfalso; destruct l as [|? [|]]; try discriminate Hk; injection Hk as <-; discriminate Hs|].
  injection Hk as <-. injection Hs as <-.
  eapply (TokenIn u version valg alg typ y w tst vcerts cs (option_map VAny o2) x i signed unsigned); try eassumption.
  apply is_decoded; [reflexivity|]. close SignedData TspSignedData Hb K. present D1. present D2. present D3. maybe Dc.
  maybe (opt_any (Implicit 1) o2 ltac:(discriminate)). present D4. constructor.
Qed.

(** ** Signatures *)

Lemma statement_back t x y : statement_of t = Ok x -> x = Ok y -> exists v, is_a (ASeqOf (APrim 6)) t v.
Proof.
  unfold statement_of. intros H E. inv H b Hb. injection H as <-. inv E l Hl.
  assert (It : items_of (ASeqOf aObjectIdentifier) Untagged t = Ok l).
  { unfold items_of. change (contents_of (ASeqOf aObjectIdentifier) Untagged t) with (contents_of SpcStatementType Untagged t). rewrite Hb. exact Hl. }
  destruct (seqof_back _ (APrim 6) aObjectIdentifier Untagged t l y (fun t y H => match oid_back _ _ _ _ H with ex_intro _ b (conj D _) => ex_intro _ (VPrim b) D end) It E)
    as (v & D). exists v. apply is_decoded; [reflexivity|exact D].
Qed.
Lemma map_res_forall2 {A B} (k : tlv -> res A) (sub : A -> res B) (P : tlv -> B -> Prop) :
  (forall t x y, k t = Ok x -> sub x = Ok y -> P t y) -> forall ts xs ys, map_res k ts = Ok xs -> map_res sub xs = Ok ys -> Forall2 P ts ys.
Proof.
  intros H. induction ts as [|t ts IH]; intros xs ys M N; cbn [map_res] in M.
  - injection M as <-. injection N as <-. constructor.
  - inv M x Hx. inv M xs' Hxs. injection M as <-. cbn [map_res] in N. inv N y Hy. inv N ys' Hys. injection N as <-.
    constructor; [exact (H _ _ _ Hx Hy)|exact (IH _ _ Hxs Hys)].
Qed.
Lemma signatures_all pe ts l : Forall2 (fun t a => exists u, envelope_in t u /\ signature_in pe u a) ts l -> signatures_in pe ts l.
Proof. induction 1 as [|t a ts l (u & E & S) _ IH]; [constructor|]. exact (SignaturesMore _ _ _ _ _ _ E S IH). Qed.

Lemma signature_back pe : forall depth f u b a, contents_of SignedData Untagged u = Ok b -> lz_asd depth pe (read_sd f b) = Ok a -> signature_in pe u a.
Proof.
  induction depth as [|depth IH]; intros f u b a Hb H; [discriminate H|]. destruct f as [|f]; [discriminate H|].
  cbn [lz_asd] in H. inv H p Hp. destruct p as [sd value]. inv H ss Hss. inv H signers Hsig. cbn [fst snd] in H. inv H spc Hspc.
  destruct signers as [|s [|]]; try discriminate H. inv H crls Hcrls. destruct crls; [|discriminate H]. injection H as <-.
  destruct (sd_back _ _ _ _ _ _ Hp Hss)
    as (t1 & t2 & t3 & o1 & o2 & t4 & version & valg & alg & bb & c & vcerts & cs & sts & K & D1 & D2 & Ma & Hbb & Ht & Hc & Hv & Dc & Mc & D4 & Ms & ->).
  destruct (one_of' _ _ _ Hsig) as (s' & -> & Hs). destruct (one_of _ _ _ Ms) as (x & -> & Hx). clear Hsig Ms Hp Hss.
  destruct (spc_content _ _ _ _ _ _ Hbb Ht Hc Hv Hspc) as (typ & y & r & D3 & O & Cs & Rs).
  assert (Dr : exists vcrls, opt_decode (ASetOf AAny) (Implicit 1) o2 vcrls /\ members vcrls []).
  { cbn [read_sd lz_crls] in Hcrls. rewrite K in Hcrls. unfold signed_fields in Hcrls. inv Hcrls o Ho. injection Hcrls as E.
    destruct (set_opt _ _ _ _ _ _ _ Ho eq_refl eq_refl) as (v & D & M & _). exists v. split; [exact D|].
    destruct o as [[|]|]; [exact M|discriminate E|exact M]. }
  destruct Dr as (vcrls & Dr & Mr).
  destruct (item_signer_back _ _ _ Hx) as (sb & Hsb & ->). unfold lz_asi in Hs. inv Hs q Hq. destruct q as [i [auth unauth]].
  cbn [fst snd] in Hs. destruct (signer_back false (Some spc_type) (Some "1.3.6.1.4.1.311.2.1.4") _ _ _ _ _ _ name_spc Hsb Hq)
    as (f' & -> & signed & unsigned & d & d' & S & T1 & N1 & T2 & N2).
  inv Hs k Hk. inv Hs plain Hplain. inv Hs x1 Hst. inv Hs x2 Hop. inv Hs nested Hne.
  destruct (present (lz_values lz_counter_signature unauth) && present (lz_values lz_token unauth)) eqn:B; [discriminate Hs|].
  inv Hs counter Hco. injection Hs as <-.
  pose proof (find_statement _ _ _ _ T1 N1) as F1. pose proof (find_opus _ _ _ _ T1 N1) as F2. pose proof (find_counter _ _ _ _ T2 N2) as F3.
  pose proof (find_nested _ _ _ _ T2 N2) as F4. pose proof (find_token _ _ _ _ T2 N2) as F5. unfold finds in F1, F2, F3, F4, F5.
  apply (SignatureIn pe u version valg alg typ y (lo_octets c) r spc vcerts cs vcrls x i signed unsigned counter nested); try assumption.
  - apply is_decoded; [reflexivity|]. close SignedData CmsSignedData Hb K. present D1. present D2. present D3. maybe Dc. maybe Dr. present D4. constructor.
  - unfold lz_statement_types in Hst. destruct (lz_values lz_statement_type auth) as [xs|]; [|left; exact F1]. right.
    destruct F1 as (ts & L & M). destruct xs as [|z [|]]; try discriminate Hst. destruct (one_of _ _ _ M) as (e & -> & He).
    exists e. split; [exact L|]. inv Hst zz Hz. exact (statement_back _ _ _ He Hz).
  - unfold lz_opus_infos in Hop. destruct (lz_values lz_opus_info auth) as [xs|]; [|left; exact F2]. right.
    destruct F2 as (ts & L & M). destruct xs as [|z [|]]; try discriminate Hop. destruct (one_of _ _ _ M) as (e & -> & He).
    exists e. split; [exact L|]. inv Hop z1 Hz1. inv Hop z2 Hz2. inv Hop z3 Hz3. exact (opus_back _ _ _ _ _ He Hz1 Hz2 Hz3).
  - unfold lz_countersignature in Hk. destruct (lz_values lz_token unauth) as [tks|].
    + destruct F5 as (ts5 & L5 & M5). destruct (lz_values lz_counter_signature unauth) as [l|]; [discriminate B|].
      destruct tks as [|z [|]]; try discriminate Hco. inv Hco tk Htk. injection Hco as <-. destruct (one_of _ _ _ M5) as (e & -> & He).
      destruct (ci_back _ _ _ _ _ _ He Htk) as (w & wb & wf & E & Hwb & Hw). exact (CountersignerToken _ _ _ _ F3 L5 E (token_back _ _ _ _ Hwb Hw)).
    + injection Hco as <-. destruct (lz_values lz_counter_signature unauth) as [l|].
      * destruct F3 as (ts3 & L3 & M3). destruct l as [|z [|]]; try discriminate Hk. injection Hk as <-. inv Hplain j Hj. injection Hplain as <-.
        destruct (one_of _ _ _ M3) as (e & -> & He). exact (CountersignerPlain _ _ _ L3 F5 (counter_back _ _ _ _ _ He Hj)).
      * injection Hk as <-. injection Hplain as <-. exact (CountersignerNone _ F3 F5).
  - destruct (lz_values lz_nested unauth) as [l|].
    + destruct F4 as (ts4 & L4 & M4). apply (NestedSome _ _ ts4); [exact L4|]. apply signatures_all.
      refine (map_res_forall2 _ _ _ _ _ _ _ M4 Hne). intros t z w Hz Hw. destruct (ci_back _ _ _ _ _ _ Hz Hw) as (e & eb & ef & E & Heb & He).
      exists e. split; [exact E|exact (IH _ _ _ _ Heb He)].
    + injection Hne as <-. constructor. exact F4.
Qed.

(** ** From the octets *)

Theorem envelope_back depth pe b a : lz_from_envelope der_loader depth pe b = Ok a -> encoded_signature pe b a.
Proof.
  unfold lz_from_envelope. intros H. inv H c Hc. unfold der_loader in Hc. inv Hc p Hp. destruct p as [t rest]. 
  assert (Hi : info_of (length b) t = Ok c) by exact Hc.
  assert (Hs : lz_sub "" (lz_asd depth pe) c = Ok a).
  { destruct c as [typ content]. cbn [lz_sub]. inv H ty Hty. rewrite Hty. cbn [rbind]. destruct (String.eqb ty "signed_data"); [exact H|discriminate H]. }
  destruct (ci_back _ _ _ _ _ _ Hi Hs) as (u & ub & f & E & Hub & Hu). exists t, u. split; [exact (load_any _ _ _ Hp)|].
  split; [exact E|exact (signature_back _ _ _ _ _ _ Hub Hu)].
Qed.
Theorem certificate_loaded b c : cert_from_der b = Ok c ->
  exists t v, holds_a AAny b (VAny t) /\ is_a X509 t v /\ cert_means v c /\ c_id c = identity (tlv_dump t) /\ c_der c = tlv_dump t.
Proof.
  unfold cert_from_der. intros H. inv H p Hp. destruct p as [t rest]. inv H e He. destruct (certificate_back _ _ H) as (v & D & M & I1 & I2).
  exists t, v. split; [exact (load_any _ _ _ Hp)|]. split; [apply is_decoded; [reflexivity|exact D]|]. auto.
Qed.
