(** Proofs about the octets of trust lists; statements in PropertiesTrustList.v. *)
From Coq Require Import Lia ZifyBool ZifyNat.
From Verif Require Import Base Monad ModelX509 ModelContext ModelPkcs7 ModelLazy ModelCtl ModelDer ModelSpc ModelDecode ModelStl SpecAsn ProofsDer ProofsAsn ProofsAsn2.
From Verif Require Import ProofsDecode2 ProofsDecode3 ProofsLazy2 SpecPrim SpecTime ProofsTime ProofsPrim3 ProofsPrim4 SpecBer SpecStl ProofsStl SpecRead ProofsRead ProofsBer2
  SpecEnvelope ProofsEnvelope ProofsEnvelope2 SpecShown ProofsShown.
From Verif Require SpecPkcs7 ProofsPkcs7.
From Verif Require Import ProofsBer.
From Verif Require Import ProofsShown2 SpecAccepted ProofsAccepted ProofsAccepted2 ProofsAccepted3 ProofsAccepted4 ProofsAccepted5 SpecTrustList ProofsStl3.

(** ** What is read was written *)

Lemma attr_name d n : dict_get d subject_attribute_types = Some n -> plain n = false ->
  (forall d', In (d', n) subject_attribute_types -> d' = d) ->
  forall oid, String.eqb (called subject_attribute_types oid) n = String.eqb (oid_text oid) d.
Proof.
  intros G P U oid. native. destruct (String.eqb_spec (dotted oid) d) as [E|E].
  - rewrite <- E in G. rewrite (native_known _ _ _ G). apply String.eqb_refl.
  - apply String.eqb_neq. apply native_other; [exact P|]. intros d' I Q. apply E. rewrite Q. exact (U _ I).
Qed.
Ltac known_attr := apply attr_name; [reflexivity|reflexivity|];
  let J := fresh "J" in intros ? J; cbn [In subject_attribute_types] in J;
  repeat (destruct J as [J|J]; [first [discriminate J|injection J as <-; reflexivity]|]); contradiction.

Lemma prims_back tag ts bs : map_res (contents_of (APrim tag) Untagged) ts = Ok bs -> decode_all (APrim tag) ts = Ok (map VPrim bs).
Proof.
  revert bs. induction ts as [|t ts IH]; intros bs H; cbn [map_res] in H; [injection H as <-; reflexivity|].
  inv H b Hb. inv H l Hl. injection H as <-. cbn [decode_all]. rewrite (prim_back _ _ _ _ Hb). cbn [rbind]. rewrite (IH _ Hl). reflexivity.
Qed.
Lemma oids_back names ts ss : map_res (read_oid names (APrim 6) Untagged) ts = Ok ss ->
  exists l, decode_all (APrim 6) ts = Ok (map VPrim l) /\ ss = map (called names) l.
Proof.
  revert ss. induction ts as [|t ts IH]; intros ss H; cbn [map_res] in H; [injection H as <-; exists []; split; reflexivity|].
  inv H b Hb. inv H l Hl. injection H as <-. destruct (oid_back _ _ _ _ Hb) as (x & D & ->). destruct (IH _ Hl) as (k & Dk & ->).
  exists (x :: k). cbn [decode_all]. rewrite D. cbn [rbind]. rewrite Dk. split; reflexivity.
Qed.
Lemma purposes_back tg t us : purposes ExtKeyUsageSyntax tg t = Ok us ->
  exists l, decode StlUsages tg t = Ok (VList (map VPrim l)) /\ us = map (called key_purposes) l.
Proof.
  unfold purposes, items_of. intros H. inv H ts Hts. inv Hts b Hb. unfold ExtKeyUsageSyntax in Hb. cbn [contents_of] in Hb. inv Hb u Hu. injection Hb as <-.
  destruct (oids_back _ _ _ H) as (l & D & ->). exists l. split; [|reflexivity]. unfold StlUsages. rewrite decode_seqof, Hu. cbn [rbind].
  rewrite Hts. cbn [rbind]. rewrite D. reflexivity.
Qed.
Lemma usages_back b us : usages_in b = Ok us -> purposes_in b us.
Proof.
  unfold usages_in. intros H. inv H p Hp. destruct p as [t r]. destruct (purposes_back _ _ _ H) as (l & D & ->).
  exists l. split; [|reflexivity]. apply load_written; [reflexivity|]. unfold load. rewrite Hp. exact D.
Qed.
Lemma swap_twice : forall n b, (length b <= n)%nat -> swap_octets (swap_octets b) = b.
Proof.
  induction n as [|n IH]; intros [|x [|y b]] L; cbn [swap_octets length] in *; try reflexivity; try lia.
  rewrite IH by lia. reflexivity.
Qed.
Lemma swap_be u : swap_octets (utf16_be u) = utf16_le u.
Proof.
  assert (B : forall z b, swap_octets (big16 z ++ b) = unit16 z ++ swap_octets b) by reflexivity.
  unfold utf16_be, utf16_le. induction u as [|c u IH]; [reflexivity|]. cbn [flat_map]. rewrite <- IH. generalize (flat_map big_point u). intros b.
  unfold big_point, point16. cbv zeta. destruct (Z.of_N c <? 65536); rewrite <- ?app_assoc, !B; reflexivity.
Qed.
Lemma rstrip_back u : exists n, u = rstrip_nul u ++ repeat 0%N n.
Proof.
  induction u as [|c u (n & IH)]; [exists O; reflexivity|]. cbn [rstrip_nul]. destruct (rstrip_nul u) as [|x r] eqn:E.
  - destruct (N.eqb_spec c 0) as [->|]; [exists (S n)|exists n]; cbn [app repeat] in *; rewrite <- IH; reflexivity.
  - exists n. cbn [app] in *. rewrite <- IH. reflexivity.
Qed.
Lemma rstrip_end u : forall u', rstrip_nul u <> u' ++ [0%N].
Proof.
  induction u as [|c u IH]; intros u' H; [destruct u'; discriminate H|]. cbn [rstrip_nul] in H. destruct (rstrip_nul u) as [|x r] eqn:E.
  - destruct (N.eqb_spec c 0) as [->|N]; [destruct u'; discriminate H|]. destruct u' as [|y [|]]; try discriminate H. injection H as H. contradiction.
  - destruct u' as [|y u']; [discriminate H|]. injection H as _ H. exact (IH _ H).
Qed.
Lemma string_back b u : ctl_string b = Ok u -> text_in b u.
Proof.
  unfold ctl_string. intros H. inv H w Hw. injection H as <-. destruct (utf16_back _ _ Hw) as (E & F). destruct (rstrip_back w) as (n & Q).
  split. { rewrite Q in F. apply Forall_app in F. apply F. }
  split; [exact (rstrip_end w)|]. exists n. rewrite <- Q, <- swap_be, <- E. symmetry. exact (swap_twice _ _ (le_n _)).
Qed.
Lemma map_res_back {A B} (f : A -> res B) (P : A -> B -> Prop) : (forall x y, f x = Ok y -> P x y) ->
  forall l k, map_res f l = Ok k -> Forall2 P l k.
Proof.
  intros H. induction l as [|x l IH]; intros k Q; cbn [map_res] in Q; [injection Q as <-; constructor|].
  inv Q y Hy. inv Q m Hm. injection Q as <-. constructor; [exact (H _ _ Hy)|exact (IH _ Hm)].
Qed.

Lemma attr_back t x : read_ctl_attr t = Ok x -> exists v, decode StlAttribute Untagged t = Ok v /\ sole_attr v x.
Proof.
  unfold read_ctl_attr. intros H. inv H b Hb. cbv zeta in H. destruct (children SubjectAttribute b) as [d|] eqn:K; [|discriminate H].
  shape K SubjectAttribute. intros t1 t2. told. intros H K. rd H. inv H typ Ht. destruct (oid_back _ _ _ _ Ht) as (oid & D1 & ->).
  inv H vals Hv. inv Hv ts Hts.
  assert (D2 : decode (ASetOf (APrim 4)) Untagged t2 = Ok (VList (map VPrim vals))).
  { unfold items_of in Hts. cbn [contents_of] in Hts. inv Hts e He. inv He w Hw. injection He as <-. rewrite decode_setof, Hw. cbn [rbind].
    rewrite Hts. cbn [rbind]. rewrite (prims_back _ _ _ Hv). reflexivity. }
  eexists. split. { close SubjectAttribute StlAttribute Hb K. present D1. present D2. constructor. }
  exists oid, vals. split; [reflexivity|]. clear - H.
  assert (N9 : forall oid, String.eqb (called subject_attribute_types oid) "microsoft_ctl_enhkey_usage" = String.eqb (oid_text oid) "1.3.6.1.4.1.311.10.11.9") by known_attr.
  assert (N11 : forall oid, String.eqb (called subject_attribute_types oid) "microsoft_ctl_friendly_name" = String.eqb (oid_text oid) "1.3.6.1.4.1.311.10.11.11") by known_attr.
  assert (N20 : forall oid, String.eqb (called subject_attribute_types oid) "microsoft_ctl_key_identifier" = String.eqb (oid_text oid) "1.3.6.1.4.1.311.10.11.20") by known_attr.
  assert (N29 : forall oid, String.eqb (called subject_attribute_types oid) "microsoft_ctl_subject_name_md5_hash" = String.eqb (oid_text oid) "1.3.6.1.4.1.311.10.11.29") by known_attr.
  assert (N98 : forall oid, String.eqb (called subject_attribute_types oid) "microsoft_ctl_auth_root_sha256_hash" = String.eqb (oid_text oid) "1.3.6.1.4.1.311.10.11.98") by known_attr.
  assert (N104 : forall oid, String.eqb (called subject_attribute_types oid) "microsoft_ctl_disallowed_filetime" = String.eqb (oid_text oid) "1.3.6.1.4.1.311.10.11.104") by known_attr.
  assert (N105 : forall oid, String.eqb (called subject_attribute_types oid) "microsoft_ctl_root_program_chain_policies" = String.eqb (oid_text oid) "1.3.6.1.4.1.311.10.11.105") by known_attr.
  assert (N122 : forall oid, String.eqb (called subject_attribute_types oid) "microsoft_ctl_disallowed_enhkey_usage" = String.eqb (oid_text oid) "1.3.6.1.4.1.311.10.11.122") by known_attr.
  assert (N126 : forall oid, String.eqb (called subject_attribute_types oid) "microsoft_ctl_not_before_filetime" = String.eqb (oid_text oid) "1.3.6.1.4.1.311.10.11.126") by known_attr.
  assert (N127 : forall oid, String.eqb (called subject_attribute_types oid) "microsoft_ctl_not_before_enhkey_usage" = String.eqb (oid_text oid) "1.3.6.1.4.1.311.10.11.127") by known_attr.
  rewrite N9, N11, N20, N29, N98, N104, N105, N122, N126, N127 in H. clear N9 N11 N20 N29 N98 N104 N105 N122 N126 N127.
  repeat match type of H with
  | (if String.eqb ?x ?y then _ else _) = _ => let E := fresh "E" in destruct (String.eqb_spec x y) as [E|E];
      [first [inv H us Hus; injection H as <-|injection H as <-]|]
  end.
  - apply MeansEnhkeyUsage; [assumption|exact (map_res_back _ _ usages_back _ _ Hus)].
  - apply MeansFriendlyName; [assumption|exact (map_res_back _ _ string_back _ _ Hus)].
  - apply MeansKeyIdentifier; assumption.
  - apply MeansSubjectNameMd5; assumption.
  - apply MeansAuthRootSha256; assumption.
  - apply MeansDisallowedFiletime; assumption.
  - apply MeansChainPolicies; [assumption|exact (map_res_back _ _ usages_back _ _ Hus)].
  - apply MeansDisallowedEnhkeyUsage; [assumption|exact (map_res_back _ _ usages_back _ _ Hus)].
  - apply MeansNotBeforeFiletime; assumption.
  - apply MeansNotBeforeEnhkeyUsage; [assumption|exact (map_res_back _ _ usages_back _ _ Hus)].
  - injection H as <-. apply MeansOther. unfold ctl_oids. cbn [map append In]. intuition congruence.
Qed.

Lemma attrs_back : forall ts s s', der_attrs s ts = Ok s' -> exists vs l, decode_all StlAttribute ts = Ok vs /\ Forall2 sole_attr vs l.
Proof.
  induction ts as [|t ts IH]; intros s s' H; cbn [der_attrs] in H; [exists [], []; split; [reflexivity|constructor]|].
  inv H x Hx. inv H s1 Hs1. destruct (attr_back _ _ Hx) as (v & D & M). destruct (IH _ _ H) as (vs & l & Ds & F).
  exists (v :: vs), (x :: l). cbn [decode_all]. rewrite D. cbn [rbind]. rewrite Ds. split; [reflexivity|constructor; assumption].
Qed.
Lemma entry_back t s : der_subject t = Ok s -> exists v r, decode StlEntry Untagged t = Ok v /\ entry_means v r.
Proof.
  unfold der_subject. intros H. inv H b Hb. cbv zeta in H. destruct (children TrustedSubject b) as [d|] eqn:K; [|discriminate H].
  shape K TrustedSubject. intros t1 o _. told. intros H K. rd H. inv H id Hid. inv H l Hl. destruct (attrs_back _ _ _ H) as (vs & ats & Da & F).
  assert (O : exists v, opt_decode (ASetOf StlAttribute) Untagged o v /\
    match v with None => ats = [] | Some x => exists l, x = VList l /\ Forall2 sole_attr l ats end).
  { destruct o as [t2|]; rd Hl.
    - inv Hl ts Hts. injection Hl as <-. unfold items_of in Hts. cbn [contents_of] in Hts. inv Hts e He. inv He w Hw. injection He as <-.
      exists (Some (VList vs)). cbn [opt_decode]. rewrite decode_setof, Hw. cbn [rbind]. rewrite Hts. cbn [rbind]. rewrite Da. split; [reflexivity|].
      exists vs. split; [reflexivity|exact F].
    - injection Hl as <-. cbn [decode_all] in Da. injection Da as <-. inversion F. exists None. split; [exact I|reflexivity]. }
  destruct O as (v & Dv & M). eexists. exists (mkRawSubject id ats). split.
  - close TrustedSubject StlEntry Hb K. present (prim_back _ _ _ _ Hid). maybe Dv. constructor.
  - exists v. split; [reflexivity|exact M].
Qed.
Lemma entries_back : forall ts d d', der_subjects d ts = Ok d' -> exists vs l, decode_all StlEntry ts = Ok vs /\ Forall2 entry_means vs l.
Proof.
  induction ts as [|t ts IH]; intros d d' H; cbn [der_subjects] in H; [exists [], []; split; [reflexivity|constructor]|].
  inv H x Hx. destruct (entry_back _ _ Hx) as (v & r & D & M). destruct (IH _ _ H) as (vs & l & Ds & F).
  exists (v :: vs), (r :: l). cbn [decode_all]. rewrite D. cbn [rbind]. rewrite Ds. split; [reflexivity|constructor; assumption].
Qed.

Lemma name_list oid : String.eqb (called content_types oid) "microsoft_ctl" = String.eqb (oid_text oid) "1.3.6.1.4.1.311.10.1".
Proof. known. Qed.

Lemma found_back {A} a d n x tg p o (k : asn -> tagging -> tlv -> res A) r z (P : aval -> A -> Prop) :
  read_field a (Ok d) n k = Ok r -> dict_get n d = Some o -> dict_get n (seq_fields a) = Some (x, (tg, p)) -> taggable z = true ->
  (forall t y, k x tg t = Ok y -> exists v, decode z Untagged t = Ok v /\ P v y) -> found z P o r.
Proof.
  intros H G G' T Q. unfold read_field in H. cbn [rbind] in H. rewrite G, G' in H. destruct o as [t|]; [|injection H as <-; exact I].
  inv H y Hy. injection H as <-. destruct (Q _ _ Hy) as (v & D & M). exists v. split; [apply is_decoded; [exact T|exact D]|exact M].
Qed.
Lemma list_back t b alg certs l : contents_of CertificateTrustList Untagged t = Ok b -> der_list alg certs b = Ok l -> exists r, list_in t r.
Proof.
  intros Hb H. destruct (seq_any CertificateTrustList _ _ eq_refl Hb) as (-> & _).
  unfold der_list in H. cbv zeta in H. destruct (children CertificateTrustList (t_contents t)) as [d|] eqn:K; [|discriminate H].
  shape K CertificateTrustList. intros o1 I1 t2 o3 _ o4 _ t5 o6 _ t7 o8 _ o9 I9. told. intros H K.
  inv H usage Hu. inv H identifier Hi. inv H sequence Hs. inv H this Ht. inv H next Hn. inv H al Hal. inv H sa Hsa. inv H es He. inv H ds Hds. clear H.
  rd Hu. destruct (purposes_back _ _ _ Hu) as (us & Du & ->). rd Ht. destruct (time_back _ _ _ Ht) as (v1 & D5 & M5).
  rd Hal. injection Hal as <-. destruct (digest_back _ _ _ Hsa) as (v2 & D7 & a7 & M7 & _).
  destruct (entries_back _ _ _ Hds) as (vs & rs & De & Fe).
  assert (L : parse_all (t_contents t) = Ok (part o1 ++ t2 :: part o3 ++ part o4 ++ t5 :: part o6 ++ t7 :: part o8 ++ part o9)).
  { unfold children in K. inv K m Hm. rewrite Hm. rewrite (match_flat _ _ _ K). cbn [map concat snd part app].
    rewrite !app_nil_r. reflexivity. }
  exists (mkRawList (map (called key_purposes) us) identifier sequence this next a7 rs).
  apply (ListIn t o1 t2 o3 o4 t5 o6 t7 o8 o9 us v1 v2).
  - apply is_decoded; [reflexivity|]. rewrite decode_seqof. cbn [contents_of] in Hb. inv Hb w Hw. injection Hb as Hc.
    change (expect Untagged true 16 t = Ok w) in Hw. rewrite Hw. cbn [rbind]. rewrite Hc, L. cbn [rbind]. rewrite all_any. reflexivity.
  - destruct o1; [exact (part_id _ _ I1)|exact I].
  - destruct o9; [exact (part_id _ _ I9)|exact I].
  - apply is_decoded; [reflexivity|exact Du].
  - reflexivity.
  - eapply found_back; [exact Hi|reflexivity|reflexivity|reflexivity|]. intros u y Q. exists (VPrim y). split; [exact (prim_back _ _ _ _ Q)|reflexivity].
  - eapply found_back; [exact Hs|reflexivity|reflexivity|reflexivity|]. intros u y Q. destruct (int_back _ _ _ Q) as (c & D & ->).
    exists (VPrim c). split; [exact D|]. exists c. split; reflexivity.
  - apply is_decoded; [reflexivity|exact D5].
  - exact M5.
  - eapply found_back; [exact Hn|reflexivity|reflexivity|reflexivity|]. intros u y Q. exact (time_back _ _ _ Q).
  - apply is_decoded; [reflexivity|exact D7].
  - exact M7.
  - destruct o8 as [x|]; rd He.
    + inv He ts Hts. injection He as <-. exists vs. split; [|exact Fe]. apply is_decoded; [reflexivity|].
      unfold items_of in Hts. cbn [contents_of] in Hts. inv Hts e He. inv He w Hw. injection He as <-. rewrite decode_seqof, Hw. cbn [rbind].
      rewrite Hts. cbn [rbind]. rewrite De. reflexivity.
    + injection He as <-. cbn [decode_all] in De. injection De as <-. inversion Fe. reflexivity.
Qed.

Lemma other_id t a n : id_in t (first_ids a (Implicit n)) = false <-> (t_class t, t_tag t) <> (2, n).
Proof.
  split.
  - intros H E. injection E as E1 E2. assert (Q : id_in t (first_ids a (Implicit n)) = true); [|congruence].
    apply id_in_begins. rewrite E1, E2. constructor.
  - intros H. destruct (id_in t (first_ids a (Implicit n))) eqn:Q; [|reflexivity]. destruct H. destruct (id_implicit _ _ _ Q) as [-> ->]. reflexivity.
Qed.
Definition stl_end := [field_with "crls" AAny (Implicit 1) Optional; field "signer_infos" AAny].
Definition stl_rest := field_with "certificates" (ASetOf AAny) (Implicit 0) Optional :: stl_end.
Lemma fields_step n x y p fs h l : decode_fields ((n, (x, (y, p))) :: fs) (h :: l) =
  if match p with Required => true | _ => id_in h (first_ids x y) end
  then let? v := decode x y h in let? vs := decode_fields fs l in Ok (Some v :: vs)
  else let? vs := decode_fields fs (h :: l) in Ok (None :: vs).
Proof. reflexivity. Qed.
Lemma required_back n x y fs l vs : decode_fields ((n, (x, (y, Required))) :: fs) l = Ok vs ->
  exists h l' v vs', l = h :: l' /\ vs = Some v :: vs' /\ decode_fields fs l' = Ok vs'.
Proof.
  destruct l as [|h l]; [discriminate|]. rewrite fields_step. destruct (decode x y h) as [v|]; [|discriminate]. cbn [rbind].
  destruct (decode_fields fs l) as [vs'|] eqn:K; [|discriminate]. intros H. injection H as <-. eauto 9.
Qed.
Lemma end_apart l v s : decode_fields stl_end l = Ok [v; Some (VAny s)] -> v = None -> l = [s] /\ (t_class s, t_tag s) <> (2, 1).
Proof.
  intros H ->. unfold stl_end, field, field_with in H. destruct l as [|x l]; [discriminate H|]. cbn [decode_fields] in H.
  destruct (id_in x (first_ids AAny (Implicit 1))) eqn:Q; cbn [decode unwrap rbind] in H.
  - destruct l as [|y l]; [discriminate H|]. destruct l; discriminate H.
  - destruct l; [|discriminate H]. injection H as <-. split; [reflexivity|]. apply other_id in Q. exact Q.
Qed.
Lemma rest_apart l v1 v2 s : decode_fields stl_rest l = Ok [v1; v2; Some (VAny s)] -> signers_apart v1 v2 s.
Proof.
  intros H. unfold stl_rest, field_with in H. destruct l as [|x l]; [discriminate H|]. rewrite fields_step in H.
  destruct (id_in x (first_ids (ASetOf AAny) (Implicit 0))) eqn:Q.
  - destruct (decode (ASetOf AAny) (Implicit 0) x) as [v|]; [|discriminate H]. cbn [rbind] in H.
    destruct (decode_fields stl_end l) as [vs|] eqn:K; [|discriminate H]. injection H as <- ->. split; [discriminate|].
    intros E. exact (proj2 (end_apart _ _ _ K E)).
  - destruct (decode_fields stl_end (x :: l)) as [vs|] eqn:K; [|discriminate H]. injection H as <- ->. split.
    + intros _ E. destruct (end_apart _ _ _ K E) as [L _]. injection L as -> ->. apply other_id in Q. exact Q.
    + intros E. exact (proj2 (end_apart _ _ _ K E)).
Qed.
Lemma data_apart u a1 a2 a3 v1 v2 s : decode StlData Untagged u = Ok (VSeq [a1; a2; a3; v1; v2; Some (VAny s)]) -> signers_apart v1 v2 s.
Proof.
  unfold StlData. rewrite decode_seq. intros H. inv H b Hb. inv H l Hl. inv H vs Hv. injection H as ->.
  destruct (required_back _ _ _ _ _ _ Hv) as (h1 & l1 & x1 & w1 & -> & E1 & K1). injection E1 as -> <-.
  destruct (required_back _ _ _ _ _ _ K1) as (h2 & l2 & x2 & w2 & -> & E2 & K2). injection E2 as -> <-.
  destruct (required_back _ _ _ _ _ _ K2) as (h3 & l3 & x3 & w3 & -> & E3 & K3). injection E3 as -> <-.
  exact (rest_apart _ _ _ _ K3).
Qed.
Lemma end_read l v s : spells_fields true stl_end [v; Some (VAny s)] l -> (v = None -> (t_class s, t_tag s) <> (2, 1)) ->
  decode_fields stl_end l = Ok [v; Some (VAny s)] /\ (v = None -> l = [s]) /\ (v <> None -> exists h l', l = h :: l' /\ (t_class h, t_tag h) = (2, 1)).
Proof.
  intros H N. unfold stl_end, field, field_with in *. inversion H; subst.
  - assert (L : l = [s]). { match goal with F : spells_fields _ _ _ _ |- _ => inversion F; subst end.
      match goal with F : spells _ AAny _ _ _ |- _ => inversion F; subst end. match goal with F : around _ _ _ _ |- _ => inversion F; subst end.
      match goal with F : spells_fields _ [] _ _ |- _ => inversion F; subst end. reflexivity. }
    subst l. split; [|split; [reflexivity|congruence]]. rewrite fields_step, (proj2 (other_id _ _ _) (N eq_refl)). reflexivity.
  - match goal with F : spells_fields _ _ _ _ |- _ => inversion F; subst end.
    match goal with F : spells _ AAny Untagged _ _ |- _ => inversion F; subst end. match goal with F : around _ Untagged _ _ |- _ => inversion F; subst end.
    match goal with F : spells_fields _ [] _ _ |- _ => inversion F; subst end.
    match goal with F : spells _ AAny (Implicit 1) _ _ |- _ => destruct (proj1 (spells_decode true) _ _ _ _ F ltac:(constructor)) as [D B] end.
    split; [|split; [discriminate|]].
    + rewrite fields_step, (proj2 (id_in_begins _ _ _) B), D. reflexivity.
    + intros _. do 2 eexists. split; [reflexivity|]. destruct (id_implicit _ _ _ (proj2 (id_in_begins _ _ _) B)) as [-> ->]. reflexivity.
Qed.
Lemma data_decoded u a1 a2 a3 v1 v2 s : is_a StlData u (VSeq [a1; a2; a3; v1; v2; Some (VAny s)]) -> signers_apart v1 v2 s ->
  decode StlData Untagged u = Ok (VSeq [a1; a2; a3; v1; v2; Some (VAny s)]).
Proof.
  intros H [N1 N2]. unfold StlData in *. inversion H as [|fs vs tg t l B V F| | | |]; subst.
  destruct (bears_expect _ _ _ _ _ _ B) as (u' & U & C). rewrite decode_seq, U. cbn [rbind].
  rewrite C, (proj2 (parse_all_iff _ _) (conj V eq_refl)). cbn [rbind].
  unfold field in F. inversion F as [|? ? ? ? ? ? ? Np|n1 x1 y1 p1 fs1 b1 vs1 t1 l1 S1 F1]; subst; [congruence|].
  inversion F1 as [|? ? ? ? ? ? ? Np|n2 x2 y2 p2 fs2 b2 vs2 t2 l2 S2 F2]; subst; [congruence|].
  inversion F2 as [|? ? ? ? ? ? ? Np|n3 x3 y3 p3 fs3 b3 vs3 t3 l3 S3 F3]; subst; [congruence|].
  unfold field. rewrite !fields_step.
  apply decoded_is in S1; [|apart]. apply decoded_is in S2; [|apart]. apply decoded_is in S3; [|apart]. rewrite S1, S2, S3. cbn [rbind].
  assert (Q : decode_fields stl_rest l3 = Ok [v1; v2; Some (VAny s)]).
  { unfold stl_rest, field_with. inversion F3 as [|? ? ? ? ? ? ? Np F4|n4 x4 y4 p4 fs4 b4 vs4 t4 l4 S4 F4]; subst.
    - destruct (end_read _ _ _ F4 N2) as (D & L1 & L2). destruct v2 as [v|].
      + destruct L2 as (h & l' & -> & I); [discriminate|]. rewrite fields_step.
        rewrite (proj2 (other_id h (ASetOf AAny) 0)); [rewrite D; reflexivity|rewrite I; discriminate].
      + rewrite (L1 eq_refl) in *. rewrite fields_step, (proj2 (other_id s (ASetOf AAny) 0) (N1 eq_refl eq_refl)), D. reflexivity.
    - destruct (end_read _ _ _ F4 N2) as (D & _). apply (proj1 (spells_decode true)) in S4; [|apart]. destruct S4 as [D4 B4].
      rewrite fields_step, (proj2 (id_in_begins _ _ _) B4), D4. cbn [rbind]. rewrite D. reflexivity. }
  unfold stl_rest, stl_end, field in Q. rewrite Q. reflexivity.
Qed.
Lemma read_back data other l : der_open_list other data = Ok l -> exists alg cs r, encoded_list data alg cs r.
Proof.
  unfold der_open_list. intros H. inv H p Hp. destruct p as [t rest]. inv H c Hc. cbv zeta in H. inv H typ Ht.
  destruct (encap_back _ _ _ Hc Ht) as (oid & t1 & o & D1 & T & K & Close).
  destruct (String.eqb_spec typ "signed_data") as [E|]; [|discriminate H]. cbn [negb] in H. unfold der_ci_content in H. rewrite K in H.
  destruct o as [z|]; rd H; [|discriminate H].
  inv H q Hq. inv Hq o Ho. inv Ho u Hu. injection Ho as <-. inv Hq b Hb. injection Hq as <-.
  assert (En : envelope_in t u).
  { exists oid. split; [apply is_decoded; [reflexivity|]; apply Close; exact (any_back _ _ _ Hu)|].
    apply String.eqb_eq. rewrite <- name_signed, <- T, E. reflexivity. }
  clear K Close D1 T Ht Hu Hc t1 z E oid typ c.
  unfold der_trust_list in H. cbn [read_sd] in H. unfold der_list_content in H. cbv zeta in H.
  destruct (children SignedData b) as [d|] eqn:K; [|discriminate H].
  shape K SignedData. intros t1 t2 t3 o1 _ o2 _ t4. told. intros H K. rd H.
  inv H algs Halgs. inv Halgs v Hv. inv Hv version Hver. injection Hv as <-. inv Halgs m Hm. injection Halgs as <-.
  inv H alg Ha. destruct m as [|x [|]]; try discriminate Ha. destruct (digest_back _ _ _ Ha) as (valg & Da & al & Mal & _).
  inv H ct Hct. inv Hct bb Hbb. inv H un Hun. destruct (String.eqb_spec ct "microsoft_ctl") as [->|]; [|discriminate Hun].
  inv H content Hcontent. inv H certs Hcerts. inv H cs Hcs. destruct content as [lb|]; [|discriminate H].
  inv Hcerts r Hr. destruct (set_opt _ _ _ _ _ _ _ Hr eq_refl eq_refl) as (vc & Dc & Mc & _).
  assert (Ec : certs = map read_choice (match r with Some l => l | None => [] end)) by (destruct r; injection Hcerts as <-; reflexivity).
  rewrite Ec in Hcs. destruct (certificates_back _ _ Hcs) as (chs & Fch & _).
  change (contents_of (ASeq []) Untagged t3) with (contents_of ContentInfo Untagged t3) in Hbb.
  destruct (encap_back _ _ _ Hbb Hct) as (ot & t5 & o5 & D5 & T5 & K5 & Close5).
  assert (Ot : oid_text ot = "1.3.6.1.4.1.311.10.1").
  { apply String.eqb_eq. rewrite <- name_list, <- T5. reflexivity. }
  inv Hcontent ver Hv. inv Hv ver' Hv'. injection Hv as <-. rewrite Hver in Hv'. injection Hv' as <-. inv Hcontent bb' Hbb'.
  change (contents_of (ASeq []) Untagged t3) with (contents_of ContentInfo Untagged t3) in Hbb'. rewrite Hbb in Hbb'. injection Hbb' as <-.
  assert (Q : exists w x, opt_decode AAny (Explicit 0) o5 (Some (VAny w)) /\ content_is version w x /\ contents_of CertificateTrustList Untagged x = Ok lb).
  { destruct (String.eqb_spec (version_native 0 version) "v1") as [V|V].
    - apply version_v1 in V. rewrite K5 in Hcontent. destruct o5 as [z|]; rd Hcontent; [|discriminate Hcontent].
      inv Hcontent o Ho. inv Ho w Hw. injection Ho as <-. inv Hcontent lb' Hlb. injection Hcontent as <-.
      exists w, w. split; [exact (any_back _ _ _ Hw)|]. split; [left; split; [exact V|reflexivity]|exact Hlb].
    - assert (V' : signed_integer version <> 1) by (intro Q; apply V; exact (proj2 (version_v1 _) Q)).
      rewrite (encap_same _ _ K5) in Hcontent. destruct o5 as [z|]; rd Hcontent; [|discriminate Hcontent].
      inv Hcontent o Ho. inv Ho ob Hob. injection Ho as <-. destruct (octets_back _ _ Hob) as (w & Dw & Ow & ->).
      inv Hcontent px Hpx. destruct px as [x' rx]. inv Hcontent lb' Hlb. injection Hcontent as <-.
      exists w, x'. split; [exact Dw|]. split; [right; split; [exact V'|split; [exact Ow|exact (load_any _ _ _ Hpx)]]|exact Hlb]. }
  destruct Q as (w & x' & Dw & Cw & Hx). destruct (list_back _ _ _ _ _ Hx H) as (rl & Rl).
  exists al, chs, rl. assert (Du : decode StlData Untagged u = Ok (VSeq [Some (VPrim version); Some (VList [valg]); Some (VSeq [Some (VPrim ot); Some (VAny w)]); vc; option_map VAny o2; Some (VAny t4)])).
  2: { refine (EncodedList _ _ _ _ t u version valg ot w x' vc (match r with Some l => l | None => [] end) (option_map VAny o2) t4 (load_any _ _ _ Hp) En _ (data_apart _ _ _ _ _ _ _ Du) Mal Ot Mc Fch Cw Rl).
    apply is_decoded; [reflexivity|exact Du]. }
  close SignedData StlData Hb K. present (prim_back _ _ _ _ Hver).
  assert (D2 : decode (ASetOf X509Algorithm) Untagged t2 = Ok (VList [valg])).
  { unfold items_of in Hm. cbn [contents_of] in Hm. inv Hm e He. inv He e' He'. injection He as <-. rewrite decode_setof, He'. cbn [rbind].
    rewrite Hm. cbn [rbind decode_all]. rewrite Da. reflexivity. }
  present D2. present (Close5 _ Dw). maybe Dc. eapply AlignedOpt; [apply opt_any; discriminate|]. present (any_back Untagged t4 t4 eq_refl). constructor.
Qed.

(** ** What was written is read *)

Definition begins_as (ids : list (Z * Z)) (t : tlv) : Prop := In (t_class t, t_tag t) ids.
Lemma expect_id con tag t u : expect Untagged con tag t = Ok u -> (t_class t, t_tag t) = (0, tag).
Proof.
  unfold expect. cbn [unwrap rbind]. intros H. destruct ((t_class t =? 0) && Bool.eqb (t_cons t) con && (t_tag t =? tag)) eqn:E; [|discriminate H].
  f_equal; lia.
Qed.
Lemma prim_id tag t v : decode (APrim tag) Untagged t = Ok v -> (t_class t, t_tag t) = (0, tag).
Proof. cbn [decode]. intros H. inv H u Hu. exact (expect_id _ _ _ _ Hu). Qed.
Lemma seqof_id x t v : decode (ASeqOf x) Untagged t = Ok v -> (t_class t, t_tag t) = (0, 16).
Proof. rewrite decode_seqof. intros H. inv H u Hu. exact (expect_id _ _ _ _ Hu). Qed.
Lemma seq_id fs t v : decode (ASeq fs) Untagged t = Ok v -> (t_class t, t_tag t) = (0, 16).
Proof. rewrite decode_seq. intros H. inv H u Hu. exact (expect_id _ _ _ _ Hu). Qed.
Lemma time_id t v : decode X509Time Untagged t = Ok v -> (t_class t, t_tag t) = (0, 23) \/ (t_class t, t_tag t) = (0, 24).
Proof.
  unfold X509Time. rewrite decode_choice. cbn [unwrap rbind decode_alts].
  destruct (id_in t (first_ids (APrim 23) Untagged)) eqn:E1; [intros _; left; exact (part_id _ _ E1)|].
  destruct (id_in t (first_ids (APrim 24) Untagged)) eqn:E2; [intros _; right; exact (part_id _ _ E2)|]. discriminate.
Qed.

Lemma match_required n a tg fs t l : match_fields ((n, (a, (tg, Required))) :: fs) (t :: l) = let? d := match_fields fs l in Ok ((n, Some t) :: d).
Proof. reflexivity. Qed.
Lemma match_optional n a tg p fs o l : p <> Required ->
  match o with
  | Some t => id_in t (first_ids a tg) = true
  | None => match l with [] => True | t :: _ => id_in t (first_ids a tg) = false end
  end ->
  match_fields ((n, (a, (tg, p))) :: fs) (part o ++ l) = let? d := match_fields fs l in Ok ((n, o) :: d).
Proof.
  intros N H. destruct o as [t|]; cbn [part app].
  - destruct p; [contradiction| |]; cbn [match_fields]; rewrite H; reflexivity.
  - destruct l as [|t l]; (destruct p; [contradiction| |]); cbn [match_fields]; try rewrite H; reflexivity.
Qed.
Lemma id_given t id ids l b : (t_class t, t_tag t) = id -> ids = Some l -> existsb (id_eqb id) l = b -> id_in t ids = b.
Proof. intros <- ->. exact (fun H => H). Qed.
Ltac by_id P := eapply id_given; [exact P|reflexivity|reflexivity].
Lemma list_fields o1 t2 o3 o4 t5 o6 t7 o8 o9 :
  part_begins (0, 2) o1 -> (t_class t2, t_tag t2) = (0, 16) -> part_begins (0, 4) o3 -> part_begins (0, 2) o4 ->
  (t_class t5, t_tag t5) = (0, 23) \/ (t_class t5, t_tag t5) = (0, 24) ->
  part_begins (0, 23) o6 \/ part_begins (0, 24) o6 -> (t_class t7, t_tag t7) = (0, 16) -> part_begins (0, 16) o8 -> part_begins (2, 0) o9 ->
  match_fields (seq_fields CertificateTrustList) (part o1 ++ t2 :: part o3 ++ part o4 ++ t5 :: part o6 ++ t7 :: part o8 ++ part o9) =
  Ok [("version", o1); ("subject_usage", Some t2); ("list_identifier", o3); ("sequence_number", o4); ("ctl_this_update", Some t5);
      ("ctl_next_update", o6); ("subject_algorithm", Some t7); ("trusted_subjects", o8); ("ctl_extensions", o9)].
Proof.
  intros P1 P2 P3 P4 P5 P6 P7 P8 P9. unfold CertificateTrustList. cbn [seq_fields]. unfold field, field_with.
  assert (E9 : match_fields [("ctl_extensions", (ASeqOf Extension, (Explicit 0, Optional)))] (part o9) = Ok [("ctl_extensions", o9)]).
  { rewrite <- (app_nil_r (part o9)), match_optional; [reflexivity|discriminate|]. destruct o9 as [x|]; [by_id P9|exact I]. }
  rewrite match_optional; [|discriminate|destruct o1 as [x|]; [by_id P1|by_id P2]].
  rewrite match_required.
  rewrite match_optional; [|discriminate|destruct o3 as [x|]; [by_id P3|]].
  2: { destruct o4 as [x|]; [by_id P4|]. destruct P5 as [P5|P5]; by_id P5. }
  rewrite match_optional; [|discriminate|destruct o4 as [x|]; [by_id P4|]].
  2: { destruct P5 as [P5|P5]; by_id P5. }
  rewrite match_required.
  rewrite match_optional; [|discriminate|destruct o6 as [x|]; [destruct P6 as [P6|P6]; by_id P6|by_id P7]].
  rewrite match_required.
  rewrite match_optional; [|discriminate|destruct o8 as [x|]; [by_id P8|]].
  2: { destruct o9 as [x|]; [by_id P9|exact I]. }
  rewrite E9. reflexivity.
Qed.

Lemma found_at {A} a d n x tg p o (k : asn -> tagging -> tlv -> res A) r z (P : aval -> A -> Prop) :
  found z P o r -> dict_get n d = Some o -> dict_get n (seq_fields a) = Some (x, (tg, p)) -> distinct z ->
  (forall t v y, decode z Untagged t = Ok v -> P v y -> k x tg t = Ok y) -> read_field a (Ok d) n k = Ok r.
Proof.
  intros H G G' T Q. unfold read_field. cbn [rbind]. rewrite G, G'. destruct o as [t|], r as [y|]; cbn [found] in H; try contradiction H; [|reflexivity].
  destruct H as (v & D & M). apply decoded_is in D; [|exact T]. rewrite (Q _ _ _ D M). reflexivity.
Qed.
Lemma found_id {A} z (P : aval -> A -> Prop) o x id : found z P o x -> distinct z ->
  (forall t v, decode z Untagged t = Ok v -> (t_class t, t_tag t) = id) -> part_begins id o.
Proof. intros H T Q. destruct o as [t|], x as [y|]; cbn [found part_begins] in *; try contradiction H; [|exact I]. destruct H as (v & D & _). apply decoded_is in D; [|exact T]. exact (Q _ _ D). Qed.

Lemma entries_at a d n p o rs :
  match o with
  | None => rs = []
  | Some x => exists vs, is_a (ASeqOf StlEntry) x (VList vs) /\ Forall2 entry_means vs rs
  end ->
  dict_get n d = Some o -> dict_get n (seq_fields a) = Some (ASeqOf TrustedSubject, (Untagged, p)) ->
  exists m, read_field a (Ok d) n items_of = Ok m /\ forall e, der_subjects e (match m with Some l => l | None => [] end) = parse_subjects e rs.
Proof.
  intros H G G'. unfold read_field. cbn [rbind]. rewrite G, G'. destruct o as [x|].
  - destruct H as (es & D & F). apply decoded_is in D; [|apart]. destruct (seqof_items _ _ _ _ D) as (ts & ws & E & J & F'). injection E as <-.
    change (items_of (ASeqOf TrustedSubject) Untagged x = Ok ts) in J. rewrite J. cbn [rbind]. exists (Some ts). split; [reflexivity|].
    intros e. exact (entries_decode _ _ F' _ F _).
  - exists None. split; [reflexivity|]. subst rs. reflexivity.
Qed.
Lemma list_at t r : list_in t r -> contents_of CertificateTrustList Untagged t = Ok (t_contents t) /\
  forall alg certs, der_list alg certs (t_contents t) =
    (let? x := parse_ctl (rl_algorithm r) (rl_subjects r) in
     Ok (mkTrustList alg certs (rl_usage r) (rl_identifier r) (rl_sequence r) (rl_this_update r) (rl_next_update r) x)).
Proof.
  intros H. destruct H as [t version usage identifier sequence this next al entries extensions us v1 v2 r
    H P1 P9 I2 U2 I3 I4 I5 M5 I6 I7 M7 I8].
  apply decoded_is in H; [|apart]. apply decoded_is in I2, I5, I7; try apart.
  rewrite decode_seqof in H. inv H u Hu. inv H l Hl. inv H vs Hvs.
  assert (u = t) as ->.
  { unfold expect in Hu. cbn [unwrap rbind] in Hu. destruct ((t_class t =? 0) && _ && _); [|discriminate Hu]. injection Hu as <-. reflexivity. }
  assert (C : contents_of CertificateTrustList Untagged t = Ok (t_contents t)).
  { unfold CertificateTrustList. cbn [contents_of]. rewrite Hu. reflexivity. }
  split; [exact C|]. rewrite all_any in Hvs. injection Hvs as <-. injection H as H. apply any_inj in H.
  assert (K : children CertificateTrustList (t_contents t) =
    @Ok (dict (option tlv)) [("version", version); ("subject_usage", Some usage); ("list_identifier", identifier); ("sequence_number", sequence);
      ("ctl_this_update", Some this); ("ctl_next_update", next); ("subject_algorithm", Some al); ("trusted_subjects", entries); ("ctl_extensions", extensions)]).
  { unfold children. rewrite Hl. cbn [rbind]. rewrite H. apply list_fields; try assumption.
    - exact (seqof_id _ _ _ I2).
    - apply (found_id _ _ _ _ _ I3); [apart|]. intros x v. apply prim_id.
    - apply (found_id _ _ _ _ _ I4); [apart|]. intros x v. apply prim_id.
    - exact (time_id _ _ I5).
    - destruct next as [x|]; [|left; exact I]. destruct (rl_next_update r); cbn [found] in I6; [|contradiction I6].
      destruct I6 as (v & D & _). apply decoded_is in D; [|apart]. exact (time_id _ _ D).
    - exact (seq_id _ _ _ I7).
    - destruct entries as [x|]; [|exact I]. destruct I8 as (es & D & _). apply decoded_is in D; [|apart]. exact (seqof_id _ _ _ D). }
  clear H Hu Hl l. intros alg certs. unfold der_list. rewrite K. cbv zeta. clear K C.
  match goal with |- context [read CertificateTrustList (Ok ?x) "subject_usage" purposes] => set (d := x) end.
  rewrite (proj2 (read_at CertificateTrustList d "subject_usage" _ _ _ usage purposes eq_refl eq_refl)).
  change (decode ExtKeyUsageSyntax Untagged usage = Ok (VList (map VPrim us))) in I2. rewrite (purposes_decode _ _ _ I2). cbn [rbind]. rewrite <- map_called, <- U2.
  rewrite (found_at CertificateTrustList d "list_identifier" _ _ _ _ contents_of _ _ _ I3 eq_refl eq_refl ltac:(apart)
    ltac:(intros x v y D ->; exact (prim_at _ _ _ _ D))). cbn [rbind].
  rewrite (found_at CertificateTrustList d "sequence_number" _ _ _ _ read_int _ _ _ I4 eq_refl eq_refl ltac:(apart)
    ltac:(intros x v y D (b & -> & ->); exact (int_at _ _ _ D))). cbn [rbind].
  rewrite (proj2 (read_at CertificateTrustList d "ctl_this_update" _ _ _ this read_time eq_refl eq_refl)), (time_decode _ _ _ _ I5 M5). cbn [rbind].
  rewrite (found_at CertificateTrustList d "ctl_next_update" _ _ _ _ read_time _ _ _ I6 eq_refl eq_refl ltac:(apart)
    ltac:(intros x v y D M; exact (time_decode _ _ _ _ D M))). cbn [rbind].
  rewrite (proj2 (read_at CertificateTrustList d "subject_algorithm" _ _ _ al _ eq_refl eq_refl)). unfold algid_ok. cbn [rbind].
  rewrite (alg_decode _ _ _ _ I7 M7).
  unfold parse_ctl. destruct (get_digest_algorithm (rl_algorithm r)) as [sa|]; cbn [rbind]; [|reflexivity].
  destruct (entries_at CertificateTrustList d "trusted_subjects" _ _ _ I8 eq_refl eq_refl) as (m & R8 & Q8). rewrite R8. cbn [rbind]. rewrite Q8.
  destruct (parse_subjects [] (rl_subjects r)); reflexivity.
Qed.

Theorem list_opened other data alg cs r : encoded_list data alg cs r ->
  der_open_list other data = parse_trust_list [alg] "microsoft_ctl" (Some r) cs.
Proof.
  intros [t u version valg typ w x vcerts ts vcrls signers Ht (oid & He & Eo) Hs Sa Ma Ty Mc Fc Cw Hl].
  destruct (held_inv _ _ _ Ht) as (t' & rest & P & D). apply decoded_is in D; [|apart]. cbn [decode unwrap rbind] in D. injection D as ->.
  apply decoded_is in He; [|apart]. destruct (open_seq ContentInfo _ _ _ _ He eq_refl ltac:(alike)) as (c & d & C & K & Al).
  unfold der_open_list. rewrite P. cbn [rbind]. rewrite C. cbn [rbind]. cbv zeta. rewrite K.
  fld 0%nat ContentInfo Al t0 D0 G0 F0 R0. rewrite R0. unfold aObjectIdentifier. rewrite (oid_at _ _ _ _ D0). cbn [rbind]. rewrite name_signed, Eo.
  change (String.eqb "1.2.840.113549.1.7.2" "1.2.840.113549.1.7.2") with true. cbn [negb]. unfold der_ci_content.
  fld 1%nat ContentInfo Al t1 D1 G1 F1 R1. rewrite F1. destruct (any_iff _ _ _ D1) as (w1 & W & U). injection W as <-. rewrite U. cbn [rbind].
  clear F0 R0 F1 R1 G0 G1 D0 D1 t0 t1 Al K C d c P U.
  apply data_decoded in Hs; [|exact Sa]. destruct (open_seq SignedData _ _ _ _ Hs eq_refl ltac:(alike)) as (b & d & C & K & Al).
  rewrite C. cbn [rbind]. unfold der_trust_list. cbn [read_sd]. rewrite K.
  fld 0%nat SignedData Al t0 D0 G0 F0 R0. rewrite R0. unfold aInteger. rewrite (prim_at _ _ _ _ D0). cbn [rbind].
  fld 1%nat SignedData Al t1 D1 G1 F1 R1. rewrite R1. destruct (setof_items _ _ _ _ D1) as (ts1 & ws & E & J & F). injection E as <-.
  change (items_of (ASetOf AlgorithmIdentifier) Untagged t1 = Ok ts1) in J. rewrite J. cbn [rbind].
  inversion F as [|tx x' ts0 ws0 DX FX E1 E2]. subst. inversion FX. subst. cbn [map].
  rewrite (alg_decode _ _ _ _ DX Ma). unfold parse_trust_list. rewrite String.eqb_refl. destruct (get_digest_algorithm alg) as [al|]; cbn [rbind]; [|reflexivity].
  fld 2%nat SignedData Al t2 D2 G2 F2 R2. rewrite R2.
  change (contents_of (ASeq []) Untagged t2) with (contents_of ContentInfo Untagged t2).
  destruct (open_seq ContentInfo _ _ _ _ D2 eq_refl ltac:(alike)) as (b2 & d2 & C2 & K2 & Al2). rewrite C2. cbn [rbind]. rewrite K2.
  fld 0%nat ContentInfo Al2 t6 D6 G6 F6 R6. rewrite R6. unfold aObjectIdentifier. rewrite (oid_at _ _ _ _ D6). cbn [rbind].
  rewrite name_list, Ty, String.eqb_refl. cbn [rbind].
  assert (Q : der_list_content b = Ok (Some (t_contents x))).
  { unfold der_list_content. rewrite K. cbv zeta. rewrite R0. unfold aInteger. rewrite (prim_at _ _ _ _ D0). cbn [rbind].
    rewrite R2. change (contents_of (ASeq []) Untagged t2) with (contents_of ContentInfo Untagged t2). rewrite C2. cbn [rbind].
    rewrite version_one, <- integer_is. fld 1%nat ContentInfo Al2 t7 D7 G7 F7 R7. destruct (list_at _ _ Hl) as (Cl & _).
    destruct Cw as [(V & ->)|(V & Ow & Hw)].
    - rewrite V. cbv [Z.eqb Pos.eqb]. rewrite K2, F7. destruct (any_iff _ _ _ D7) as (w7 & W & U). injection W as <-. rewrite U. cbn [rbind].
      rewrite Cl. reflexivity.
    - rewrite (proj2 (Z.eqb_neq _ _) V). rewrite (encap_same _ _ K2).
      rewrite (proj1 (read_at EncapsulatedContentInfo d2 "content" _ _ _ t7 contents_of G7 eq_refl)). unfold aOctetString. rewrite (octets_at _ _ D7 Ow). cbn [rbind].
      destruct (held_inv _ _ _ Hw) as (w' & rest' & P & D). apply decoded_is in D; [|apart]. cbn [decode unwrap rbind] in D. injection D as ->.
      rewrite P. cbn [rbind]. rewrite Cl. reflexivity. }
  rewrite Q. cbn [rbind].
  assert (Mc' : certs_in vcerts (the_certificates cs)).
  { exists ts, cs. split; [exact Mc|]. split; [exact Fc|]. apply ProofsPkcs7.certificates_ok. reflexivity. }
  destruct (certs_at _ _ _ SignedData _ 3 _ _ Al ltac:(names) eq_refl eq_refl eq_refl eq_refl Mc') as (l & E3 & L3). rewrite E3. cbn [rbind]. rewrite L3. cbn [rbind].
  apply (list_at _ _ Hl).
Qed.

(** ** What is opened *)

From Verif Require Import SpecContext SpecCtl ProofsCTL ProofsCtl2.

Lemma list_opens data alg cs r t : encoded_list data alg cs r ->
  der_from_stl_file data = Ok t <->
  get_digest_algorithm alg = Ok (tl_digest_alg t) /\ tl_certificates t = the_certificates cs /\
  tl_usage t = rl_usage r /\ tl_identifier t = rl_identifier r /\ tl_sequence t = rl_sequence r /\
  tl_this_update t = rl_this_update r /\ tl_next_update t = rl_next_update r /\
  parse_ctl (rl_algorithm r) (rl_subjects r) = Ok (tl_ctl t).
Proof.
  intro H. unfold der_from_stl_file. erewrite list_opened by exact H.
  pose proof (c60_file (fun _ => Ok (StlSigned [alg] "microsoft_ctl" (Some r) cs)) [] t) as F.
  unfold from_stl_file in F. cbn [rbind] in F. rewrite F. split.
  - intros (a0 & c & certs & E & G). injection E as <- <- <-. exact G.
  - intro G. exists alg, r, cs. split; [reflexivity|exact G].
Qed.
Lemma list_parsed data alg cs r t : encoded_list data alg cs r -> der_from_stl_file data = Ok t ->
  parse_ctl (rl_algorithm r) (rl_subjects r) = Ok (tl_ctl t).
Proof. intros H Ht. apply (proj1 (list_opens _ _ _ _ _ H) Ht). Qed.
Lemma list_readable data alg cs r : encoded_list data alg cs r ->
  (exists t, der_from_stl_file data = Ok t) <->
  (forall n, In n [alg; rl_algorithm r] ->
     In (alg_name n) ["md5"; "sha1"; "sha256"; "sha384"; "sha512"] /\ alg_has_params n = false) /\
  Forall (fun e => Forall well_formed (rs_attributes e)) (rl_subjects r).
Proof.
  intro H. split.
  - intros [t Ht]. apply (list_opens _ _ _ _ _ H) in Ht. destruct Ht as (Ha & _ & _ & _ & _ & _ & _ & Hp).
    destruct (proj1 (c60_readable _ _) (ex_intro _ _ Hp)) as [Hl Hw]. split; [|exact Hw].
    intros n [<-|[<-|[]]]; apply algorithm_ok; eauto.
  - intros [Hn Hw].
    destruct (proj2 (algorithm_ok alg) (Hn _ (or_introl eq_refl))) as [x Hx].
    destruct (proj2 (c60_readable (rl_algorithm r) (rl_subjects r))
      (conj (proj2 (algorithm_ok _) (Hn _ (or_intror (or_introl eq_refl)))) Hw)) as [t Ht].
    exists (mkTrustList x (the_certificates cs) (rl_usage r) (rl_identifier r) (rl_sequence r) (rl_this_update r) (rl_next_update r) t).
    apply (list_opens _ _ _ _ _ H). cbn. auto 9.
Qed.
Lemma list_read data alg cs r t : encoded_list data alg cs r -> der_from_stl_file data = Ok t ->
  tl_digest_alg t = alg_name alg /\ tl_certificates t = the_certificates cs /\
  tl_usage t = rl_usage r /\ tl_identifier t = rl_identifier r /\ tl_sequence t = rl_sequence r /\
  tl_this_update t = rl_this_update r /\ tl_next_update t = rl_next_update r /\
  ctl_algorithm (tl_ctl t) = alg_name (rl_algorithm r) /\
  NoDup (map ts_identifier (subjects (tl_ctl t))) /\
  forall s, In s (subjects (tl_ctl t)) <-> exists e, last_entry (rl_subjects r) (rs_identifier e) e /\ SpecCtl.reads e s.
Proof.
  intros H Ht. destruct (proj1 (list_opens _ _ _ _ _ H) Ht) as (Ha & Hc & Hu & Hi & Hs & Htu & Hnu & Hp).
  assert (tl_digest_alg t = alg_name alg).
  { unfold get_digest_algorithm in Ha. destruct (negb _); [discriminate Ha|]. destruct (alg_has_params alg); [discriminate Ha|].
    injection Ha as Ha. symmetry. exact Ha. }
  destruct (parse_ctl_parts _ _ _ Hp) as [Hal _]. destruct (c60_subjects _ _ _ Hp) as [N S'].
  auto 12.
Qed.
Lemma list_exact data : (exists t, der_from_stl_file data = Ok t) <->
  exists alg cs r, encoded_list data alg cs r /\
    (forall n, In n [alg; rl_algorithm r] ->
       In (alg_name n) ["md5"; "sha1"; "sha256"; "sha384"; "sha512"] /\ alg_has_params n = false) /\
    Forall (fun e => Forall well_formed (rs_attributes e)) (rl_subjects r).
Proof.
  split.
  - intros [t H]. destruct (read_back _ _ _ H) as (alg & cs & r & L). exists alg, cs, r. split; [exact L|].
    apply (list_readable _ _ _ _ L). exists t. exact H.
  - intros (alg & cs & r & L & G). apply (list_readable _ _ _ _ L). exact G.
Qed.

(** ** What is verified with a list *)

From Verif Require Import ModelFile SpecX509 ModelAuthenticode ModelLazyFile ModelPem SpecAuthenticode SpecDer SpecPem SpecEvidence ProofsContext2 ProofsEvidence.

Lemma accepts_allows E alg subs tl chain time us : parse_ctl alg subs = Ok tl -> ctl_accepts E tl chain time us ->
  In (alg_name alg) ["sha1"; "sha256"] /\
  exists root rest e, chain = root :: rest /\ last_entry subs (list_identifier E (alg_name alg) root) e /\
    allows e (c_valid_from (last rest root)) time us.
Proof.
  intros P H. assert (C : exists root rest, chain = root :: rest) by (destruct H as (root & rest & _ & _ & _ & -> & _); eauto).
  destruct C as (root & rest & ->).
  pose (c := mkContext [] (Some time) None (Some (mkUsages false us)) false (mkVopts false "soft-fail" false 10 [] [])).
  pose (w := mkWorld [] [c] (mkFile [] 0)).
  assert (St : stable c) by (apply reusable_stable; intros u Q; injection Q as <-; reflexivity).
  destruct (ctl_verify_trust_spec E tl root rest w 0 c eq_refl St) as [[V _]|[N _]]; [|contradiction (N H)].
  apply (c60_trust E alg subs tl 0%nat c root rest w P eq_refl St) in V. destruct V as (I & e & L & A). split; [exact I|].
  exists root, rest, e. split; [reflexivity|]. split; [exact L|exact A].
Qed.
Lemma listed_evidence E depth fuel mode ign v w out ts files stl t alg cs r :
  lz_verify_result der_loader E depth fuel mode None ign v w = Ok out ->
  va_context v = None -> va_cs_context v = None -> nth_error (w_stores w) (va_trusted v) = Some ts ->
  s_items ts = [] -> s_location ts = Some (location_of files) ->
  der_from_stl_file stl = Ok t -> s_ctl ts = Some (tl_ctl t) -> encoded_list stl alg cs r ->
  In (alg_name (rl_algorithm r)) ["sha1"; "sha256"] /\
  forall a chains, In (a, chains) out ->
    evidence E (f_bytes (w_file w)) v files (Some (tl_ctl t)) a chains /\
    Forall (fun chain => exists root rest e time, chain = root :: rest /\
      last_entry (rl_subjects r) (list_identifier E (alg_name (rl_algorithm r)) root) e /\
      possible_time v a time /\
      allows e (c_valid_from (last rest root)) (match time with Some x => x | None => e_now E end) ["code_signing"]) chains.
Proof.
  intros H V1 V2 Hn Hi Hl Ht Hc L.
  pose proof (list_parsed _ _ _ _ _ L Ht) as P.
  destruct (verified_evidence _ _ _ _ _ _ _ _ _ _ H V1 V2 Hn Hi Hl) as (_ & Ne & K). rewrite Hc in K.
  assert (Q : forall a chains, In (a, chains) out -> Forall (fun chain => In (alg_name (rl_algorithm r)) ["sha1"; "sha256"] /\
      exists root rest e time, chain = root :: rest /\
      last_entry (rl_subjects r) (list_identifier E (alg_name (rl_algorithm r)) root) e /\
      possible_time v a time /\
      allows e (c_valid_from (last rest root)) (match time with Some x => x | None => e_now E end) ["code_signing"]) chains).
  { intros a chains I. destruct (K a chains I) as (_ & _ & _ & _ & _ & F). eapply Forall_impl; [|exact F]. cbv beta.
    intros chain (c & an & ot & ti & _ & _ & _ & _ & _ & _ & _ & _ & _ & T). destruct (T _ eq_refl) as (time & Pt & Ac).
    destruct (accepts_allows _ _ _ _ _ _ _ P Ac) as (I' & root & rest & e & X1 & X2 & X3). split; [exact I'|].
    exists root, rest, e, time. auto. }
  split.
  - destruct out as [|[a chains] out]; [congruence|]. pose proof (Q a chains (or_introl eq_refl)) as F.
    destruct (K a chains (or_introl eq_refl)) as (_ & _ & _ & _ & Nc & _). destruct F as [|chain l [I _] _]; [congruence|exact I].
  - intros a chains I. split; [exact (K _ _ I)|]. eapply Forall_impl; [|exact (Q _ _ I)]. cbv beta. intros chain [_ X]. exact X.
Qed.
Lemma nothing_listed E depth fuel mode ign v w ts files stl t alg cs r :
  va_context v = None -> va_cs_context v = None -> nth_error (w_stores w) (va_trusted v) = Some ts ->
  s_items ts = [] -> s_location ts = Some (location_of files) ->
  der_from_stl_file stl = Ok t -> s_ctl ts = Some (tl_ctl t) -> encoded_list stl alg cs r -> rl_subjects r = [] ->
  exists e, lz_verify_result der_loader E depth fuel mode None ign v w = Err e.
Proof.
  intros V1 V2 Hn Hi Hl Ht Hc L Em. destruct (lz_verify_result der_loader E depth fuel mode None ign v w) as [out|e] eqn:H; [exfalso|eauto].
  destruct (verified_evidence _ _ _ _ _ _ _ _ _ _ H V1 V2 Hn Hi Hl) as (_ & Ne & K).
  destruct (listed_evidence _ _ _ _ _ _ _ _ _ _ _ _ _ _ _ H V1 V2 Hn Hi Hl Ht Hc L) as (_ & Q).
  destruct out as [|[a chains] out]; [congruence|]. destruct (K a chains (or_introl eq_refl)) as (_ & _ & _ & _ & Nc & _).
  destruct (Q a chains (or_introl eq_refl)) as (_ & F). destruct F as [|chain l (root & rest & e & time & _ & (pre & post & X & _) & _) _]; [congruence|].
  rewrite Em in X. destruct pre; discriminate X.
Qed.
