(** What is signed determines what is read. *)
From Verif Require Import Base Bytes Monad ModelX509 ModelContext ModelPkcs7 ModelLazy ModelAuthenticode ModelLazyFile ModelDer ModelSpc
  ModelDecode SpecAuthenticode SpecLazy SpecDer ProofsDer ProofsDecode ProofsDecode2.
From Verif Require ProofsPkcs7.
From Coq Require Import ZifyBool ZifyNat.

Lemma bind_inv : forall A B (r : res A) (f : A -> res B) b, rbind r f = Ok b -> exists a, r = Ok a /\ f a = Ok b.
Proof. intros A B [a|e] f b H; [eauto|discriminate]. Qed.
Tactic Notation "inv" hyp(H) ident(x) ident(K) := apply bind_inv in H; destruct H as (x & K & H).

(** ** What is decoded *)

Definition d_si (r : lz_si) : Prop := exists f b, (length b < f)%nat /\ r = read_si f b.
Definition d_ci (r : lz_ci) : Prop := exists f b, (length b < f)%nat /\ r = read_ci f b.
Definition d_sd (r : lz_sd) : Prop := exists f b, (length b < f)%nat /\ r = read_sd f b.
Definition d_attr (x : lz_attr) : Prop :=
  match x with
  | LCounterSignature (Ok l) => Forall d_si l
  | LNestedSignature (Ok l) => Forall d_ci l
  | LTimeStampToken (Ok l) => Forall d_ci l
  | _ => True
  end.

Lemma map_res_forall : forall A B (f : A -> res B) (P : B -> Prop) l m,
  (forall a b, In a l -> f a = Ok b -> P b) -> map_res f l = Ok m -> Forall P m.
Proof.
  intros A B f P. induction l as [|a l IH]; intros m H Hm; cbn [map_res] in Hm.
  - injection Hm as <-. constructor.
  - inv Hm x H1. inv Hm y H2. injection Hm as <-. constructor.
    + eapply H; [left; reflexivity|exact H1].
    + eapply IH; [|exact H2]. intros; eapply H; [right|]; eassumption.
Qed.

Lemma attr_decoded : forall f t x, (size t < f)%nat -> read_attr f t = Ok x -> d_attr x.
Proof.
  intros [|f] t x Hf H; [lia|]. cbn [read_attr] in H.
  inv H b Hb. inv H typ Ht. injection H as <-. apply contents_of_shorter in Hb.
  assert (V : forall A (k : tlv -> res A) (P : A -> Prop) l,
            (forall u c, (size u + 2 <= length b)%nat -> k u = Ok c -> P c) ->
            (let? l := read CMSAttribute (children CMSAttribute b) "values" items_of in map_res k l) = Ok l -> Forall P l).
  { intros A k P l Hk Hl. inv Hl m Hm. apply read_bound in Hm. destruct Hm as (y & tg & v & Hv & Hm).
    eapply map_res_forall; [|exact Hl]. intros u c Hu Hc. eapply Hk; [|exact Hc].
    pose proof (items_of_shorter _ _ _ _ _ Hm Hu). lia. }
  repeat match goal with |- d_attr (if ?c then _ else _) => destruct c; [|] end; cbn [d_attr]; try exact I;
    (match goal with |- match ?r with _ => _ end => destruct r as [l|e] eqn:El; [|exact I] end);
    (eapply V; [|exact El]); cbn beta; intros u c Hu Hc; inv Hc c0 Hc0; injection Hc as <-; apply (contents_of_shorter SignerInfo Untagged) in Hc0.
  - exists f, c0. split; [lia|reflexivity].
  - exists f, c0. split; [lia|reflexivity].
  - exists f, c0. split; [lia|reflexivity].
Qed.

(** The attributes in the octets [sb]. *)
Definition attributes_in (sb : bytes) : res (list (res lz_attr)) :=
  let? l := parse_all sb in Ok (map (read_attr (S (length sb))) l).

Lemma si_signed : forall f b sid dalg signed contents salg sg unsigned auth, (length b < f)%nat ->
  read_si f b = LzSI sid dalg signed contents salg sg unsigned -> lz_attributes signed = Ok auth ->
  signed = attributes_in contents.
Proof.
  intros [|f] b sid dalg signed contents salg sg unsigned auth Hf H Ha; [lia|]. cbn [read_si] in H.
  injection H as _ _ Hs Hc _ _ _. subst signed contents.
  unfold lz_attributes in Ha. inv Ha l Hl. clear Ha. inv Hl o Ho. rewrite Ho. cbn [rbind].
  unfold read_field in Ho |- *. inv Ho d Hd. rewrite Hd. cbn [rbind].
  destruct (dict_get "signed_attrs" d) as [[t|]|] eqn:Et.
  - destruct (dict_get "signed_attrs" (seq_fields SignerInfo)) as [[x [tg p]]|]; [|injection Ho as <-; reflexivity].
    inv Ho v Hv. injection Ho as <-. unfold items_of in Hv. inv Hv c Hc. rewrite Hc. cbn [rbind].
    unfold attributes_in. rewrite Hv. cbn [rbind]. f_equal. apply map_ext_in. intros u Hu.
    pose proof (parse_all_shorter _ _ _ Hv Hu) as H1. apply contents_of_shorter in Hc.
    pose proof (children_shorter _ _ _ _ _ Hd Et). destruct (nesting f (S (length c))) as [N _]. apply N; lia.
  - injection Ho as <-. reflexivity.
  - injection Ho as <-. reflexivity.
Qed.
Lemma si_unsigned : forall f b sid dalg signed contents salg sg unsigned auth, (length b < f)%nat ->
  read_si f b = LzSI sid dalg signed contents salg sg unsigned -> lz_attributes unsigned = Ok auth ->
  Forall d_attr auth.
Proof.
  intros [|f] b sid dalg signed contents salg sg unsigned auth Hf H Ha; [lia|]. cbn [read_si] in H.
  injection H as _ _ _ _ _ _ Hs. subst unsigned.
  unfold lz_attributes in Ha. inv Ha l Hl. inv Hl o Ho.
  eapply map_res_forall; [|exact Ha]. cbn beta. intros x y Hx Hy.
  inv Hy z Hz. inv Hy tt' Hr. injection Hy as <-. subst x.
  destruct o as [m|]; injection Hl as <-; [|destruct Hx].
  apply in_map_iff in Hx. destruct Hx as (u & Hu & Hin). apply read_field_bound in Ho.
  destruct Ho as (y & tg & v & Hv & Ho). pose proof (items_of_shorter _ _ _ _ _ Ho Hin).
  eapply attr_decoded; [|exact Hu]. lia.
Qed.

Lemma values_in : forall A (g : lz_attr -> option (res (list A))) l v, lz_values g l = Some v ->
  exists x, In x l /\ g x = Some (Ok v).
Proof.
  intros A g l v. induction l as [|x l IH]; cbn [lz_values]; [discriminate|].
  destruct (lz_values g l) as [u|] eqn:E.
  - intros [= ->]. destruct (IH eq_refl) as (y & Hy & Hg). exists y. split; [right|]; assumption.
  - destruct (g x) as [[u|]|] eqn:Eg; intros H; try discriminate H. injection H as ->. exists x. split; [left; reflexivity|assumption].
Qed.

(** ** Signer infos *)

(** What a signer info says, from the octets that it signs. *)
Definition stated (sb : bytes) (i : sinfo) : Prop :=
  si_encoded i = encode_attributes sb /\
  exists auth, lz_attributes (attributes_in sb) = Ok auth /\
    (exists m, lz_single (lz_values lz_message_digest auth) m = Ok (si_message_digest i)) /\
    (exists m, lz_single (lz_values lz_content_type auth) m = Ok (si_content_type i)) /\
    (exists m, lz_single (lz_values lz_signing_time auth) m = Ok (si_signing_time i)).

Lemma signer_stated : forall need ex r i auth unauth, d_si r -> lz_signer need ex r = Ok (i, (auth, unauth)) ->
  (exists sb, stated sb i) /\ Forall d_attr unauth /\
  (ex <> None -> si_content_type i = ex).
Proof.
  intros need ex r i auth unauth (f & b & Hf & Hr) H.
  destruct r as [sid dalg signed contents salg sg unsigned] eqn:Er. symmetry in Hr.
  cbn [lz_signer] in H. inv H s Hs. destruct s as [iss ser|]; [|discriminate].
  inv H issuer H1. inv H serial H2. inv H auth' H3. inv H tt1 H4. inv H unauth' H5. inv H salg' H6.
  inv H sg' H7. inv H dalg' H8. inv H alg H9. inv H md H10. inv H ct H11. inv H tt2 H12. inv H st H13.
  injection H as <- <- <-. split; [|split].
  - exists contents. split; [reflexivity|]. exists auth'. rewrite <- (si_signed _ _ _ _ _ _ _ _ _ _ Hf Hr H3).
    split; [exact H3|]. cbn [si_message_digest si_content_type si_signing_time].
    split; [eexists; exact H10|]. split; [eexists; exact H11|eexists; exact H13].
  - eapply si_unsigned; eassumption.
  - cbn [si_content_type]. intros He. destruct ex as [e|]; [|congruence].
    assert (Hp : exists v, lz_values lz_content_type auth' = Some v).
    { destruct (lz_values lz_content_type auth') as [v|]; [eauto|]. discriminate H4. }
    destruct Hp as (v & Hv). rewrite Hv in H11.
    destruct ct as [ct|].
    + destruct (String.eqb_spec ct e) as [->|]; [reflexivity|discriminate].
    + destruct v as [|v1 [|v2 v]]; cbn [lz_single] in H11; try discriminate. inv H11 z Hz. discriminate.
Qed.

Lemma single_fun : forall A (o : option (list (res A))) m m' x y,
  lz_single o m = Ok x -> lz_single o m' = Ok y -> x = y.
Proof. intros A [[|v [|u l]]|] m m' x y; cbn [lz_single]; intros H K; try discriminate; rewrite H in K; congruence. Qed.

Lemma stated_fun : forall sb sb' i j, stated sb i -> stated sb' j -> si_encoded i = si_encoded j ->
  si_message_digest i = si_message_digest j /\ si_content_type i = si_content_type j /\
  si_signing_time i = si_signing_time j.
Proof.
  intros sb sb' i j [Ei (auth & Ha & (m1 & H1) & (m2 & H2) & (m3 & H3))]
    [Ej (auth' & Ha' & (m1' & K1) & (m2' & K2) & (m3' & K3))] E.
  rewrite Ei, Ej in E. apply ProofsPkcs7.encode_injective in E. subst sb'. rewrite Ha in Ha'. injection Ha' as <-.
  split; [|split]; eapply single_fun; eassumption.
Qed.

(** ** Content *)

(** ** Signatures and tokens *)

Definition content_value (o : bytes) (v : lz_value) : Prop :=
  exists version contents c, read_content version contents = Ok c /\ lo_octets c = o /\ lo_value c = Ok v.

Definition good_token (t : rsd) : Prop :=
  (exists sb, stated sb (r_signer t)) /\ si_content_type (r_signer t) = Some "tst_info" /\
  exists v, content_value (sd_octets (r_data t)) v /\ lz_tst_info v = Ok (r_tst t).
Definition good (a : asd) : Prop :=
  (exists sb, stated sb (asi_info (asd_signer a))) /\ si_content_type (asi_info (asd_signer a)) = Some spc_type /\
  (exists v, content_value (sd_octets (asd_data a)) v /\ lz_spc_info v = Ok (asd_spc a)) /\
  match asi_cs (asd_signer a) with
  | None => True
  | Some (CSPlain k) => exists sb, stated sb k
  | Some (CSToken t) => good_token t
  end.

Lemma sd_signers : forall r l, d_sd r -> lz_signers r = Ok l -> Forall d_si l.
Proof.
  intros r l (f & b & Hf & ->) H. destruct f as [|f]; [lia|]. cbn [read_sd lz_signers] in H.
  inv H m Hm. apply read_bound in Hm. destruct Hm as (y & tg & v & Hv & Hm).
  eapply map_res_forall; [|exact H]. cbn beta. intros u c Hu Hc. inv Hc c0 Hc0. injection Hc as <-.
  apply contents_of_shorter in Hc0. pose proof (items_of_shorter _ _ _ _ _ Hm Hu). exists f, c0. split; [lia|reflexivity].
Qed.
Lemma sd_content : forall e r d v, d_sd r -> lz_signed_data e r = Ok (d, v) -> content_value (sd_octets d) v.
Proof.
  intros e r d v (f & b & Hf & ->) H. destruct f as [|f]; [lia|]. cbn [read_sd lz_signed_data] in H.
  inv H algs H1. inv H alg H2. inv H ct H3. inv H tt1 H4. inv H content H5. inv H value H6. inv H certs H7. inv H cs H8.
  injection H as <- <-. cbn [sd_octets]. inv H5 ver H9. inv H5 enc H10. exists ver, enc, content. auto.
Qed.
Lemma ci_content : forall ct x s, d_ci (LzCI ct (Ok x)) -> lz_content_info x = Ok s -> d_sd s.
Proof.
  intros ct x s (f & b & Hf & H) Hs. destruct f as [|f]; [lia|]. cbn [read_ci] in H. injection H as _ H.
  symmetry in H. inv H name Hn. inv H o Ho. destruct o as [u|].
  - destruct (String.eqb name _).
    + inv H c Hc. injection H as <-. injection Hs as <-. exists f, c. split; [|reflexivity].
      apply read_field_bound in Ho. destruct Ho as (z & tg & v & Hv & Ho). apply unwrap_shorter in Ho.
      apply (contents_of_shorter SignedData Untagged) in Hc. lia.
    + injection H as <-. cbn [lz_content_info] in Hs. destruct (negb _); discriminate.
  - injection H as <-. discriminate.
Qed.
Lemma ci_sd : forall A m (sub : lz_sd -> res A) c x, d_ci c -> lz_sub m sub c = Ok x -> exists s, d_sd s /\ sub s = Ok x.
Proof.
  intros A m sub [ct content] x D H. cbn [lz_sub] in H.
  inv H t Ht. destruct (negb _); [discriminate|]. inv H y Hy. inv H s Hs. exists s. split; [|exact H].
  subst content. eapply ci_content; eassumption.
Qed.

Lemma countersigner_good : forall depth r i, d_si r -> lz_countersigner depth r = Ok i -> exists sb, stated sb i.
Proof.
  intros [|d] r i Hr H; [discriminate|]. cbn [lz_countersigner] in H. inv H p Hp. destruct p as [j [auth unauth]].
  inv H cs Hcs. assert (j = i) as ->.
  { destruct cs; [inv H z Hz|]; injection H as <-; reflexivity. }
  destruct (signer_stated _ _ _ _ _ _ Hr Hp) as [S _]. exact S.
Qed.
Lemma rsd_good : forall r t, d_sd r -> lz_rsd r = Ok t -> good_token t.
Proof.
  intros r t Hr H. unfold lz_rsd in H. inv H p Hp. destruct p as [d v]. inv H l Hl. inv H ss Hs. inv H tst Ht.
  destruct ss as [|s [|]]; try discriminate. injection H as <-. cbn [fst snd r_data r_signer r_tst] in *.
  pose proof (sd_signers _ _ Hr Hl) as Fl.
  assert (F : Forall (fun s => (exists sb, stated sb s) /\ si_content_type s = Some "tst_info") [s]).
  { eapply map_res_forall; [|exact Hs]. cbn beta. intros x y Hx Hy. rewrite Forall_forall in Fl.
    unfold lz_rfc3161_signer in Hy. inv Hy q Hq. destruct q as [j [auth unauth]]. inv Hy cs Hcs.
    destruct cs; [discriminate|]. injection Hy as <-. cbn [fst].
    destruct (signer_stated _ _ _ _ _ _ (Fl _ Hx) Hq) as (S & _ & C). split; [exact S|]. apply C. discriminate. }
  inversion F as [|? ? [S1 S2] _]. split; [exact S1|]. split; [exact S2|].
  exists v. split; [eapply sd_content; eassumption|exact Ht].
Qed.

Lemma asi_good : forall depth (sub : lz_sd -> res asd) (P : asd -> Prop) r s,
  (forall x a, d_sd x -> sub x = Ok a -> P a) -> d_si r -> lz_asi depth sub r = Ok s ->
  (exists sb, stated sb (asi_info s)) /\ si_content_type (asi_info s) = Some spc_type /\
  Forall P (asi_nested s) /\
  match asi_cs s with
  | None => True
  | Some (CSPlain k) => exists sb, stated sb k
  | Some (CSToken t) => good_token t
  end.
Proof.
  intros depth sub P r s Hsub Hr H. unfold lz_asi in H. inv H p Hp. destruct p as [i [auth unauth]].
  cbn [fst snd] in H. inv H cs Hcs. inv H plain Hplain. inv H tt1 H1. inv H tt2 H2. inv H nested Hn.
  destruct (present _ && present _); [discriminate|]. inv H cc Hc. injection H as <-. cbn [asi_info asi_nested asi_cs].
  destruct (signer_stated _ _ _ _ _ _ Hr Hp) as (S & U & C). rewrite Forall_forall in U.
  split; [exact S|]. split; [apply C; discriminate|]. split.
  - destruct (lz_values lz_nested unauth) as [l|] eqn:E; [|injection Hn as <-; constructor].
    apply values_in in E. destruct E as (x & Hx & E). apply U in Hx.
    destruct x as [| | | | | |[l'|]| |]; cbn [lz_nested] in E; try discriminate E. injection E as ->. cbn [d_attr] in Hx.
    eapply map_res_forall; [|exact Hn]. intros y z Hy Hz. rewrite Forall_forall in Hx.
    destruct (ci_sd _ _ _ _ _ (Hx _ Hy) Hz) as (sd & D & Q). eapply Hsub; eassumption.
  - assert (Pl : match plain with None => True | Some (CSPlain k) => exists sb, stated sb k | Some (CSToken t) => good_token t end).
    { destruct cs as [c|]; [|injection Hplain as <-; exact I]. inv Hplain k Hk. injection Hplain as <-.
      unfold lz_countersignature in Hcs. destruct (lz_values lz_counter_signature unauth) as [[|c' [|]]|] eqn:E; try discriminate.
      injection Hcs as ->. apply values_in in E. destruct E as (x & Hx & E). apply U in Hx.
      destruct x as [| | |[l'|]| | | | |]; cbn [lz_counter_signature] in E; try discriminate E. injection E as ->. cbn [d_attr] in Hx.
      inversion Hx. subst. eapply countersigner_good; eassumption. }
    destruct (lz_values lz_token unauth) as [[|c [|]]|] eqn:E; try discriminate; [|injection Hc as <-; exact Pl].
    inv Hc t Ht. injection Hc as <-. apply values_in in E. destruct E as (x & Hx & E). apply U in Hx.
    destruct x as [| | | | | | |[l'|]|]; cbn [lz_token] in E; try discriminate E. injection E as ->. cbn [d_attr] in Hx.
    inversion Hx. subst. destruct (ci_sd _ _ _ _ _ H3 Ht) as (sd & D & Q). eapply rsd_good; eassumption.
Qed.

(** [P] of a signature and those nested in it. *)
Inductive throughout (P : asd -> Prop) : asd -> Prop :=
| Throughout a : P a -> Forall (throughout P) (asi_nested (asd_signer a)) -> throughout P a.

Lemma asd_good : forall depth pe r a, d_sd r -> lz_asd depth pe r = Ok a -> throughout good a.
Proof.
  induction depth as [|d IH]; intros pe r a Hr H; [discriminate|]. cbn [lz_asd] in H.
  inv H p Hp. destruct p as [sdata v]. inv H l Hl. inv H ss Hs. inv H spc Hspc. cbn [fst snd] in *.
  destruct ss as [|s [|]]; try discriminate. inv H crls Hcrl. destruct crls; [|discriminate]. injection H as <-.
  pose proof (sd_signers _ _ Hr Hl) as Fl. rewrite Forall_forall in Fl.
  assert (F : Forall (fun s => (exists sb, stated sb (asi_info s)) /\ si_content_type (asi_info s) = Some spc_type /\
      Forall (throughout good) (asi_nested s) /\
      match asi_cs s with
      | None => True
      | Some (CSPlain k) => exists sb, stated sb k
      | Some (CSToken t) => good_token t
      end) [s]).
  { eapply map_res_forall; [|exact Hs]. intros x y Hx Hy. eapply asi_good; [|apply Fl; exact Hx|exact Hy].
    intros z b Hz Hb. eapply IH; eassumption. }
  inversion F as [|? ? (S1 & S2 & S3 & S4) _]. subst. constructor; [|exact S3].
  unfold good. cbn [asd_signer asd_data asd_spc]. split; [exact S1|]. split; [exact S2|]. split; [|exact S4].
  exists v. split; [|exact Hspc]. eapply sd_content; eassumption.
Qed.

Lemma throughout_in : forall P a, throughout P a -> forall b, In b (recursive_nested true a) -> P b.
Proof.
  intros P. fix IH 2. intros a [x Hx Hn] b Hb. destruct x as [d s [i cs nested] pe]. cbn [recursive_nested] in Hb.
  cbn [asd_signer asi_nested] in Hn. destruct Hb as [<-|Hb]; [exact Hx|].
  clear Hx. apply in_flat_map in Hb. destruct Hb as (y & Hy & Hb).
  revert y Hy Hb. induction Hn as [|z l Hz _ IHl]; intros y Hy Hb; [destruct Hy|].
  destruct Hy as [<-|Hy]; [eapply IH; eassumption|eapply IHl; eassumption].
Qed.

Lemma opened_good : forall b a, opened b a -> good a.
Proof.
  intros b a (depth & pe & top & H & Hin). eapply throughout_in; [|exact Hin].
  unfold lz_from_envelope in H. inv H c Hc. unfold der_loader in Hc. inv Hc p Hp. destruct p as [t rest].
  inv Hc c0 Hc0. injection Hc as <-. pose proof (parse_tlv_shorter _ _ _ Hp). apply contents_of_shorter in Hc0.
  assert (D : d_ci (read_ci (length b) c0)) by (exists (length b), c0; split; [lia|reflexivity]).
  destruct (read_ci (length b) c0) as [ct content] eqn:Er.
  inv H ty Hty. inv H tt1 H1. inv H x Hx. inv H s Hs.
  eapply asd_good; [|exact H].
  subst content. eapply ci_content; eassumption.
Qed.

(** ** Content *)

(** The first field, which cannot be absent, is the first value. *)
Lemma head_field : forall A n x tg fs b (k : asn -> tagging -> tlv -> res A) v,
  let a := ASeq ((n, (x, (tg, Required))) :: fs) in
  read a (children a b) n k = Ok v -> exists t rest l, parse_tlv b = Ok (t, rest) /\ parse_all b = Ok (t :: l) /\ k x tg t = Ok v.
Proof.
  intros A n x tg fs b k v. cbn zeta. intros H. unfold read in H. inv H o Ho. destruct o as [v'|]; [|discriminate]. injection H as ->.
  unfold read_field in Ho. inv Ho d Hd. unfold children in Hd. inv Hd l Hl.
  cbn [seq_fields] in Hd. destruct l as [|t l]; [discriminate|]. cbn [match_fields] in Hd. inv Hd d' Hd'. injection Hd as <-.
  cbn [dict_get seq_fields] in Ho. rewrite !String.eqb_refl in Ho. inv Ho v1 Hv. injection Ho as ->.
  unfold parse_all in Hl. destruct b as [|b0 b]; [discriminate|]. cbn [parse_many length] in Hl.
  pose proof Hl as Hl'. inv Hl' p Hp. destruct p as [t' r]. inv Hl' l' Hl1. injection Hl' as -> ->.
  exists t, r, l. auto.
Qed.
Lemma contents_prim : forall tag t b, contents_of (APrim tag) Untagged t = Ok b -> t_tag t = tag /\ b = t_contents t.
Proof.
  intros tag t b H. cbn [contents_of] in H. inv H u Hu. injection H as <-. unfold expect in Hu. cbn [unwrap rbind] in Hu.
  destruct (_ && _) eqn:E; [|discriminate]. injection Hu as <-. split; [lia|reflexivity].
Qed.
Lemma contents_seq : forall fs t b, contents_of (ASeq fs) Untagged t = Ok b -> t_tag t = 16 /\ b = t_contents t.
Proof.
  intros fs t b H. cbn [contents_of] in H. inv H u Hu. injection H as <-. unfold expect in Hu. cbn [unwrap rbind] in Hu.
  destruct (_ && _) eqn:E; [|discriminate]. injection Hu as <-. split; [lia|reflexivity].
Qed.

(** The first value of an SpcIndirectDataContent, and its first value. *)
Lemma spc_first : forall c s, lz_spc_info (LVSpc (read_spc c)) = Ok s ->
  exists t rest o rest', parse_tlv c = Ok (t, rest) /\ t_tag t = 16 /\ parse_tlv (t_contents t) = Ok (o, rest') /\ t_tag o = 6.
Proof.
  intros c s H. cbn [lz_spc_info read_spc lp_type] in H. inv H typ Ht. clear H.
  assert (exists b, read SpcIndirectDataContent (children SpcIndirectDataContent c) "data" contents_of = Ok b /\
            read SpcAttributeTypeAndOptionalValue (children SpcAttributeTypeAndOptionalValue b) "type" (read_oid spc_attribute_types) = Ok typ)
    as (b & Hb & Hr).
  { destruct (read SpcIndirectDataContent (children SpcIndirectDataContent c) "data" contents_of) as [b|e]; [exists b; split; [reflexivity|exact Ht]|].
    discriminate Ht. }
  apply head_field in Hb. destruct Hb as (t & rest & l & H1 & _ & H2). apply contents_seq in H2. destruct H2 as [T ->].
  apply head_field in Hr. destruct Hr as (o & rest' & l' & K1 & _ & K2). unfold read_oid in K2. inv K2 b Hb.
  apply contents_prim in Hb. destruct Hb as [T' _]. exists t, rest, o, rest'. auto.
Qed.
Lemma tst_first : forall c s, lz_tst_info (LVTst (read_tst c)) = Ok s -> exists t rest, parse_tlv c = Ok (t, rest) /\ t_tag t = 2.
Proof.
  intros c s H. cbn [lz_tst_info read_tst lt_version] in H. inv H v Hv. clear H.
  apply head_field in Hv. destruct Hv as (t & rest & l & H1 & _ & H2). inv H2 b Hb.
  apply contents_prim in Hb. destruct Hb as [T _]. exists t, rest. auto.
Qed.

(** What is read from the octets of the content, by version. *)
Lemma content_forms : forall o v, content_value o v ->
  v = LVNone \/ v = LVSpc (read_spc o) \/
  exists u rest, parse_tlv o = Ok (u, rest) /\
    ((t_tag u = 16 /\ v = LVSpc (read_spc (t_contents u))) \/ (t_tag u = 16 /\ v = LVTst (read_tst (t_contents u)))).
Proof.
  intros o v (version & contents & c & H & <- & Hv). unfold read_content in H. destruct (String.eqb version "v1").
  - inv H typ Ht. inv H x Hx. destruct x as [u|].
    + destruct (String.eqb typ _).
      * inv H b Hb. injection H as <-. injection Hv as <-. right. left. reflexivity.
      * injection H as <-. injection Hv as <-. left. reflexivity.
    + injection H as <-. injection Hv as <-. left. reflexivity.
  - inv H typ Ht. inv H x Hx. destruct x as [b|].
    + injection H as <-. cbn [lo_value lo_octets] in *. inv Hv p Hp. destruct p as [u rest].
      destruct (String.eqb typ "microsoft_spc_indirect_data_content").
      * inv Hv c0 Hc. injection Hv as <-. apply (contents_seq []) in Hc. destruct Hc as [T ->].
        right. right. exists u, rest. split; [exact Hp|]. left. split; [exact T|reflexivity].
      * destruct (String.eqb typ _).
        -- inv Hv c0 Hc. injection Hv as <-. apply (contents_seq []) in Hc. destruct Hc as [T ->].
           right. right. exists u, rest. split; [exact Hp|]. right. split; [exact T|reflexivity].
        -- injection Hv as <-. left. reflexivity.
    + injection H as <-. injection Hv as <-. left. reflexivity.
Qed.

Lemma spc_forms : forall o v s, content_value o v -> lz_spc_info v = Ok s ->
  v = LVSpc (read_spc o) \/ exists u rest, parse_tlv o = Ok (u, rest) /\ v = LVSpc (read_spc (t_contents u)).
Proof.
  intros o v s H K. apply content_forms in H. destruct H as [->|[->|(u & rest & H & [[_ ->]|[_ ->]])]];
    [discriminate K|left; reflexivity| |discriminate K]. right. exists u, rest. auto.
Qed.
Lemma content_spc_fun : forall o v v' s s', content_value o v -> content_value o v' ->
  lz_spc_info v = Ok s -> lz_spc_info v' = Ok s' -> s = s'.
Proof.
  assert (K : forall o u rest s s', parse_tlv o = Ok (u, rest) -> lz_spc_info (LVSpc (read_spc o)) = Ok s ->
              lz_spc_info (LVSpc (read_spc (t_contents u))) = Ok s' -> False).
  { intros o u rest s s' P H1 H2. apply spc_first in H1. destruct H1 as (t & r & o1 & r1 & A1 & A2 & A3 & A4).
    rewrite P in A1. injection A1 as <- <-. apply spc_first in H2. destruct H2 as (t' & r' & o2 & r2 & B1 & B2 & _).
    rewrite A3 in B1. injection B1 as <- <-. congruence. }
  intros o v v' s s' H H' E E'.
  destruct (spc_forms _ _ _ H E) as [->|(u & rest & P & ->)]; destruct (spc_forms _ _ _ H' E') as [->|(u' & rest' & P' & ->)].
  - congruence.
  - exfalso. eapply K; eassumption.
  - exfalso. eapply K; eassumption.
  - rewrite P in P'. injection P' as <- <-. congruence.
Qed.
Lemma tst_forms : forall o v s, content_value o v -> lz_tst_info v = Ok s ->
  exists u rest, parse_tlv o = Ok (u, rest) /\ v = LVTst (read_tst (t_contents u)).
Proof.
  intros o v s H K. apply content_forms in H. destruct H as [->|[->|(u & rest & H & [[_ ->]|[_ ->]])]]; try discriminate K.
  exists u, rest. auto.
Qed.
Lemma content_tst_fun : forall o v v' s s', content_value o v -> content_value o v' ->
  lz_tst_info v = Ok s -> lz_tst_info v' = Ok s' -> s = s'.
Proof.
  intros o v v' s s' H H' E E'. destruct (tst_forms _ _ _ H E) as (u & rest & P & ->).
  destruct (tst_forms _ _ _ H' E') as (u' & rest' & P' & ->). rewrite P in P'. injection P' as <- <-. congruence.
Qed.
Lemma content_kinds : forall o v v' s s', content_value o v -> content_value o v' ->
  lz_spc_info v = Ok s -> lz_tst_info v' = Ok s' -> False.
Proof.
  intros o v v' s s' H H' E E'. destruct (tst_forms _ _ _ H' E') as (u' & rest' & P' & ->).
  apply tst_first in E'. destruct E' as (t & r & T1 & T2).
  destruct (spc_forms _ _ _ H E) as [->|(u & rest & P & ->)].
  - apply spc_first in E. destruct E as (t' & r' & o2 & r2 & B1 & B2 & B3 & B4). rewrite P' in B1. injection B1 as <- <-.
    rewrite T1 in B3. injection B3 as <- <-. congruence.
  - rewrite P in P'. injection P' as <- <-. apply spc_first in E. destruct E as (t' & r' & o2 & r2 & B1 & B2 & _).
    rewrite T1 in B1. injection B1 as <- <-. congruence.
Qed.

(** ** The theorems *)

Lemma signer_of_stated : forall b a i, opened b a -> signer_of a i -> exists sb, stated sb i.
Proof.
  intros b a i Ho Hi. destruct (opened_good _ _ Ho) as (S & _ & _ & C). destruct Hi as [->|(c & Hc & ->)]; [exact S|].
  rewrite Hc in C. destruct c as [k|t]; [exact C|apply C].
Qed.
Theorem attributes_determined : forall b b' a a' i i', opened b a -> opened b' a' -> signer_of a i -> signer_of a' i' ->
  si_encoded i = si_encoded i' ->
  si_message_digest i = si_message_digest i' /\ si_content_type i = si_content_type i' /\
  si_signing_time i = si_signing_time i'.
Proof.
  intros b b' a a' i i' Ho Ho' Hi Hi'. destruct (signer_of_stated _ _ _ Ho Hi) as (sb & S).
  destruct (signer_of_stated _ _ _ Ho' Hi') as (sb' & S'). eapply stated_fun; eassumption.
Qed.
Theorem purposes_distinct : forall b b' a a' t, opened b a -> opened b' a' -> token_of a' t ->
  si_encoded (asi_info (asd_signer a)) <> si_encoded (r_signer t) /\ sd_octets (asd_data a) <> sd_octets (r_data t).
Proof.
  intros b b' a a' t Ho Ho' Ht. destruct (opened_good _ _ Ho) as ((sb & S) & C & (v & V & Vs) & _).
  destruct (opened_good _ _ Ho') as (_ & _ & _ & G). unfold token_of in Ht. rewrite Ht in G.
  destruct G as ((sb' & S') & C' & v' & V' & Vt). split; intros E.
  - destruct (stated_fun _ _ _ _ S S' E) as (_ & K & _). rewrite C, C' in K. discriminate.
  - rewrite <- E in V'. exact (content_kinds _ _ _ _ _ V V' Vs Vt).
Qed.
Theorem spc_determined : forall b b' a a', opened b a -> opened b' a' ->
  sd_octets (asd_data a) = sd_octets (asd_data a') -> asd_spc a = asd_spc a'.
Proof.
  intros b b' a a' Ho Ho' E. destruct (opened_good _ _ Ho) as (_ & _ & (v & V & Vs) & _).
  destruct (opened_good _ _ Ho') as (_ & _ & (v' & V' & Vs') & _). rewrite <- E in V'. exact (content_spc_fun _ _ _ _ _ V V' Vs Vs').
Qed.
Theorem tst_determined : forall b b' a a' t t', opened b a -> opened b' a' -> token_of a t -> token_of a' t' ->
  sd_octets (r_data t) = sd_octets (r_data t') -> r_tst t = r_tst t'.
Proof.
  intros b b' a a' t t' Ho Ho' Ht Ht' E.
  destruct (opened_good _ _ Ho) as (_ & _ & _ & G). unfold token_of in Ht. rewrite Ht in G.
  destruct (opened_good _ _ Ho') as (_ & _ & _ & G'). unfold token_of in Ht'. rewrite Ht' in G'.
  destruct G as (_ & _ & v & V & Vt). destruct G' as (_ & _ & v' & V' & Vt').
  rewrite <- E in V'. exact (content_tst_fun _ _ _ _ _ V V' Vt Vt').
Qed.
