(** Proofs that what a signature tells is what was signed; statements in PropertiesShown.v. *)
From Coq Require Import Lia ZifyBool ZifyNat.
From Verif Require Import Base Bytes Monad ModelX509 ModelContext ModelPkcs7 ModelLazy ModelAuthenticode ModelLazyFile ModelDer ModelSpc
  ModelDecode ModelShown SpecAuthenticode SpecLazy SpecDer ProofsDer ProofsDecode ProofsDecode2 ProofsDecode3.
From Verif Require ProofsPkcs7.

(** ** Attributes *)

Definition statement_of (t : tlv) : res (res (list string)) :=
  let? b := contents_of SpcStatementType Untagged t in
  Ok (let? l := parse_all b in map_res (read_oid spc_statement_types aObjectIdentifier Untagged) l).
Definition info_of (f : nat) (t : tlv) : res lz_ci := let? b := contents_of ContentInfo Untagged t in Ok (read_ci f b).
(** The attribute of a type and values. *)
Definition of_values (f : nat) (typ : string) (v : list tlv) : lz_attr :=
  if String.eqb typ "content_type" then LContentType (map_res (simple_item 6 (fun b => Ok (oid_native content_types b))) v)
  else if String.eqb typ "message_digest" then LMessageDigest (map_res (simple_item 4 (fun b => Ok b)) v)
  else if String.eqb typ "signing_time" then
    LSigningTime (map_res (fun t => choice_of Time Untagged t (fun n x y u => let? b := contents_of x y u in Ok (time_native n b))) v)
  else if String.eqb typ "counter_signature" then
    LCounterSignature (map_res (fun t => let? b := contents_of SignerInfo Untagged t in Ok (read_si f b)) v)
  else if String.eqb typ "microsoft_spc_statement_type" then LStatementType (map_res statement_of v)
  else if String.eqb typ "microsoft_spc_sp_opus_info" then LOpusInfo (map_res read_opus v)
  else if String.eqb typ "microsoft_nested_signature" then LNestedSignature (map_res (info_of f) v)
  else if String.eqb typ "microsoft_time_stamp_token" then LTimeStampToken (map_res (info_of f) v)
  else LOther typ (let? l := map_res (fun t => Ok t) v in Ok (length l)).

Lemma attr_shown f t x : read_attr (S f) t = Ok x -> lz_readable x = Ok tt ->
  exists typ v, show_attr t = Ok (typ, v) /\ x = of_values f typ v.
Proof.
  intros H R. cbn [read_attr] in H. inv H b Hb. inv H typ Ht. injection H as <-.
  unfold show_attr. rewrite Hb. cbn [rbind]. rewrite Ht. cbn [rbind].
  destruct (read CMSAttribute (children CMSAttribute b) "values" items_of) as [v|e].
  - exists typ, v. split; reflexivity.
  - exfalso. cbn [rbind] in R. repeat (destruct (String.eqb typ _); [discriminate R|]). discriminate R.
Qed.

Definition tied_attr (f : nat) (x : lz_attr) (p : string * list tlv) : Prop :=
  x = of_values f (fst p) (snd p) /\ lz_readable x = Ok tt.
Lemma attributes_shown f l auth : lz_attributes (Ok (map (read_attr (S f)) l)) = Ok auth ->
  exists d, map_res show_attr l = Ok d /\ Forall2 (tied_attr f) auth d.
Proof.
  unfold lz_attributes. cbn [rbind]. revert auth. induction l as [|t l IH]; intros auth H; cbn [map map_res] in *.
  - injection H as <-. exists []. split; [reflexivity|constructor].
  - inv H x Hx. inv H xs Hxs. injection H as <-. inv Hx y Hy. inv Hx u Hu. injection Hx as <-. destruct u.
    destruct (attr_shown _ _ _ Hy Hu) as (typ & v & E & T). destruct (IH _ Hxs) as (d & Ed & F).
    exists ((typ, v) :: d). rewrite E. cbn [rbind]. rewrite Ed. split; [reflexivity|]. constructor; [split; assumption|exact F].
Qed.

Section Values.
  Context (f : nat) (n : string) {A : Type} (g : lz_attr -> option (res (list A))) (k : tlv -> res A).
  Hypothesis (Hg : forall typ v, g (of_values f typ v) = if String.eqb typ n then Some (map_res k v) else None).
  Hypothesis (Hr : forall v, lz_readable (of_values f n v) = Ok tt -> exists l, map_res k v = Ok l).
  Lemma values_shown auth d : Forall2 (tied_attr f) auth d ->
    match show_values n d with
    | None => lz_values g auth = None
    | Some v => exists l, map_res k v = Ok l /\ lz_values g auth = Some l
    end.
  Proof using Hg Hr.
    induction 1 as [|x [typ v] auth d [-> R] F IH]; [reflexivity|]. cbn [show_values lz_values fst snd] in *.
    destruct (show_values n d) as [w|].
    - destruct IH as (l & E & ->). exists l. split; [exact E|reflexivity].
    - rewrite IH, Hg. destruct (String.eqb_spec typ n) as [->|_]; [|reflexivity].
      destruct (Hr _ R) as (l & ->). exists l. split; reflexivity.
  Qed.
End Values.
Ltac by_type := intros typ v; unfold of_values;
  repeat match goal with |- context [String.eqb typ ?s] => destruct (String.eqb_spec typ s) as [->|]; [reflexivity|] end; reflexivity.
Ltac by_reading := intros v R; unfold of_values in R; cbn [String.eqb Ascii.eqb Bool.eqb lz_readable] in R;
  match goal with |- exists l, ?r = Ok l => destruct r as [l|e]; [exists l; reflexivity|discriminate R] end.
Definition statements_shown f := values_shown f "microsoft_spc_statement_type" lz_statement_type statement_of
  ltac:(by_type) ltac:(by_reading).
Definition infos_shown f := values_shown f "microsoft_spc_sp_opus_info" lz_opus_info read_opus ltac:(by_type) ltac:(by_reading).
Definition nested_shown f := values_shown f "microsoft_nested_signature" lz_nested (info_of f) ltac:(by_type) ltac:(by_reading).

(** ** Values *)

Lemma find_same {A} u alts (k : string -> asn -> tagging -> res A) v : find_alt u alts k = Ok v ->
  exists n x y, k n x y = Ok v /\ forall B (k' : string -> asn -> tagging -> res B), find_alt u alts k' = k' n x y.
Proof.
  induction alts as [|[n [x y]] alts IH]; cbn [find_alt]; [discriminate|]. destruct (id_in u (first_ids x y)); [|exact IH].
  intros H. exists n, x, y. split; [exact H|reflexivity].
Qed.
Lemma link_shown a tg t u : read_spc_link a tg t = Ok u -> exists n, show_link a tg t = Ok n.
Proof.
  unfold read_spc_link, show_link, choice_of. destruct a; try discriminate. intros H. inv H w Hw. rewrite Hw. cbn [rbind].
  destruct (find_same _ _ _ _ H) as (n & x & y & K & E). rewrite E. clear E H. destruct (String.eqb n "url").
  - inv K b Hb. rewrite Hb. cbn [rbind]. rewrite K. eexists. reflexivity.
  - destruct (String.eqb n "moniker").
    + inv K b Hb. rewrite Hb. cbn [rbind]. cbv zeta in *. inv K c Hc. inv K d Hd. rewrite Hc. cbn [rbind]. rewrite Hd. eexists. reflexivity.
    + rewrite K. eexists. reflexivity.
Qed.
Lemma field_shown {A B} a kids n (k : asn -> tagging -> tlv -> res A) (k' : asn -> tagging -> tlv -> res B) o :
  (forall x tg t v, k x tg t = Ok v -> exists v', k' x tg t = Ok v') ->
  read_field a kids n k = Ok o -> exists o', read_field a kids n k' = Ok o' /\ (o = None <-> o' = None).
Proof.
  intros K H. unfold read_field in *. inv H d Hd. rewrite Hd. cbn [rbind].
  destruct (dict_get n d) as [[t|]|]; [|injection H as <-; eexists; split; [reflexivity|tauto]..].
  destruct (dict_get n (seq_fields a)) as [[x [tg p]]|]; [|injection H as <-; eexists; split; [reflexivity|tauto]].
  inv H v Hv. injection H as <-. destruct (K _ _ _ _ Hv) as (v' & ->). eexists. split; [reflexivity|]. split; discriminate.
Qed.
Lemma opus_shown t o x1 x2 x3 : read_opus t = Ok o -> lu_program_name o = Ok x1 -> lu_more_info o = Ok x2 -> lu_publisher_info o = Ok x3 ->
  exists r, show_opus t = Ok r.
Proof.
  intros H H1 H2 H3. unfold read_opus in H. inv H b Hb. cbv zeta in H. injection H as <-. cbn [lu_program_name lu_more_info lu_publisher_info] in *.
  inv H1 y1 K1. inv H2 y2 K2. inv H3 y3 K3. unfold show_opus. rewrite Hb. cbn [rbind]. rewrite K1. cbn [rbind].
  destruct (field_shown _ _ _ _ show_link _ link_shown K2) as (z2 & -> & _). cbn [rbind].
  destruct (field_shown _ _ _ _ show_link _ link_shown K3) as (z3 & -> & _). eexists. reflexivity.
Qed.
Lemma flags_shown a tg t l : read_flags a tg t = Ok l -> exists m, show_flags a tg t = Ok m.
Proof.
  unfold read_flags, show_flags. intros H. inv H b Hb. rewrite Hb. cbn [rbind]. inv H bs Hbs. rewrite Hbs. eexists. reflexivity.
Qed.
Lemma image_shown_ok t x y : lm_flags (read_image t) = Ok x -> lm_file (read_image t) = Ok y -> exists s, show_image t = Ok s.
Proof.
  unfold read_image. cbn [lm_flags lm_file]. intros H1 H2. inv H1 o1 K1. inv H2 o2 K2. unfold show_image.
  destruct (contents_of SpcPeImageData Untagged t) as [b|]; [|discriminate K1]. cbn [rbind] in *.
  destruct (field_shown _ _ _ _ show_flags _ flags_shown K1) as (z1 & -> & _). cbn [rbind].
  destruct (field_shown _ _ _ _ show_link _ link_shown K2) as (z2 & -> & _). eexists. reflexivity.
Qed.

(** ** Signers *)

(** What is shown of a signer, from the octets that it signs. *)
Definition show_signed (c : bytes) : res signer_shown :=
  let? l := parse_all c in
  let? d := map_res show_attr l in
  let? s := show_statement d in
  let? o := show_opus_info d in
  Ok (mkSignerShown s (fst (fst o)) (snd (fst o)) (snd o)).
Definition signed_contents (b : bytes) : bytes :=
  match read_field SignerInfo (children SignerInfo b) "signed_attrs" contents_of with Ok (Some c) => c | _ => [] end.
Lemma dict_signed b d : show_dict (children SignerInfo b) "signed_attrs" = Ok d ->
  (let? l := parse_all (signed_contents b) in map_res show_attr l) = Ok d.
Proof.
  unfold show_dict, signed_contents. intros H. inv H o Ho. unfold read_field in *. inv Ho ds Hds. rewrite Hds. cbn [rbind].
  destruct (dict_get "signed_attrs" ds) as [[t|]|]; [|injection Ho as <-; exact H..].
  destruct (dict_get "signed_attrs" (seq_fields SignerInfo)) as [[x [tg p]]|]; [|injection Ho as <-; exact H].
  inv Ho l Hl. injection Ho as <-. unfold items_of in Hl. inv Hl c Hc. rewrite Hc. cbn [rbind]. rewrite Hl. exact H.
Qed.
Lemma signer_signed b s : show_signer b = Ok s -> show_signed (signed_contents b) = Ok s.
Proof.
  unfold show_signer, show_signed. intros H. inv H d Hd. apply dict_signed in Hd. inv Hd l Hl. rewrite Hl. cbn [rbind]. rewrite Hd. exact H.
Qed.

Lemma auth_shown auth d f : Forall2 (tied_attr f) auth d -> lz_statement_types auth = Ok tt -> lz_opus_infos auth = Ok tt ->
  exists s o, show_statement d = Ok s /\ show_opus_info d = Ok o.
Proof.
  intros F H1 H2. assert (E1 : exists s, show_statement d = Ok s).
  { pose proof (statements_shown f _ _ F) as V. unfold show_statement, lz_statement_types in *.
    destruct (show_values _ d) as [v|]; [|eexists; reflexivity]. destruct V as (l & M & E). rewrite E in H1.
    destruct l as [|a [|]]; try discriminate H1. inv H1 x Hx. subst a. destruct v as [|t [|]]; cbn [map_res] in M; [discriminate M| |].
    - inv M y Hy. injection M as ->. unfold statement_of in Hy. inv Hy b Hb. injection Hy as Hy. rewrite Hb. cbn [rbind].
      inv Hy m Hm. rewrite Hm. cbn [rbind]. rewrite Hy. eexists. reflexivity.
    - inv M y Hy. inv M z Hz. injection M as -> ->. inv Hz y' Hy'. inv Hz z' Hz'. discriminate Hz. }
  assert (E2 : exists o, show_opus_info d = Ok o).
  { pose proof (infos_shown f _ _ F) as V. unfold show_opus_info, lz_opus_infos in *.
    destruct (show_values _ d) as [v|]; [|eexists; reflexivity]. destruct V as (l & M & E). rewrite E in H2.
    destruct l as [|a [|]]; try discriminate H2. inv H2 x1 Hx1. inv H2 x2 Hx2. inv H2 x3 Hx3. destruct v as [|t [|]]; cbn [map_res] in M; [discriminate M| |].
    - inv M y Hy. injection M as ->. eapply opus_shown; eassumption.
    - inv M y Hy. inv M z Hz. injection M as -> ->. inv Hz y' Hy'. inv Hz z' Hz'. discriminate Hz. }
  destruct E1 as (s & E1), E2 as (o & E2). exists s, o. auto.
Qed.

Lemma si_dicts need ex f b i auth unauth : lz_signer need ex (read_si (S (S f)) b) = Ok (i, (auth, unauth)) ->
  exists d d', show_dict (children SignerInfo b) "signed_attrs" = Ok d /\ Forall2 (tied_attr f) auth d /\
    show_dict (children SignerInfo b) "unsigned_attrs" = Ok d' /\ Forall2 (tied_attr f) unauth d' /\
    si_encoded i = encode_attributes (signed_contents b).
Proof.
  intros H. remember (S f) as f1 eqn:Ef. cbn [read_si lz_signer] in H. inv H s Hs. destruct s as [iss ser|]; [|discriminate].
  inv H issuer H1. inv H serial H2. inv H auth' H3. inv H tt1 H4. inv H unauth' H5. inv H salg' H6.
  inv H sg' H7. inv H dalg' H8. inv H alg H9. inv H md H10. inv H ct H11. inv H tt2 H12. inv H st H13.
  injection H as <- <- <-. subst f1. cbn [si_encoded].
  assert (K : forall n au, lz_attributes (let? o := read_field SignerInfo (children SignerInfo b) n items_of in
                match o with None => Ok [] | Some l => Ok (map (read_attr (S f)) l) end) = Ok au ->
              exists d, show_dict (children SignerInfo b) n = Ok d /\ Forall2 (tied_attr f) au d).
  { intros n au Q. unfold show_dict. destruct (read_field SignerInfo (children SignerInfo b) n items_of) as [[l|]|]; cbn [rbind] in *.
    - exact (attributes_shown _ _ _ Q).
    - injection Q as <-. exists []. split; [reflexivity|constructor].
    - discriminate Q. }
  destruct (K _ _ H3) as (d & E & F). destruct (K _ _ H5) as (d' & E' & F'). exists d, d'. repeat (split; [assumption|]). reflexivity.
Qed.

(** ** Content *)

Definition content_at (o c : bytes) : Prop := c = o \/ exists u rest, parse_tlv o = Ok (u, rest) /\ c = t_contents u.
Lemma spc_shown c spc : lz_spc_info (LVSpc (read_spc c)) = Ok spc -> exists s, show_spc c = Ok s.
Proof.
  intros H. cbn [lz_spc_info read_spc lp_type lp_value] in H. inv H typ Ht. clear Ht. destruct (negb _); [discriminate|]. inv H value Hv.
  unfold show_spc. destruct (read SpcIndirectDataContent (children SpcIndirectDataContent c) "data" contents_of) as [b|]; [|discriminate Hv].
  cbn [rbind] in *. unfold read_field in Hv |- *. inv Hv d Hd. rewrite Hd. cbn [rbind].
  destruct (dict_get "value" d) as [[t|]|]; [|injection Hv as <-; discriminate H..].
  destruct (dict_get "value" (seq_fields SpcAttributeTypeAndOptionalValue)) as [[x [tg p]]|]; [|injection Hv as <-; discriminate H].
  cbn [rbind] in Hv. injection Hv as <-. inv H x1 H1. inv H x2 H2. destruct (image_shown_ok _ _ _ H1 H2) as (s & ->). exists s. reflexivity.
Qed.
Lemma content_shown version encap c v spc : read_content version encap = Ok c -> lo_value c = Ok v -> lz_spc_info v = Ok spc ->
  exists o s, content_at (lo_octets c) o /\ v = LVSpc (read_spc o) /\ show_content version encap = Ok s /\ show_spc o = Ok s.
Proof.
  intros H V K. unfold read_content in H. unfold show_content. destruct (String.eqb version "v1").
  - inv H typ Ht. inv H x Hx. rewrite Hx. cbn [rbind]. destruct x as [u|]; [|injection H as <-; injection V as <-; discriminate K].
    destruct (String.eqb typ _); [|injection H as <-; injection V as <-; discriminate K].
    inv H b Hb. injection H as <-. cbn [lo_value lo_octets] in *. injection V as <-. rewrite Hb. cbn [rbind].
    destruct (spc_shown _ _ K) as (s & E). exists b, s. split; [left; reflexivity|]. split; [reflexivity|]. split; exact E.
  - inv H typ Ht. inv H x Hx. rewrite Hx. cbn [rbind]. destruct x as [b|]; [|injection H as <-; injection V as <-; discriminate K].
    injection H as <-. cbn [lo_value lo_octets] in *. inv V p Hp. destruct p as [u rest]. rewrite Hp. cbn [rbind].
    destruct (String.eqb typ _).
    + inv V o Ho. injection V as <-. change (contents_of SpcIndirectDataContent Untagged u = Ok o) in Ho. rewrite Ho. cbn [rbind]. destruct (spc_shown _ _ K) as (s & E). exists o, s.
      apply (contents_seq []) in Ho. destruct Ho as [_ ->].
      split; [right; exists u, rest; auto|]. split; [reflexivity|]. split; exact E.
    + destruct (String.eqb typ _); [inv V o Ho|]; injection V as <-; discriminate K.
Qed.
Lemma content_same o c c' s s' : content_at o c -> content_at o c' ->
  lz_spc_info (LVSpc (read_spc c)) = Ok s -> lz_spc_info (LVSpc (read_spc c')) = Ok s' -> c = c'.
Proof.
  assert (K : forall o u rest s s', parse_tlv o = Ok (u, rest) -> lz_spc_info (LVSpc (read_spc o)) = Ok s ->
              lz_spc_info (LVSpc (read_spc (t_contents u))) = Ok s' -> False).
  { clear. intros o u rest s s' P H1 H2. apply spc_first in H1. destruct H1 as (t & r & o1 & r1 & A1 & A2 & A3 & A4).
    rewrite P in A1. injection A1 as <- <-. apply spc_first in H2. destruct H2 as (t' & r' & o2 & r2 & B1 & B2 & _).
    rewrite A3 in B1. injection B1 as <- <-. congruence. }
  intros [->|(u & rest & P & ->)] [->|(u' & rest' & P' & ->)] H H'; [reflexivity| | |].
  - exfalso. eapply K; eassumption.
  - exfalso. eapply K; eassumption.
  - rewrite P in P'. injection P' as <- <-. reflexivity.
Qed.

(** ** Signed data *)

Definition tied (a : asd) (x : signer_shown * image_shown) : Prop :=
  (exists c, si_encoded (asi_info (asd_signer a)) = encode_attributes c /\ show_signed c = Ok (fst x)) /\
  (exists c spc, content_at (sd_octets (asd_data a)) c /\ lz_spc_info (LVSpc (read_spc c)) = Ok spc /\ show_spc c = Ok (snd x)).

Lemma ci_shown {A} f b m (sub : lz_sd -> res A) x : lz_sub m sub (read_ci (S f) b) = Ok x ->
  exists u c, read ContentInfo (children ContentInfo b) "content" (fun _ tg t => unwrap tg t) = Ok u /\
    contents_of SignedData Untagged u = Ok c /\ (length c < length b)%nat /\ sub (read_sd f c) = Ok x.
Proof.
  intros H. cbn [read_ci lz_sub] in H. inv H typ Ht. destruct (negb _); [discriminate|]. inv H y Hy. inv H s Hs.
  rewrite Ht in Hy. cbn [rbind] in Hy. inv Hy o Ho. destruct o as [u|]; [|injection Hy as <-; discriminate Hs].
  destruct (String.eqb typ _); [|injection Hy as <-; cbn [lz_content_info] in Hs; destruct (negb _); discriminate Hs].
  inv Hy c Hc. injection Hy as <-. injection Hs as <-. exists u, c. split; [unfold read; rewrite Ho; reflexivity|]. split; [exact Hc|].
  split; [|exact H]. apply read_field_bound in Ho. destruct Ho as (z & tg & v & Hv & Ho). apply unwrap_shorter in Ho.
  apply (contents_of_shorter SignedData Untagged) in Hc. lia.
Qed.

Lemma asd_shown pe : forall depth f b a f', lz_asd depth pe (read_sd f b) = Ok a -> (length b < f)%nat -> (length b < f')%nat ->
  exists l, show_sd f' b = Ok l /\ Forall2 tied (recursive_nested true a) l.
Proof.
  induction depth as [|dp IH]; intros f b a f' H Lf Lf'; [discriminate H|]. destruct f as [|f]; [lia|]. destruct f' as [|f']; [lia|].
  cbn [lz_asd] in H. inv H p Hp. destruct p as [sdt v]. inv H l Hl. inv H ss Hs. inv H spc Hspc. cbn [fst snd] in *.
  destruct ss as [|s [|]]; try discriminate. inv H crls Hcrl. destruct crls; [|discriminate]. injection H as <-.
  cbn [read_sd lz_signers] in Hl. inv Hl ts Hts. cbn [show_sd]. rewrite Hts. cbn [rbind].
  destruct ts as [|t [|t2 ts]]; cbn [map_res] in Hl.
  { injection Hl as <-. discriminate Hs. }
  2:{ inv Hl y1 Hy1. inv Hl y2 Hy2. injection Hl as <-. inv Hy2 y3 Hy3. inv Hy2 y4 Hy4. injection Hy2 as <-. cbn [map_res] in Hs.
      inv Hs z1 Hz1. inv Hs z2 Hz2. injection Hs as -> ->. inv Hz2 z3 Hz3. inv Hz2 z4 Hz4. discriminate Hz2. }
  inv Hl y1 Hy1. injection Hl as <-. inv Hy1 si Hsi. injection Hy1 as <-. cbn [map_res] in Hs. inv Hs z1 Hz1. injection Hs as ->.
  rewrite Hsi. cbn [rbind]. pose proof (contents_of_shorter SignerInfo Untagged _ _ Hsi) as Lsi.
  apply read_bound in Hts. destruct Hts as (y & tg & w & Hw & Hts). pose proof (items_of_shorter _ _ _ _ t Hts (or_introl eq_refl)) as Lt.
  (* the signer *)
  unfold lz_asi in Hz1. inv Hz1 q Hq. destruct q as [i [auth unauth]]. cbn [fst snd] in Hz1.
  inv Hz1 cs Hcs. inv Hz1 plain Hplain. inv Hz1 u1 H1. inv Hz1 u2 H2. inv Hz1 nested Hn.
  destruct (present _ && present _); [discriminate|]. inv Hz1 cc Hc. injection Hz1 as <-. destruct u1, u2.
  destruct f as [|[|f]]; [lia|lia|].
  destruct (si_dicts _ _ _ _ _ _ _ Hq) as (d & d' & D & F & D' & F' & En).
  destruct (auth_shown _ _ _ F H1 H2) as (st & op & Es & Eo).
  assert (Sg : exists sg, show_signer si = Ok sg). { unfold show_signer. rewrite D. cbn [rbind]. rewrite Es. cbn [rbind]. rewrite Eo. eexists. reflexivity. }
  destruct Sg as (sg & Sg). rewrite Sg. cbn [rbind]. pose proof (signer_signed _ _ Sg) as Sd.
  (* the content *)
  cbn [read_sd lz_signed_data] in Hp.
  inv Hp algs P1. inv Hp alg P2. inv Hp ct P3. inv Hp tt1 P4. inv Hp content P5. inv Hp value P6. inv Hp certs P7. inv Hp crts P8.
  injection Hp as <- <-. inv P5 ver P9. inv P5 enc P10. rewrite P9. cbn [rbind]. rewrite P10. cbn [rbind].
  destruct (content_shown _ _ _ _ _ P5 P6 Hspc) as (o & im & C1 & C2 & C3 & C4). rewrite C3. cbn [rbind].
  rewrite D'. cbn [rbind].
  (* the nested ones *)
  assert (N : exists ls, map_res (fun t0 => let? b0 := contents_of ContentInfo Untagged t0 in
                  let? u := read ContentInfo (children ContentInfo b0) "content" (fun _ tg t1 => unwrap tg t1) in
                  let? c := contents_of SignedData Untagged u in show_sd f' c)
                match show_values "microsoft_nested_signature" d' with Some l => l | None => [] end = Ok ls /\
              Forall2 tied (flat_map (recursive_nested true) nested) (concat ls)).
  { pose proof (nested_shown f _ _ F') as V. destruct (show_values "microsoft_nested_signature" d') as [vs|] eqn:Ev.
    2:{ rewrite V in Hn. injection Hn as <-. exists []. split; [reflexivity|constructor]. }
    destruct V as (cis & M & E). rewrite E in Hn. clear E.
    assert (Lv : forall z, In z vs -> (size z + 2 <= length si)%nat).
    { intros z Hz. unfold show_dict in D'. inv D' oo Hoo. destruct oo as [us|].
      2:{ injection D' as <-. discriminate Ev. }
      assert (Q : forall us dd, map_res show_attr us = Ok dd -> forall vv, show_values "microsoft_nested_signature" dd = Some vv ->
                  exists t0 typ, In t0 us /\ show_attr t0 = Ok (typ, vv)).
      { clear. induction us as [|t0 us IHu]; intros dd Hd vv Hv; cbn [map_res] in Hd; [injection Hd as <-; discriminate Hv|].
        inv Hd x Hx. inv Hd xs Hxs. injection Hd as <-. destruct x as [ty v0]. cbn [show_values] in Hv.
        destruct (show_values _ xs) as [w|] eqn:Ew.
        - injection Hv as ->. destruct (IHu _ Hxs _ Ew) as (t1 & ty1 & I1 & E1). exists t1, ty1. split; [right; exact I1|exact E1].
        - destruct (String.eqb ty _); [|discriminate Hv]. injection Hv as ->. exists t0, ty. split; [left; reflexivity|exact Hx]. }
      destruct (Q _ _ D' _ Ev) as (t0 & ty & I0 & E0). apply read_field_bound in Hoo. destruct Hoo as (y0 & tg0 & w0 & Hw0 & Hoo).
      pose proof (items_of_shorter _ _ _ _ _ Hoo I0). unfold show_attr in E0. inv E0 b0 Hb0. inv E0 ty0 Hty0. inv E0 l0 Hl0. injection E0 as -> ->.
      apply read_bound in Hl0. destruct Hl0 as (y1 & tg1 & w1 & Hw1 & Hl0). pose proof (items_of_shorter _ _ _ _ _ Hl0 Hz).
      apply contents_of_shorter in Hb0. lia. }
    clear Ev D D' F F' Hcs Hplain Hc Hq. revert cis nested M Hn Lv. induction vs as [|z vs IHv]; intros cis nested M Hn Lv; cbn [map_res] in M.
    - injection M as <-. cbn [map_res] in Hn. injection Hn as <-. exists []. split; [reflexivity|constructor].
    - inv M ci Hci. inv M cis' Hcis. injection M as <-. cbn [map_res] in Hn. inv Hn a1 Ha1. inv Hn as1 Has. injection Hn as <-.
      destruct (IHv _ _ Hcis Has ltac:(intros; apply Lv; right; assumption)) as (ls & E & Fl).
      pose proof (Lv z (or_introl eq_refl)) as Lz.
      unfold info_of in Hci. inv Hci b0 Hb0. injection Hci as <-. pose proof (contents_of_shorter _ _ _ _ Hb0) as L0.
      destruct f as [|f]; [cbn [lz_sub read_ci] in Ha1; discriminate Ha1|].
      destruct (ci_shown _ _ _ _ _ Ha1) as (u & c & R & Cc & Lc & A1).
      destruct (IH f c a1 f' A1 ltac:(lia) ltac:(lia)) as (l1 & E1 & F1).
      exists (l1 :: ls). cbn [map_res]. rewrite Hb0. cbn [rbind]. rewrite R. cbn [rbind]. rewrite Cc. cbn [rbind]. rewrite E1. cbn [rbind].
      rewrite E. split; [reflexivity|]. cbn [flat_map concat]. apply Forall2_app; assumption. }
  destruct N as (ls & N1 & N2). rewrite N1. cbn [rbind]. eexists. split; [reflexivity|]. cbn [recursive_nested]. constructor; [|exact N2].
  split.
  - exists (signed_contents si). split; [exact En|exact Sd].
  - exists o, spc. cbn [asd_data sd_octets snd]. split; [exact C1|]. split; [rewrite <- C2; exact Hspc|exact C4].
Qed.

Theorem envelope_shown depth pe b a : lz_from_envelope der_loader depth pe b = Ok a ->
  exists l, show_envelope b = Ok l /\ Forall2 tied (recursive_nested true a) l.
Proof.
  intros H. unfold lz_from_envelope in H. inv H c Hc. unfold der_loader in Hc. inv Hc p Hp. destruct p as [t rest].
  inv Hc c0 Hc0. injection Hc as <-. pose proof (parse_tlv_shorter _ _ _ Hp) as L1. pose proof (contents_of_shorter _ _ _ _ Hc0) as L2.
  destruct (length b) as [|n] eqn:Lb; [lia|].
  assert (Q : lz_sub "" (lz_asd depth pe) (read_ci (S n) c0) = Ok a).
  { destruct (read_ci (S n) c0) as [ct content]. cbn [lz_sub]. inv H ty Hty. rewrite Hty. cbn [rbind].
    destruct (String.eqb ty "signed_data"); cbn [negb rbind] in *; [exact H|discriminate H]. }
  destruct (ci_shown _ _ _ _ _ Q) as (u & s & R & Cs & Ls & A). unfold show_envelope. rewrite Hp. cbn [rbind]. rewrite Hc0. cbn [rbind].
  rewrite R. cbn [rbind]. rewrite Cs. cbn [rbind]. rewrite Lb. apply (asd_shown _ _ _ _ _ _ A); lia.
Qed.

(** The same signed octets, the same content: the same is shown. *)
Lemma tied_signer a x a' x' : tied a x -> tied a' x' ->
  si_encoded (asi_info (asd_signer a)) = si_encoded (asi_info (asd_signer a')) -> fst x = fst x'.
Proof.
  intros ((c & E & S) & _) ((c' & E' & S') & _) H. rewrite E, E' in H. apply ProofsPkcs7.encode_injective in H. subst c'. congruence.
Qed.
Lemma tied_image a x a' x' : tied a x -> tied a' x' -> sd_octets (asd_data a) = sd_octets (asd_data a') -> snd x = snd x'.
Proof.
  intros (_ & (c & spc & C & K & S)) (_ & (c' & spc' & C' & K' & S')) H. rewrite <- H in C'.
  rewrite (content_same _ _ _ _ _ C C' K K') in S. congruence.
Qed.
