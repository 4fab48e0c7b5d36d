(** Proofs about verification without arguments; statements in PropertiesDefault.v. *)
From Verif Require Import Base Monad ModelFile ModelPE ModelX509 SpecX509 ModelContext SpecContext ModelPkcs7 ModelLazy ModelCtl ModelAuthenticode ModelLazyFile ModelDer ModelDecode ModelStl ModelPem
  ModelDefault SpecCtl SpecAuthenticode SpecSignedPE SpecDer SpecPem SpecEvidence SpecTrustList SpecDefault
  ProofsLazy ProofsLazy2 ProofsLazy3 ProofsEvidence ProofsTrustList.
From Verif Require ProofsSignedPE3.

Lemma stated a t : possible_time default_args a t -> stated_time a t.
Proof. intros [H|(c & [H _] & T)]; [left; exact H|right; exists c; split; assumption]. Qed.

(** A strict countersignature holds. *)
Lemma strict_counter E depth fuel mode ign v w out ts :
  lz_verify_result der_loader E depth fuel mode None ign v w = Ok out ->
  va_context v = None -> va_cs_context v = None -> nth_error (w_stores w) (va_trusted v) = Some ts -> va_mode v = "strict" ->
  forall a chains c cy ly, In (a, chains) out -> asi_cs (asd_signer a) = Some c -> counter_context w a c v cy ly -> counter_holds E a c cy ly.
Proof.
  intros H V1 V2 Hts M a chains c cy ly I Hc Cy. unfold lz_verify_result in H.
  rewrite <- (agree_verify der_loader (complete der_loader depth true) depth (complete_spec der_loader depth true)) in H.
  destruct (pe_open_verify (complete der_loader depth true) E depth fuel mode None ign v w) as [[w' d'] q] eqn:O. cbn [snd] in H. subst q.
  destruct (ProofsSignedPE3.c55 _ _ _ _ _ _ _ _ _ _ _ _ O V1 V2 Hts) as (_ & es & tail & _ & F).
  rewrite Forall_forall in F. specialize (F _ I). cbn [sound_pair] in F. destruct F as (_ & _ & _ & _ & _ & F). exact (F M c cy ly Hc Cy).
Qed.

(** A chain that is accepted with the default store and others that are not trusted. *)
Lemma accepted_default E octets t alg cs r files i time usage stores ships (hand : cert -> Prop) :
  der_from_stl_file octets = Ok t -> encoded_list octets alg cs r ->
  (forall x, in_directory files x -> hand x) -> (forall d x, In d ships -> In x (sd_certificates d) -> hand x) ->
  signer_accepted E i (at_time time (default_context stores usage default_kwargs))
    (mkStore [] true (Some (tl_ctl t)) (Some (location_of files)) false :: map shipped ships) ->
  exists chain, default_chain E files r hand (eq time) usage i chain.
Proof.
  intros Ht L Hd Hs (chain & c & cx & Ic & Nm & Sg & Ev & Ti & Va & Inc & (s & Is & Tr & (root & rest & d & Ec & Id & Eq) & Ctl) & _).
  set (ts := mkStore [] true (Some (tl_ctl t)) (Some (location_of files)) false) in *.
  assert (Co : forall x, In x (contents ts) -> in_directory files x) by (intros x Hx; apply directory_certs; exact Hx).
  assert (Sh : forall x, In x (concat (map contents (map shipped ships))) -> hand x).
  { intros x Hx. apply in_concat in Hx as (l & Hl & Hx). apply in_map_iff in Hl as (s' & <- & Hs'). apply in_map_iff in Hs' as (d' & <- & Hd').
    exact (Hs d' x Hd' Hx). }
  assert (Al : forall x, In x (concat (map contents (ts :: map shipped ships))) -> hand x).
  { intros x Hx. cbn [map concat] in Hx. apply in_app_or in Hx as [Hx|Hx]; [apply Hd, Co; exact Hx|apply Sh; exact Hx]. }
  assert (F1 : filter (fun s => s_trusted s) (map shipped ships) = []) by (clear; induction ships; [reflexivity|assumption]).
  assert (F2 : filter (fun s => negb (s_trusted s)) (map shipped ships) = map shipped ships).
  { clear. induction ships as [|x l IH]; [reflexivity|]. cbn [map filter shipped s_trusted negb]. rewrite IH. reflexivity. }
  assert (S : s = ts).
  { destruct Is as [<-|Is]; [reflexivity|]. apply in_map_iff in Is as (d' & <- & _). discriminate Tr. }
  subst s. destruct Ev as (_ & E1 & E2 & E3 & E4 & _).
  cbn [at_time default_context default_kwargs kw_timestamp kw_key_usages kw_optional_eku kw_opts x_optional_eku x_opts x_key_usages x_ekus x_timestamp option_map] in E1, E2, E3, E4, Ti, Sg.
  assert (E5 : asked_usages cx = [usage]) by (unfold asked_usages; destruct E4 as [->| ->]; reflexivity).
  assert (E6 : usage_list (x_key_usages cx) = []) by (destruct E3 as [->| ->]; reflexivity).
  assert (E7 : left_usages cx = [usage]) by (unfold left_usages; destruct E4 as [->| ->]; reflexivity).
  specialize (Ctl _ eq_refl). rewrite E7 in Ctl. unfold asked_time in Ctl. rewrite Ti in Ctl.
  destruct (accepts_allows _ _ _ _ _ _ _ (list_parsed _ _ _ _ _ L Ht) Ctl) as (_ & root' & rest' & e & Q & Le & Aw).
  rewrite Ec in Q. injection Q as <- <-.
  rewrite E1, E2, E5, E6, Ti in Va. unfold roots, intermediates in Va.
  cbn [filter] in Va. change (s_trusted ts) with true in Va. cbn [negb] in Va. rewrite F1, F2 in Va. cbn [map concat] in Va. rewrite app_nil_r in Va.
  exists chain, c. eexists _, _, time, root, rest, d, e, time.
  split; [apply Al; exact Ic|]. split; [exact Nm|]. split; [exact Sg|].
  split; [|split; [|split; [reflexivity|split; [exact Va|]]]].
  - apply Forall_forall. intros x Hx. apply Co. exact Hx.
  - apply Forall_forall. intros x Hx. apply Sh. exact Hx.
  - split; [exact Ec|]. split. { apply Forall_forall. intros x Hx. destruct (Inc x Hx) as [->|Hx']; apply Al; assumption. }
    split; [apply Co; exact Id|]. split; [exact Eq|]. split; [exact Le|]. split; [reflexivity|exact Aw].
Qed.

Lemma default_sound E depth fuel stl files f out :
  default_verify E depth fuel stl files f = Ok out ->
  out <> [] /\ exists octets t, stl = Ok octets /\ der_from_stl_file octets = Ok t /\
  forall alg cs r, encoded_list octets alg cs r ->
  In (alg_name (rl_algorithm r)) ["sha1"; "sha256"] /\
  forall a chains, In (a, chains) out -> default_evidence E (f_bytes f) files r a chains.
Proof.
  unfold default_verify, default_store. intros H. destruct stl as [octets|]; [|discriminate H]. cbn [rbind] in H.
  destruct (der_from_stl_file octets) as [t|] eqn:Ht; [|discriminate H]. cbn [rbind] in H.
  match type of H with snd (_ _ _ _ _ _ _ _ _ ?w) = _ => set (w0 := w) in H end.
  change (lz_verify_result der_loader E depth fuel "any" None true default_args w0 = Ok out) in H.
  destruct (verified_evidence _ _ _ _ _ _ _ _ _ _ H eq_refl eq_refl eq_refl eq_refl eq_refl) as (_ & Ne & K).
  split; [exact Ne|]. exists octets, t. split; [reflexivity|]. split; [exact Ht|]. intros alg cs r L.
  destruct (listed_evidence _ _ _ _ _ _ _ _ _ _ _ _ _ _ _ H eq_refl eq_refl eq_refl eq_refl eq_refl Ht eq_refl L) as (I & Q).
  split; [exact I|]. intros a chains Ia. destruct (Q a chains Ia) as ((E1 & E2 & E3 & E4 & E5 & E6) & F).
  split; [exact E1|]. split; [exact E2|]. split; [exact E3|]. split; [exact E4|]. split; [exact E5|]. split.
  2:{ intros c Hc.
    assert (Cy : exists cy ships, counter_context w0 a c default_args cy (mkStore [] true (Some (tl_ctl t)) (Some (location_of files)) false :: map shipped ships) /\
        (exists stores, cy = default_context stores "time_stamping" default_kwargs) /\
        (forall d x, In d ships -> In x (sd_certificates d) -> counter_hand files a c x)).
    { destruct c as [i|k].
      - eexists _, [asd_data a]. split; [eexists; split; [reflexivity|split; reflexivity]|]. split; [eexists; reflexivity|].
        intros d x [<-|[]] Hx. left. left. exact Hx.
      - eexists _, [asd_data a; r_data k]. split; [eexists; split; [reflexivity|split; reflexivity]|]. split; [eexists; reflexivity|].
        intros d x [<-|[<-|[]]] Hx; [left; left; exact Hx|right; exists k; split; [reflexivity|exact Hx]]. }
    destruct Cy as (cy & ships & Cy & (stores & ->) & Hs).
    destruct (strict_counter _ _ _ _ _ _ _ _ _ H eq_refl eq_refl eq_refl eq_refl a chains c _ _ Ia Hc Cy) as (Cv & Ac & Tm).
    split; [exact Cv|]. split; [exact Tm|].
    refine (accepted_default _ _ _ _ _ _ _ _ _ _ _ _ _ Ht L _ Hs Ac). intros x Hx. left. right. exact Hx. }
  clear - E6 F. induction E6 as [|chain chains C _ IH]; [constructor|]. inversion F as [|x l X F']; subst. constructor; [|exact (IH F')].
  destruct X as (root & rest & e & listed & -> & Le & Pl & Al).
  destruct C as (c & an & ot & ti & C1 & C2 & C3 & C4 & C5 & C6 & C7 & C8 & (root' & rest' & d & Er & C9 & C10) & _).
  injection Er as <- <-. exists c, an, ot, ti, root, rest, d, e, listed.
  split; [exact C1|]. split; [exact C2|]. split; [exact C3|]. split; [exact C4|]. split; [exact C5|]. split; [exact (stated _ _ C6)|].
  split; [exact C7|]. split; [reflexivity|]. split; [exact C8|]. split; [exact C9|]. split; [exact C10|]. split; [exact Le|].
  split; [exact (stated _ _ Pl)|exact Al].
Qed.

Lemma default_means E depth fuel stl files f out :
  default_verify E depth fuel stl files f = Ok out ->
  out <> [] /\ exists octets, stl = Ok octets /\ (exists alg cs r, encoded_list octets alg cs r) /\
  forall alg cs r, encoded_list octets alg cs r ->
  In (alg_name (rl_algorithm r)) ["sha1"; "sha256"] /\
  forall a chains, In (a, chains) out -> default_evidence E (f_bytes f) files r a chains.
Proof.
  intros H. destruct (default_sound _ _ _ _ _ _ _ H) as (Ne & octets & t & Hs & Ht & K). split; [exact Ne|].
  exists octets. split; [exact Hs|]. split; [exact (read_back _ _ _ Ht)|exact K].
Qed.

Lemma default_imports stl files :
  (exists s, default_store stl files = Ok s) <->
  exists octets alg cs r, stl = Ok octets /\ encoded_list octets alg cs r /\
    (forall n, In n [alg; rl_algorithm r] ->
       In (alg_name n) ["md5"; "sha1"; "sha256"; "sha384"; "sha512"] /\ alg_has_params n = false) /\
    Forall (fun e => Forall well_formed (rs_attributes e)) (rl_subjects r).
Proof.
  unfold default_store. split.
  - intros [s H]. destruct stl as [octets|]; [|discriminate H]. cbn [rbind] in H.
    destruct (der_from_stl_file octets) as [t|] eqn:Ht; [|discriminate H].
    destruct (proj1 (list_exact octets) (ex_intro _ t Ht)) as (alg & cs & r & L & G). exists octets, alg, cs, r. auto.
  - intros (octets & alg & cs & r & -> & L & G). destruct (proj2 (list_exact octets)) as [t Ht]; [exists alg, cs, r; auto|].
    cbn [rbind]. rewrite Ht. eexists. reflexivity.
Qed.

Lemma default_nothing E depth fuel octets alg cs r files f :
  encoded_list octets alg cs r -> rl_subjects r = [] \/ (forall c, ~ in_directory files c) ->
  exists e, default_verify E depth fuel (Ok octets) files f = Err e.
Proof.
  intros L N. destruct (default_verify E depth fuel (Ok octets) files f) as [out|e] eqn:H; [|exists e; reflexivity]. exfalso.
  destruct (default_means _ _ _ _ _ _ _ H) as (Ne & o & Q & _ & K). injection Q as <-. destruct (K _ _ _ L) as [_ K'].
  destruct out as [|[a chains] out]; [congruence|]. destruct (K' a chains (or_introl eq_refl)) as (_ & _ & _ & _ & Nc & F & _).
  destruct F as [|chain l C _]; [congruence|].
  destruct C as (c & an & ot & ti & root & rest & d & e & li & _ & _ & _ & _ & _ & _ & _ & _ & _ & D & _ & Le & _).
  destruct N as [N|N]; [|exact (N d D)]. rewrite N in Le. destruct Le as (pre & post & Q & _). destruct pre; discriminate Q.
Qed.

From Verif Require Import SpecFrame SpecWhole SpecExact SpecOctets SpecSigned ProofsSigned.

Lemma default_exact E octets t files f : lawful E -> der_from_stl_file octets = Ok t ->
  (forall l a, signed_octets true (f_bytes f) l -> In a l -> tidy (documented_world (tl_ctl t) files f) documented_args a) ->
  forall out,
  (exists depth N, forall fuel, (N <= fuel)%nat -> default_verify E depth fuel (Ok octets) files f = Ok out) <->
  exists pre a post chains, signed_octets true (f_bytes f) (pre ++ a :: post) /\ out = [(a, chains)] /\
    authentic_for E (documented_world (tl_ctl t) files f) documented_args None a chains /\
    forall b, In b pre -> forall chains, ~ authentic_for E (documented_world (tl_ctl t) files f) documented_args None b chains.
Proof.
  intros La Ht Ti out.
  assert (Q : forall depth fuel, default_verify E depth fuel (Ok octets) files f
    = lz_verify_result der_loader E depth fuel "any" None true documented_args (documented_world (tl_ctl t) files f)).
  { intros depth fuel. unfold default_verify, default_store. cbn [rbind]. rewrite Ht. reflexivity. }
  assert (Nc : ~ conjunctive "any") by (intros [X|X]; discriminate X).
  assert (C := c87_exact E "any" None true documented_args (documented_world (tl_ctl t) files f) La).
  destruct (fun H => C H out) as [C1 C2].
  { intros l S. split; [split; discriminate|]. intros a I. exact (Ti l a S I). }
  split.
  - intros (depth & N & H). destruct C1 as (l & S & _ & sel & (_ & _ & Ch) & _ & K).
    { exists depth, N. intros fuel Le. rewrite <- Q. exact (H fuel Le). }
    rewrite (Ch ltac:(discriminate) ltac:(discriminate)) in K.
    destruct (K Nc) as (pre & a & post & chains & -> & O & A & B). exists pre, a, post, chains. auto.
  - intros (pre & a & post & chains & S & O & A & B).
    destruct C2 as (depth & N & H).
    { exists (pre ++ a :: post). split; [exact S|]. split; [intros d k h X; discriminate X|]. exists (pre ++ a :: post).
      split; [split; [discriminate|split; [discriminate|reflexivity]]|]. split; [intros X; contradiction (Nc X)|].
      intros _. exists pre, a, post, chains. auto. }
    exists depth, N. intros fuel Le. rewrite Q. exact (H fuel Le).
Qed.
