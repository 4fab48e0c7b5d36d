(** Proofs that what is verified has its evidence in octets; statements in PropertiesEvidence.v. *)
From Verif Require Import Base Monad ModelFile ModelPE SpecPE SpecFingerprint ModelX509 SpecX509 ModelContext SpecContext ModelPkcs7 ModelLazy ModelAuthenticode ModelLazyFile
  ModelDer ModelDecode ModelPem SpecAuthenticode SpecSignedPE SpecDer SpecPem SpecRead SpecEnvelope SpecOctets SpecAccepted SpecSigned SpecEvidence
  ProofsLazy ProofsLazy2 ProofsLazy3 ProofsPem ProofsAccepted4 ProofsAccepted5 ProofsOctets ProofsSigned.
From Verif Require ProofsSignedPE2 ProofsSignedPE3.

Lemma directory_certs files : forall c, In c (location_certs (location_of files)) -> in_directory files c.
Proof.
  induction files as [|f files IH]; intros c I; [destruct I|].
  assert (M : forall c, in_directory files c -> in_directory (f :: files) c).
  { intros x (t & ls & d & It & R). exists t, ls, d. split; [right; exact It|exact R]. }
  destruct f as [t|e]; cbn [location_of map location_certs] in I.
  - destruct (from_pems t) as [cs x] eqn:P. fold (location_of files) in I.
    assert (D : In c cs \/ In c (location_certs (location_of files))).
    { destruct x; [left; exact I|]. apply in_app_or in I. exact I. }
    destruct D as [D|D]; [|apply M, IH; exact D].
    destruct (text_exists t) as (ls & T). destruct (from_pems_blocks ls t cs x c T P D) as (d & B & R).
    exists t, ls, d. split; [left; reflexivity|]. split; [exact T|]. split; [exact B|].
    apply certificate_iff in R as (u & v & H1 & H2 & H3 & _ & H4). exists u, v. auto.
  - destruct I.
Qed.

Lemma found_in_file f es tail i e top l a :
  terminates_with (fun k => cert_table k f) (es, tail) -> nth_error es i = Some e -> ce_revision e = 0x200 -> ce_type e = 2 ->
  encoded_signature true (ce_certificate e) top -> unfolds top l -> In a l -> in_file (f_bytes f) a.
Proof.
  intros T N R Y S U I.
  assert (D : (exists addr lim, table_at (f_bytes f) addr lim) \/ forall addr lim, ~ table_at (f_bytes f) addr lim).
  { destruct (snd (omit_sections f)) as [[d|]|x] eqn:O.
    - destruct (dict_get "certtable" d) as [s|] eqn:G.
      + left. exists (rel_start s), (rel_start s + rel_length s). apply table_at_secs. exists d, s. auto.
      + right. intros addr lim H. apply table_at_secs in H as (d' & s & O' & G' & _). rewrite O in O'. injection O' as <-. rewrite G in G'. discriminate G'.
    - right. intros addr lim H. apply table_at_secs in H as (d' & s & O' & _). rewrite O in O'. discriminate O'.
    - right. intros addr lim H. apply table_at_secs in H as (d' & s & O' & _). rewrite O in O'. discriminate O'. }
  destruct D as [(addr & lim & H)|H].
  - destruct (table_walk _ _ _ H) as (es' & x & last & T' & W & _). pose proof (terminates_unique _ _ _ T T') as Q. injection Q as <- <-.
    exists addr, lim, es, last, e, top, l. split; [exact H|]. split; [exact W|]. split; [eapply nth_error_In; exact N|].
    split; [exact R|]. split; [exact Y|]. split; [exact S|]. split; [exact U|exact I].
  - destruct (no_table_walk _ H) as (x & _ & T'). pose proof (terminates_unique _ _ _ T T') as Q. injection Q as -> _.
    destruct i; discriminate N.
Qed.

Theorem verified_evidence E depth fuel mode ign v w out ts files :
  lz_verify_result der_loader E depth fuel mode None ign v w = Ok out ->
  va_context v = None -> va_cs_context v = None -> nth_error (w_stores w) (va_trusted v) = Some ts ->
  s_items ts = [] -> s_location ts = Some (location_of files) ->
  s_trusted ts = true /\ out <> [] /\
  forall a chains, In (a, chains) out -> evidence E (f_bytes (w_file w)) v files (s_ctl ts) a chains.
Proof.
  intros H V1 V2 Hts It Lo.
  assert (Co : forall c, In c (contents ts) -> in_directory files c).
  { intros c. unfold contents. rewrite Lo, It. destruct (s_loaded ts); [intros []|]. apply directory_certs. }
  unfold lz_verify_result in H.
  rewrite <- (agree_verify der_loader (complete der_loader depth true) depth (complete_spec der_loader depth true)) in H.
  destruct (pe_open_verify (complete der_loader depth true) E depth fuel mode None ign v w) as [[w' d'] r] eqn:O. cbn [snd] in H. subst r.
  destruct (ProofsSignedPE3.c55 _ _ _ _ _ _ _ _ _ _ _ _ O V1 V2 Hts) as (Ne & es & tail & T & F). clear O.
  assert (K : forall a chains, In (a, chains) out -> evidence E (f_bytes (w_file w)) v files (s_ctl ts) a chains /\ s_trusted ts = true).
  { intros a chains I. rewrite Forall_forall in F. specialize (F _ I). cbn [sound_pair] in F.
    destruct F as ((i & q & e & N & R & Y & P) & A1 & A2 & A3 & (Nc & G) & _).
    cbn [in_table] in P. rewrite N, Y in P. cbn [Z.eqb Pos.eqb] in P.
    destruct (from_envelope (complete der_loader depth true) depth true (ce_certificate e)) as [top|] eqn:Fe; [|discriminate P].
    rewrite complete_spec in Fe. apply envelope_back in Fe.
    pose proof (ProofsSignedPE2.at_path_recursive _ _ _ P) as Ia.
    assert (Tr : s_trusted ts = true).
    { destruct chains as [|ch chs]; [congruence|]. inversion G as [|x y (_ & t & _ & S & _) _]; subst. exact S. }
    split; [|exact Tr]. split.
    { exact (found_in_file _ _ _ _ _ _ _ _ T N R Y Fe (unfolds_of top) Ia). }
    split; [exact A1|]. split; [exact A2|]. split; [exact A3|]. split; [exact Nc|].
    eapply Forall_impl; [|exact G]. clear G. intros chain (Sc & t & Tt & _ & (root & rest & d & Ec & Id & Eq) & Ctl).
    destruct Sc as (c & cx & Ic & Nm & Sg & Ev & Ti & Va & Inc & _ & _).
    assert (L : forall x, In x (concat (map contents [ts; shipped (asd_data a)])) -> at_hand files a x).
    { intros x Hx. cbn [map concat] in Hx. apply in_app_or in Hx as [Hx|Hx]; [right; apply Co; exact Hx|left].
      rewrite app_nil_r in Hx. exact Hx. }
    destruct Ev as (_ & E1 & E2 & E3 & E4 & _). cbn [default_context x_optional_eku x_opts x_key_usages x_ekus x_timestamp] in E1, E2, E3, E4, Ti.
    assert (E5 : asked_usages cx = ["code_signing"]).
    { unfold asked_usages. destruct E4 as [->| ->]; reflexivity. }
    assert (E6 : usage_list (x_key_usages cx) = match kw_key_usages (va_kwargs v) with Some l => l | None => [] end).
    { destruct E3 as [->| ->]; destruct (kw_key_usages (va_kwargs v)); reflexivity. }
    rewrite E1, E2, E5, E6 in Va.
    exists c. eexists _, _, _.
    split; [apply L; exact Ic|]. split; [exact Nm|]. split; [exact Sg|].
    assert (Ro : roots [ts; shipped (asd_data a)] = contents ts).
    { unfold roots. cbn [filter]. rewrite Tr. cbn [shipped s_trusted map concat]. apply app_nil_r. }
    rewrite Ro in Va. split; [|split; [|split; [exact Ti|split; [exact Va|]]]].
    - apply Forall_forall. intros x Hx. apply Co. exact Hx.
    - apply Forall_forall. intros x Hx. apply L. unfold intermediates in Hx. cbn [filter] in Hx. rewrite Tr in Hx.
      cbn [negb shipped s_trusted map concat] in Hx. cbn [map concat]. apply in_or_app. right. exact Hx.
    - split; [|split].
      + apply Forall_forall. intros x Hx. destruct (Inc x Hx) as [->|Hx']; apply L; assumption.
      + exists root, rest, d. split; [exact Ec|]. split; [apply Co; exact Id|exact Eq].
      + intros tl Htl. exists t. split; [exact Tt|apply Ctl; exact Htl]. }
  split; [|split; [exact Ne|intros a chains I; apply K; exact I]].
  destruct out as [|[a chains] out]; [congruence|]. apply (K a chains). left. reflexivity.
Qed.

Theorem no_evidence E depth fuel mode ign v w ts files :
  va_context v = None -> va_cs_context v = None -> nth_error (w_stores w) (va_trusted v) = Some ts ->
  s_items ts = [] -> s_location ts = Some (location_of files) ->
  (forall c, ~ in_directory files c) ->
  exists e, lz_verify_result der_loader E depth fuel mode None ign v w = Err e.
Proof.
  intros V1 V2 Hts It Lo N.
  destruct (lz_verify_result der_loader E depth fuel mode None ign v w) as [out|e] eqn:R; [|exists e; reflexivity]. exfalso.
  destruct (verified_evidence _ _ _ _ _ _ _ _ _ _ R V1 V2 Hts It Lo) as (_ & Ne & K).
  destruct out as [|[a chains] out]; [congruence|]. destruct (K a chains (or_introl eq_refl)) as (_ & _ & _ & _ & Nc & F).
  destruct F as [|chain chains (c & an & ot & ti & _ & _ & _ & _ & _ & _ & _ & _ & (root & rest & d & _ & D & _) & _) _]; [congruence|].
  exact (N d D).
Qed.
