From Verif Require Import Base Bytes Monad ModelFile ModelFingerprint ModelPE SpecPE ModelX509 SpecX509
  ModelContext SpecContext ProofsCTL ProofsContext ProofsContext2 ModelPkcs7 ModelAuthenticode SpecAuthenticode
  ProofsSigner ProofsSigner2 ProofsVerify ProofsVerify2 ProofsVerify3 ProofsVerify4 SpecNaive.

Lemma zoneless_fails E r t o c i : needs_zone E -> zoneless t -> exists m, e_mk_validation E r t o c i = raise ValueError m.
Proof. intros Z (us & ->). apply Z. Qed.

Lemma context_zoneless E x c w cx l :
  needs_zone E -> nth_error (w_contexts w) x = Some cx -> refs w (x_stores cx) l -> Forall readable l ->
  zoneless (x_timestamp cx) -> exists m, snd (context_verify E x c w) = raise ValueError m.
Proof.
  intros Z Hc Hr R N. destruct (context_verify_pure E x c w cx l Hc Hr R) as (w' & _ & ->).
  unfold p_verify. destruct (zoneless_fails E (roots l) _ (x_opts cx) c (intermediates l) Z N) as (m & ->). exists m. reflexivity.
Qed.

Lemma context_never E x c w cx l chain :
  needs_zone E -> nth_error (w_contexts w) x = Some cx -> refs w (x_stores cx) l ->
  zoneless (x_timestamp cx) -> snd (context_verify E x c w) <> Ok chain.
Proof.
  intros Z Hc Hr N H. destruct (context_verify E x c w) as [w' r] eqn:V. cbn [snd] in H. subst r.
  pose proof (context_verify_setup E x c w w' chain cx l Hc Hr V) as S.
  destruct (zoneless_fails E (roots l) _ (x_opts cx) c (intermediates l) Z N) as (m & M).
  rewrite M in S. discriminate S.
Qed.

Lemma signed_zone E i cx l T chain :
  needs_zone E -> signed_chain E i cx l T chain -> signed_chain E i cx l (fun c t => T c t /\ ~ zoneless t) chain.
Proof.
  intros Z (c & cx' & H1 & H2 & H3 & H4 & H5 & H6). exists c, cx'.
  repeat split; try assumption; try apply H2; try apply H4; try apply H6.
  intros N. destruct H6 as (_ & _ & _ & M).
  destruct (zoneless_fails E (roots l) _ (x_opts cx') c (intermediates l) Z N) as (m & M'). rewrite M' in M. discriminate M.
Qed.

Lemma counter_zone E a c cy l : needs_zone E -> zoneless (counter_stated_time c) -> ~ counter_holds E a c cy l.
Proof.
  intros Z N (_ & (chain & H) & _). apply (signed_zone _ _ _ _ _ _ Z) in H.
  destruct H as (d & cx' & _ & _ & _ & _ & (T & K) & _). apply K. rewrite T. exact N.
Qed.

Theorem c78_chains E fuel a expected v w w' chains cx l :
  needs_zone E -> asd_verify E fuel a expected v w = (w', Ok chains) -> signer_context w a v cx l ->
  distinct_contexts v -> (forall c, considered a v c -> exists cy ly, counter_context w a c v cy ly) ->
  Forall (signed_chain E (asi_info (asd_signer a)) cx l (fun _ t => ~ zoneless t)) chains.
Proof.
  intros Z H S D Hcc. destruct (asd_time _ _ _ _ _ _ _ _ _ _ H S D Hcc) as (st & _ & F & _).
  eapply Forall_impl; [|exact F]. cbn beta. intros chain G. apply (signed_zone _ _ _ _ _ _ Z) in G.
  revert G. apply signed_chain_mono. now intros c t [_ K].
Qed.

Theorem c78_counter E fuel a expected v w w' chains cx l c cy ly :
  needs_zone E -> asd_verify E fuel a expected v w = (w', Ok chains) -> signer_context w a v cx l ->
  distinct_contexts v -> considered a v c -> counter_context w a c v cy ly ->
  zoneless (counter_stated_time c) ->
  va_mode v <> "strict" /\
  (exists e, snd (asd_verify E fuel a expected (with_mode "strict" v) w) = Err e /\
             e_class e = AuthenticodeCounterSignerError) /\
  Forall (signed_chain E (asi_info (asd_signer a)) cx l (fun _ t => t = x_timestamp cx)) chains.
Proof.
  intros Z H S D K C N.
  destruct (c31_some _ _ _ _ _ _ _ _ _ _ _ _ _ H S D K C) as [[Ch _]|G]; [|exact G].
  elim (counter_zone _ _ _ _ _ Z N Ch).
Qed.

Theorem c78_permit E fuel a expected v w c cx l cy ly :
  needs_zone E -> permissive (va_mode v) -> asi_cs (asd_signer a) = Some c -> zoneless (counter_stated_time c) ->
  distinct_contexts v -> kwargs_ok a v ->
  signer_context w a v cx l -> counter_context w a c v cy ly -> Forall readable l -> Forall readable ly ->
  snd (asd_verify E fuel a expected v w) = snd (asd_verify E fuel (with_cs None a) expected v w) \/
  exists e, snd (asd_verify E fuel a expected v w) = Err e /\ issubclass (e_class e) Exception_ = false.
Proof.
  intros Z M Hc N D Kw S C R Ry.
  exact (proj1 (c29_fail E fuel a expected v w c cx l cy ly M Hc D Kw S C R Ry) (counter_zone _ _ _ _ _ Z N)).
Qed.
