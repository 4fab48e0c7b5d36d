(** What a verification reads of the file: the certificate table and the hashed parts. *)
From Verif Require Import Base Bytes Monad ModelFile ModelFingerprint ModelPE SpecFingerprint SpecPE
  ModelX509 SpecX509 ProofsFingerprint ProofsPE ProofsPE2 ProofsPE3 ModelContext SpecContext ProofsContext ProofsContext2
  ModelPkcs7 ModelAuthenticode SpecPkcs7 SpecAuthenticode ProofsSigner ProofsSigner2 ProofsVerify ProofsVerify2 ProofsVerify3
  ProofsVerify5 SpecSignedPE ProofsSignedPE ProofsSignedPE2 ProofsSignedPE3 SpecWhole.

(** *** With a given hash the file is not read *)

Definition same_state (w w' : world) : Prop := w_stores w = w_stores w' /\ w_contexts w = w_contexts w'.
Definition blind {A} (m : M world A) : Prop :=
  forall w w', same_state w w' -> same_state (fst (m w)) (fst (m w')) /\ snd (m w) = snd (m w').

Lemma blind_res {A} (r : res A) : blind (mres r).
Proof. intros w w' H. now split. Qed.
Lemma blind_ret {A} (a : A) : blind (mret a).
Proof. apply (blind_res (Ok a)). Qed.
Lemma blind_err {A} e : blind (@merr world A e).
Proof. apply (blind_res (Err e)). Qed.
Lemma blind_raise {A} k s : blind (@mraise world A k s).
Proof. apply (blind_res (raise k s)). Qed.
Lemma blind_match {A B} (m : M world A) (k : A -> M world B) (h : exn -> M world B) :
  blind m -> (forall a, blind (k a)) -> (forall e, blind (h e)) ->
  blind (fun w => match m w with (w', Ok a) => k a w' | (w', Err e) => h e w' end).
Proof.
  intros Hm Hk Hh w w' H. destruct (Hm w w' H) as [H1 H2].
  destruct (m w) as [v r], (m w') as [v' r']. cbn [fst snd] in *. subst r'.
  destruct r; [now apply Hk|now apply Hh].
Qed.
Lemma blind_bind {A B} (m : M world A) (k : A -> M world B) :
  blind m -> (forall a, blind (k a)) -> blind (mbind m k).
Proof. intros Hm Hk. apply (blind_match m k (fun e => merr e) Hm Hk). intros. apply blind_err. Qed.
Lemma blind_try {A} (m : M world A) p h : blind m -> (forall e, blind (h e)) -> blind (mtry m p h).
Proof.
  intros Hm Hh.
  apply (blind_match m (fun a => mret a) (fun e w => if p e then h e w else (w, Err e)) Hm (blind_ret)).
  intros e. destruct (p e); [apply Hh|apply (blind_err e)].
Qed.
Lemma blind_get_store r : blind (get_store r).
Proof. intros w w' [H1 H2]. unfold get_store. rewrite H1. destruct (nth_error _ _); now repeat split. Qed.
Lemma blind_get_context r : blind (get_context r).
Proof. intros w w' [H1 H2]. unfold get_context. rewrite H2. destruct (nth_error _ _); now repeat split. Qed.
Lemma blind_put_store r s : blind (put_store r s).
Proof. intros w w' [H1 H2]. cbn. unfold same_state. cbn. now rewrite H1, H2. Qed.
Lemma blind_put_context r s : blind (put_context r s).
Proof. intros w w' [H1 H2]. cbn. unfold same_state. cbn. now rewrite H1, H2. Qed.
Lemma blind_alloc_store s : blind (alloc_store s).
Proof. intros w w' [H1 H2]. cbn. unfold same_state. cbn. now rewrite H1, H2. Qed.
Lemma blind_alloc_context s : blind (alloc_context s).
Proof. intros w w' [H1 H2]. cbn. unfold same_state. cbn. now rewrite H1, H2. Qed.

Create HintDb blind.
#[local] Hint Resolve blind_res blind_ret blind_err blind_raise blind_get_store blind_get_context blind_put_store blind_put_context
  blind_alloc_store blind_alloc_context : blind.
Ltac bl :=
  repeat (cbv zeta; lazymatch goal with
    | |- blind (mbind _ _) => apply blind_bind
    | |- blind (mtry _ _ _) => apply blind_try
    | |- blind (match ?x with _ => _ end) => destruct x
    | |- blind _ => solve [auto with blind]
    | |- forall _, _ => intro
    end).

Lemma blind_store_iter r : blind (store_iter r).
Proof. unfold store_iter, store_load. bl. Qed.
Lemma blind_store_is_trusted r c : blind (store_is_trusted r c).
Proof. unfold store_is_trusted. bl. Qed.
Lemma blind_read_ekus x : blind (read_ekus x).
Proof. unfold read_ekus. bl. Qed.
Lemma blind_read_key_usages x : blind (read_key_usages x).
Proof. unfold read_key_usages. bl. Qed.
Lemma blind_set_timestamp x t : blind (set_timestamp x t).
Proof. unfold set_timestamp. bl. Qed.
Lemma blind_add_store x r : blind (add_store x r).
Proof. unfold add_store. bl. Qed.
#[local] Hint Resolve blind_store_iter blind_store_is_trusted blind_read_ekus blind_read_key_usages blind_set_timestamp blind_add_store : blind.
Lemma blind_iter_stores rs : blind (iter_stores rs).
Proof. induction rs; cbn [iter_stores]; bl. Qed.
Lemma blind_ctl E t ch x : blind (ctl_verify_trust E t ch x).
Proof. unfold ctl_verify_trust. bl. Qed.
#[local] Hint Resolve blind_iter_stores blind_ctl : blind.
Lemma blind_store_trust E r ch x : blind (store_verify_trust E r ch x).
Proof. unfold store_verify_trust. bl. Qed.
#[local] Hint Resolve blind_store_trust : blind.
Lemma blind_find_items {A} E q (body : cert -> A -> M world A) :
  (forall c a, blind (body c a)) -> forall l seen acc, blind (find_items E q body l seen acc).
Proof. intros H. induction l; intros; cbn [find_items]; bl. Qed.
Lemma blind_find_stores {A} E q (body : cert -> A -> M world A) :
  (forall c a, blind (body c a)) -> forall rs seen acc, blind (find_stores E q body rs seen acc).
Proof.
  intros H. induction rs; intros; cbn [find_stores]; bl. now apply blind_find_items.
Qed.
Lemma blind_for_certificates {A} E x q (body : cert -> A -> M world A) acc :
  (forall c a, blind (body c a)) -> blind (for_certificates E x q body acc).
Proof. intros H. unfold for_certificates. bl. now apply blind_find_stores. Qed.
Lemma blind_trust_loop E x ch : forall rs last, blind (verify_trust_loop E x ch rs last).
Proof.
  induction rs as [|r rs IH]; intros last; cbn [verify_trust_loop]; [apply blind_ret|].
  apply (blind_match (store_verify_trust E r ch x)
    (fun (b : bool) w' => if b then (w', Ok (true, last)) else verify_trust_loop E x ch rs last w')
    (fun e w' => if catches CertificateNotTrustedVerificationError e then verify_trust_loop E x ch rs last w'
      else if catches VerificationError e then verify_trust_loop E x ch rs (Some e) w' else (w', Err e))).
  - apply blind_store_trust.
  - intros [|]; [apply (blind_ret (true, last))|apply IH].
  - intros e. destruct (catches _ e); [apply IH|]. destruct (catches VerificationError e); [apply IH|apply (blind_err e)].
Qed.
#[local] Hint Resolve blind_trust_loop : blind.
Lemma blind_verify_trust E x ch : blind (verify_trust E x ch).
Proof. unfold verify_trust. bl. Qed.
#[local] Hint Resolve blind_verify_trust : blind.
Lemma blind_context_verify E x c : blind (context_verify E x c).
Proof.
  unfold context_verify. apply blind_bind; [apply blind_get_context|]. intros cx.
  apply blind_bind; [apply blind_iter_stores|]. intros pairs w w' H.
  assert (Ht : store_trusted w = store_trusted w') by (unfold store_trusted; now rewrite (proj1 H)).
  rewrite <- Ht. revert w w' H Ht. generalize store_trusted. intros st w w' H _. revert H.
  generalize (st w). clear st. intros st. revert w w'.
  match goal with |- forall w w', same_state w w' -> same_state (fst (?m w)) _ /\ _ => change (blind m) end.
  bl.
Qed.
#[local] Hint Resolve blind_context_verify : blind.
Lemma blind_verify_issuer E auth i x st c : blind (verify_issuer E auth i x st c).
Proof. unfold verify_issuer. bl. Qed.
Lemma blind_signer_verify E auth i x st : blind (signer_verify E auth i x st).
Proof.
  unfold signer_verify, build_chain. bl. apply blind_for_certificates. intros c acc.
  unfold build_chain_body.
  apply (blind_match (verify_issuer E auth i x st c)
    (fun ch => mret (fst acc ++ [ch], FFalse))
    (fun e w' => if catches VerificationError e
        then (w', Ok (fst acc, match snd acc with FNone => FErr e | f => f end)) else (w', Err e))).
  - apply blind_verify_issuer.
  - intros. apply blind_ret.
  - intros e. destruct (catches _ e); [apply (blind_ret (fst acc, _))|apply (blind_err e)].
Qed.
#[local] Hint Resolve blind_signer_verify : blind.
Lemma blind_new_context rs eku k : blind (new_context rs eku k).
Proof. unfold new_context. bl. Qed.
#[local] Hint Resolve blind_new_context : blind.
Lemma blind_asd_verify E fuel a h v : blind (asd_verify E fuel a (Some h) v).
Proof.
  unfold asd_verify. apply blind_bind; [unfold prepare_contexts; bl|]. intros p.
  apply blind_bind; [unfold check_digests; bl|]. intros _. apply blind_bind; [|bl].
  unfold countersignature_time. destruct (asi_cs (asd_signer a)) as [c|]; [|bl].
  destruct (String.eqb _ _); [bl|]. destruct (snd p) as [y|]; [|bl].
  apply (blind_match (check_countersigner E a c y (va_trusted v)) (fun _ => mret (cs_signing_time c))
    (fun e w' => if catches Exception_ e then if String.eqb (va_mode v) "strict"
       then (w', raise AuthenticodeCounterSignerError "An error occurred while validating the countersignature")
       else (w', Ok None) else (w', Err e))).
  - unfold check_countersigner, cs_verify, rsd_verify. bl.
  - bl.
  - intros e. destruct (catches _ e); [|apply (blind_err e)]. destruct (String.eqb _ _); [apply blind_raise|apply (blind_ret None)].
Qed.
Lemma blind_verify_loop {A B} mode (one : A -> M world B) :
  (forall a, blind (one a)) -> forall l acc last, blind (verify_loop mode one l acc last).
Proof.
  intros H. induction l as [|a l IH]; intros acc last; cbn [verify_loop]; [bl|].
  apply (blind_match (one a)
    (fun ch w' => if every mode then verify_loop mode one l (acc ++ [(a, ch)]) last w' else (w', Ok [(a, ch)]))
    (fun e w' => if catches Exception_ e then if every mode then (w', Err e) else verify_loop mode one l acc (Some e) w'
       else (w', Err e))).
  - apply H.
  - intros ch. destruct (every mode); [apply IH|apply (blind_ret [(a, ch)])].
  - intros e. destruct (catches _ e); [|apply (blind_err e)]. destruct (every mode); [apply (blind_err e)|apply IH].
Qed.

(** *** The certificate table *)

Lemma entry_value pos lim data q : 0 <= pos ->
  snd (cert_table_entry (zlen data) pos lim (mkFile data q)) =
  (if zlen data <? pos + 8 then raise SignedPEParseError "Position of certificate table is beyond length of file"
   else if (u32 data pos <=? 8) || (lim <? pos + u32 data pos)
   then raise SignedPEParseError "Invalid length in certificate table header"
   else Ok (entry_of data pos, pos + 8 * ((u32 data pos + 7) / 8))).
Proof.
  intros Hp. pose proof (cert_entry_pure pos lim (mkFile data q) Hp) as [_ H]. cbv zeta in H. cbn [f_bytes] in H.
  revert H. unfold cert_table_entry.
  destruct (zlen data <? pos + 8) eqn:C1; cbn [orb]; [reflexivity|].
  rewrite seek_read by lia. cbn [f_bytes]. rewrite zlen_zslice by lia.
  rewrite unpack_slice by lia. destruct (pos + 4 <=? zlen data) eqn:C2; [|lia].
  rewrite bind_mres_ok. fold (u32 data pos).
  replace (pos + (pos + 4 - pos)) with (pos + 4) by lia.
  rewrite fread_at by lia. rewrite zlen_zslice by lia.
  rewrite unpack_slice by lia. destruct (pos + 4 + 2 <=? zlen data) eqn:C3; [|lia].
  rewrite bind_mres_ok. fold (u16 data (pos + 4)).
  replace (pos + 4 + (pos + 4 + 2 - (pos + 4))) with (pos + 6) by lia.
  rewrite fread_at by lia. rewrite zlen_zslice by lia.
  rewrite unpack_slice by lia. destruct (pos + 6 + 2 <=? zlen data) eqn:C4; [|lia].
  rewrite bind_mres_ok.
  destruct ((u32 data pos <=? 8) || (lim <? pos + u32 data pos)) eqn:C5; [reflexivity|auto].
Qed.

(** Two files that agree between [start] and [lim]. *)
Definition agree (start lim : Z) (d d' : bytes) : Prop :=
  forall i, start <= Z.of_nat i < lim -> nth_error d i = nth_error d' i.
Lemma agree_slice start lim d d' a b :
  agree start lim d d' -> 0 <= start -> start <= a -> b <= lim -> zslice a b d = zslice a b d'.
Proof. intros H H0 H1 H2. apply zslice_ext; [lia|]. intros i Hi. apply H. lia. Qed.

Lemma entry_same start lim pos d d' q q' :
  agree start lim d d' -> zlen d = zlen d' -> 0 <= start -> start <= pos -> pos < lim ->
  snd (cert_table_entry (zlen d) pos lim (mkFile d q)) = snd (cert_table_entry (zlen d') pos lim (mkFile d' q')).
Proof.
  intros H Hl H0 Hs Hp. rewrite !entry_value by lia. rewrite <- Hl.
  destruct (zlen d <? pos + 8); [reflexivity|].
  destruct (Z_le_dec (pos + 8) lim) as [Hin|Hout].
  - assert (Hu : u32 d pos = u32 d' pos) by (unfold u32; f_equal; eapply agree_slice; eauto; lia).
    rewrite <- Hu.
    destruct ((u32 d pos <=? 8) || (lim <? pos + u32 d pos)) eqn:Hb; [reflexivity|].
    unfold entry_of. rewrite <- Hu.
    replace (u16 d' (pos + 4)) with (u16 d (pos + 4)) by (unfold u16; f_equal; eapply agree_slice; eauto; lia).
    replace (u16 d' (pos + 6)) with (u16 d (pos + 6)) by (unfold u16; f_equal; eapply agree_slice; eauto; lia).
    replace (zslice (pos + 8) (pos + u32 d pos) d') with (zslice (pos + 8) (pos + u32 d pos) d)
      by (eapply agree_slice; eauto; lia).
    reflexivity.
  - destruct ((u32 d pos <=? 8) || (lim <? pos + u32 d pos)) eqn:Hb; [|lia].
    destruct ((u32 d' pos <=? 8) || (lim <? pos + u32 d' pos)) eqn:Hb'; [|lia]. reflexivity.
Qed.
Lemma loop_same start lim pos d d' q q' :
  agree start lim d d' -> zlen d = zlen d' -> 0 <= start -> start <= pos ->
  snd (cert_table_loop (zlen d) pos lim (mkFile d q)) = snd (cert_table_loop (zlen d') pos lim (mkFile d' q')).
Proof.
  intros H Hl H0 Hs. unfold cert_table_loop. destruct (Z.ltb_spec pos lim) as [Hp|Hp]; [|reflexivity].
  pose proof (entry_same start lim pos d d' q q' H Hl H0 Hs Hp) as He. unfold mbind.
  destruct (cert_table_entry _ _ _ (mkFile d q)) as [f r], (cert_table_entry _ _ _ (mkFile d' q')) as [f' r'].
  cbn [snd] in He. subst r'. destruct r; reflexivity.
Qed.
Lemma walk_same start lim : forall k pos f f',
  agree start lim (f_bytes f) (f_bytes f') -> zlen (f_bytes f) = zlen (f_bytes f') -> 0 <= start -> start <= pos ->
  option_map snd (cert_table_walk k (zlen (f_bytes f)) (GAt pos lim) f) =
  option_map snd (cert_table_walk k (zlen (f_bytes f')) (GAt pos lim) f').
Proof.
  induction k as [|k IH]; intros pos f f' H Hl H0 Hs; [reflexivity|]. cbn [cert_table_walk].
  destruct f as [d q], f' as [d' q']. cbn [f_bytes] in *.
  pose proof (loop_same start lim pos d d' q q' H Hl H0 Hs) as He.
  pose proof (next_at (zlen d) pos lim (mkFile d q) ltac:(lia) eq_refl) as (B1 & N1 & N2 & N3).
  pose proof (next_at (zlen d') pos lim (mkFile d' q') ltac:(lia) eq_refl) as (B2 & _).
  cbv zeta in *. cbn [cert_table_next f_bytes] in *.
  destruct (cert_table_loop (zlen d) pos lim (mkFile d q)) as [f r].
  destruct (cert_table_loop (zlen d') pos lim (mkFile d' q')) as [f' r']. cbn [fst snd] in *. subst r'.
  destruct r as [[g [c|]]|e]; [|reflexivity|reflexivity].
  destruct (Z_lt_dec pos lim) as [Hp|Hp]; [|specialize (N1 ltac:(lia)); discriminate].
  destruct (bad_header_dec d lim pos) as [Hb|Hb].
  { destruct (N2 Hp Hb) as (e & He & _). discriminate. }
  specialize (N3 Hp Hb). injection N3 as -> _.
  assert (Hstep : pos <= pos + 8 * ((u32 d pos + 7) / 8)).
  { unfold bad_header in Hb. assert (0 <= (u32 d pos + 7) / 8) by (apply Z.div_pos; lia). lia. }
  specialize (IH (pos + 8 * ((u32 d pos + 7) / 8)) f f'). rewrite B1, B2 in IH.
  specialize (IH H Hl H0 ltac:(lia)).
  destruct (cert_table_walk k (zlen d) _ f) as [[? [? ?]]|], (cert_table_walk k (zlen d') _ f') as [[? [? ?]]|];
    cbn in IH |- *; try discriminate; [|reflexivity]. injection IH as -> ->. reflexivity.
Qed.
Lemma table_same f f' :
  zlen (f_bytes f) = zlen (f_bytes f') -> snd (omit_sections f) = snd (omit_sections f') ->
  (forall d s, snd (omit_sections f) = Ok (Some d) -> dict_get "certtable" d = Some s ->
     0 <= rel_start s /\ agree (rel_start s) (rel_start s + rel_length s) (f_bytes f) (f_bytes f')) ->
  forall k, cert_table k f = cert_table k f'.
Proof.
  intros Hl Ho Ha [|n]; [unfold cert_table; now rewrite !signed_pe_init_eq|].
  unfold omit_sections in *. unfold cert_table. rewrite !signed_pe_init_eq in *.
  cbn [cert_table_walk cert_table_next].
  pose proof (omit_sections_pure (zlen (f_bytes f)) (mkFile (f_bytes f) (zlen (f_bytes f)))) as [O1 _].
  pose proof (omit_sections_pure (zlen (f_bytes f')) (mkFile (f_bytes f') (zlen (f_bytes f')))) as [O2 _].
  unfold mbind at 1 2.
  destruct (get_authenticode_omit_sections (zlen (f_bytes f)) _) as [g r].
  destruct (get_authenticode_omit_sections (zlen (f_bytes f')) _) as [g' r'].
  cbn [fst snd f_bytes] in *. subst r'. destruct r as [[d|]|e]; [|reflexivity|reflexivity].
  destruct (dict_get "certtable" d) as [s|] eqn:Es; [|reflexivity].
  destruct (Ha d s eq_refl Es) as [H0 H1].
  pose proof (walk_same (rel_start s) (rel_start s + rel_length s) (S n) (rel_start s) g g') as W.
  rewrite O1, O2 in W. specialize (W H1 Hl H0 ltac:(lia)). exact W.
Qed.

Lemma iterate_same load depth inc ign f f' es tail :
  terminates_with (fun n => cert_table n f) (es, tail) -> terminates_with (fun n => cert_table n f') (es, tail) ->
  exists r, terminates_with (fun n => iterate load depth inc ign n f) r /\
            terminates_with (fun n => iterate load depth inc ign n f') r.
Proof. intros H1 H2. eexists. split; [exact (iterate_pure load depth inc ign f es tail H1)|exact (iterate_pure load depth inc ign f' es tail H2)]. Qed.

(** *** The result depends on nothing else *)

Lemma provided_known E keys l : provided_hashes E keys = Ok l -> forall k, In k keys -> e_hashlib_has E k = true.
Proof.
  revert l. induction keys as [|k keys IH]; cbn; intros l H x Hx; [easy|].
  destruct (e_hashlib_has E k) eqn:Hk; [|discriminate]. destruct (provided_hashes E keys) as [l'|]; [|discriminate].
  destruct Hx as [<-|Hx]; [exact Hk|]. now apply (IH l').
Qed.

Lemma verify_loop_ext' {A B} mode (one one' : A -> M world B) (l : list A) :
  (forall a w, one a w = one' a w) -> forall acc last w, verify_loop mode one l acc last w = verify_loop mode one' l acc last w.
Proof.
  intros H. induction l as [|a l IH]; intros acc last w; cbn [verify_loop]; [reflexivity|].
  rewrite H. destruct (one' a w) as [w1 [ch|e]].
  - destruct (every mode); [apply IH|reflexivity].
  - destruct (catches Exception_ e); [|reflexivity]. destruct (every mode); [reflexivity|apply IH].
Qed.

Lemma blind_verify_one E fuel hs v a : blind (verify_one E fuel hs v a).
Proof. unfold verify_one. destruct (dict_get _ _); [apply blind_asd_verify|apply blind_raise]. Qed.

Lemma same_state_sym w w' : same_state w w' -> same_state w' w.
Proof. now intros [H1 H2]; split. Qed.
Lemma same_state_trans a b c : same_state a b -> same_state b c -> same_state a c.
Proof. intros [H1 H2] [H3 H4]; split; congruence. Qed.
Lemma objects_state w w' : same_objects w w' -> same_state w' w.
Proof. now intros (H1 & H2 & _). Qed.

Theorem determined load E depth mode expected ign v w w' es tail :
  w_stores w = w_stores w' -> w_contexts w = w_contexts w' ->
  terminates_with (fun k => cert_table k (w_file w)) (es, tail) ->
  terminates_with (fun k => cert_table k (w_file w')) (es, tail) ->
  (forall alg h, authentihash_of E (f_bytes (w_file w)) alg h <-> authentihash_of E (f_bytes (w_file w')) alg h) ->
  exists N, forall fuel, (N <= fuel)%nat ->
    snd (pe_open_verify load E depth fuel mode expected ign v w) = snd (pe_open_verify load E depth fuel mode expected ign v w') /\
    same_state (fst (fst (pe_open_verify load E depth fuel mode expected ign v w)))
               (fst (fst (pe_open_verify load E depth fuel mode expected ign v w'))).
Proof.
  intros Hs Hc Ht Ht' Hh.
  destruct (iterate_same load depth true ign _ _ _ _ Ht Ht') as ((l & x) & Hi & Hi').
  pose proof Hi as [K HK]. pose proof Hi' as [K' HK'].
  destruct (open_eq load E depth K mode expected ign v w l x (HK K (le_n _))) as (w1 & S1 & O1).
  destruct (open_eq load E depth K' mode expected ign v w' l x (HK' K' (le_n _))) as (w1' & S1' & O1').
  assert (S0 : same_state w1 w1').
  { eapply same_state_trans; [apply (objects_state _ _ S1)|]. eapply same_state_trans; [|apply same_state_sym, (objects_state _ _ S1')].
    now split. }
  destruct x as [e|].
  { exists (K + K')%nat. intros fuel Hf. rewrite O1, O1' by lia. now split. }
  destruct l as [|a0 l0] eqn:El.
  { exists (K + K')%nat. intros fuel Hf. rewrite O1, O1' by lia. now split. }
  rewrite <- El in *. assert (Hne : l <> []) by (rewrite El; discriminate).
  assert (Hacc : forall a, In a l -> In (digest_of a) accepted_digest_algorithms).
  { intros a Ha. exact (proj1 (table_accepted _ _ _ _ _ _ _ Hi Ha)). }
  destruct (select_spec mode l Hne Hacc) as (sel & Hsel & _ & _ & Hincl).
  (* the sections of both files *)
  assert (Ha0 : In a0 l) by (rewrite El; now left).
  destruct (table_ok _ _ _ _ _ _ _ Hi Ha0) as [_ [secs Hsecs]].
  destruct (table_ok _ _ _ _ _ _ _ Hi' Ha0) as [_ [secs' Hsecs']].
  assert (Hhash : forall alg, e_hash E alg (kept (map snd secs) (f_bytes (w_file w))) =
                              e_hash E alg (kept (map snd secs') (f_bytes (w_file w')))).
  { intros alg. destruct (proj1 (Hh alg (e_hash E alg (kept (map snd secs) (f_bytes (w_file w)))))) as (secs2 & G1 & G2).
    - now exists secs.
    - rewrite Hsecs' in G1. injection G1 as <-. exact G2. }
  destruct (provided_hashes E (map fst (supplied_dict expected))) as [pv|e] eqn:Hpv.
  2:{ exists (K + K')%nat. intros fuel Hf. rewrite O1, O1' by lia. rewrite El, <- El, Hsel.
      assert (G : forall u, calculate_expected_hashes E fuel sel (supplied_dict expected) u = (u, Err e)).
      { intros u. unfold calculate_expected_hashes. cbv zeta. unfold mbind, mres. now rewrite Hpv. }
      rewrite !G. now split. }
  assert (Hknown : forall k h, In (k, h) (supplied_dict expected) -> e_hashlib_has E k = true).
  { intros k h Hk. apply (provided_known _ _ _ Hpv). change k with (fst (k, h)). now apply in_map. }
  destruct S1 as (S1a & S1b & S1c), S1' as (S1a' & S1b' & S1c').
  destruct (calculate_spec E secs sel (supplied_dict expected) w1) as [C1 [N1 C2]]; [now rewrite S1c|exact Hknown|].
  destruct (calculate_spec E secs' sel (supplied_dict expected) w1') as [C1' [N1' C2']]; [now rewrite S1c'|exact Hknown|].
  exists (K + K' + N1 + N1')%nat. intros fuel Hf. rewrite O1, O1' by lia. rewrite El, <- El, Hsel.
  specialize (C1 fuel). specialize (C1' fuel). specialize (C2 fuel ltac:(lia)). specialize (C2' fuel ltac:(lia)).
  destruct (calculate_expected_hashes E fuel sel (supplied_dict expected) w1) as [w2 r].
  destruct (calculate_expected_hashes E fuel sel (supplied_dict expected) w1') as [w2' r'].
  cbn [fst snd] in C2, C2'.
  destruct (C1 _ _ eq_refl) as (T1 & [?|(d & -> & D1 & _)]); [contradiction|].
  destruct (C1' _ _ eq_refl) as (T1' & [?|(d' & -> & D1' & _)]); [contradiction|].
  assert (Hget : forall alg, dict_get alg d = dict_get alg d').
  { intros alg. rewrite D1, D1'. destruct (dict_get alg _); [reflexivity|]. destruct (in_dec _ _ _); [|reflexivity].
    rewrite S1c, S1c'. now rewrite Hhash. }
  assert (S2 : same_state w2 w2').
  { eapply same_state_trans; [apply (objects_state _ _ T1)|].
    eapply same_state_trans; [exact S0|apply same_state_sym, (objects_state _ _ T1')]. }
  pose proof (blind_verify_loop mode (verify_one E fuel d v) (blind_verify_one E fuel d v) sel [] None w2 w2' S2) as [B1 B2].
  rewrite (verify_loop_ext' mode (verify_one E fuel d' v) (verify_one E fuel d v))
    by (intros a u; unfold verify_one; now rewrite Hget).
  destruct (verify_loop mode (verify_one E fuel d v) sel [] None w2) as [w3 r3].
  destruct (verify_loop mode (verify_one E fuel d v) sel [] None w2') as [w3' r3'].
  cbn [fst snd] in *. now split.
Qed.
