(** Proofs about AuthenticodeSignedData.verify: the contexts it prepares, the digests it
    compares, the countersignature it checks. *)
From Verif Require Import Base Bytes Monad ModelFile ModelFingerprint SpecFingerprint ProofsFingerprint ProofsFingerprint2 ProofsFingerprint3
  ModelPE SpecPE ProofsPE ProofsPE2 ProofsPE3 ModelX509 SpecX509 ProofsX509 ProofsX509b
  ModelContext SpecContext ProofsCTL ProofsContext ProofsContext2 ModelPkcs7 ProofsPkcs7b
  ModelAuthenticode SpecAuthenticode ProofsSigner ProofsSigner2.
From Coq Require Import ZifyBool ZifyNat.

(** ** Worlds with more objects *)

Definition grows (w w' : world) : Prop :=
  f_bytes (w_file w') = f_bytes (w_file w) /\
  (length (w_stores w) <= length (w_stores w'))%nat /\
  forall r s, nth_error (w_stores w) r = Some s ->
    exists s', nth_error (w_stores w') r = Some s' /\ same_view s s'.

Lemma grows_refl w : grows w w.
Proof. split; [reflexivity|]. split; [lia|]. intros r s H. exists s. split; [assumption|apply same_view_refl]. Qed.

Lemma grows_trans a b c : grows a b -> grows b c -> grows a c.
Proof.
  intros (A1 & A2 & A3) (B1 & B2 & B3). split; [congruence|]. split; [lia|].
  intros r s H. destruct (A3 r s H) as (s' & H' & V). destruct (B3 r s' H') as (s'' & H'' & V').
  exists s''. split; [assumption|]. eapply same_view_trans; eassumption.
Qed.

Lemma views_grows w w' : views w w' -> grows w w'.
Proof. intros (A1 & A2 & A3). split; [congruence|]. split; [lia|assumption]. Qed.

Lemma grows_refs w w' rs l : grows w w' -> refs w rs l -> exists l', refs w' rs l' /\ Forall2 same_view l l'.
Proof.
  intros A H. induction H as [|r s rs l Hr _ (l' & Hl & Hv)].
  - exists []. split; constructor.
  - destruct A as (_ & _ & A). destruct (A r s Hr) as (s' & Hs & Vs).
    exists (s' :: l'). split; constructor; assumption.
Qed.

Lemma nth_app_some {A} (l m : list A) n a : nth_error l n = Some a -> nth_error (l ++ m) n = Some a.
Proof. intros H. rewrite nth_error_app1; [assumption|]. apply nth_error_Some. congruence. Qed.

Lemma nth_app_at {A} (l m : list A) : nth_error (l ++ m) (length l) = nth_error m 0.
Proof. rewrite nth_error_app2 by lia. f_equal. lia. Qed.

Lemma nth_app_next {A} (l m : list A) : nth_error (l ++ m) (S (length l)) = nth_error m 1.
Proof. rewrite nth_error_app2 by lia. f_equal. lia. Qed.

Lemma grows_alloc w ss cs f :
  f_bytes f = f_bytes (w_file w) -> grows w (mkWorld (w_stores w ++ ss) cs f).
Proof.
  intros Hf. split; [exact Hf|]. cbn [w_stores]. split; [rewrite app_length; lia|].
  intros r s H. exists s. split; [now apply nth_app_some|apply same_view_refl].
Qed.

(** ** Contexts *)

Lemma nth_some_lt {A} (l : list A) n a : nth_error l n = Some a -> (n < length l)%nat.
Proof. intros H. apply nth_error_Some. congruence. Qed.

Lemma list_set_app {A} (l m : list A) n a : (length l <= n)%nat ->
  list_set n a (l ++ m) = l ++ list_set (n - length l) a m.
Proof.
  revert n. induction l as [|b l IH]; intros n H; cbn [app length].
  - now rewrite Nat.sub_0_r.
  - destruct n as [|n]; cbn [length] in H; [lia|]. cbn. rewrite IH by lia. reflexivity.
Qed.

(** What is prepared, in full. *)
Lemma prepare_eq a v w : prepare_contexts a v w =
  let n := length (w_stores w) in
  let k := length (w_contexts w) in
  let ss := w_stores w ++ [embedded_store (asd_data a)] in
  let more := match va_context v with
              | Some _ => []
              | None => [default_context [va_trusted v; n] "code_signing" (va_kwargs v)]
              end in
  let x := match va_context v with Some x => x | None => k end in
  let ks := w_contexts w ++ more in
  if match va_context v with None => negb (kw_valid (va_kwargs v)) | Some _ => false end then
    (mkWorld ss (w_contexts w) (w_file w), raise TypeError "__init__() got an unexpected keyword argument")
  else
  match va_cs_context v, asi_cs (asd_signer a) with
  | None, Some c =>
      if String.eqb (va_mode v) "ignore" then (mkWorld ss ks (w_file w), Ok (x, None))
      else if kw_valid (va_kwargs v) then
        match c with
        | CSPlain _ =>
            (mkWorld ss (ks ++ [default_context [va_trusted v; n] "time_stamping" (va_kwargs v)]) (w_file w),
             Ok (x, Some (length ks)))
        | CSToken t =>
            (mkWorld (ss ++ [embedded_store (r_data t)])
               (ks ++ [default_context [va_trusted v; n; S n] "time_stamping" (va_kwargs v)]) (w_file w),
             Ok (x, Some (length ks)))
        end
      else (mkWorld ss ks (w_file w), raise TypeError "__init__() got an unexpected keyword argument")
  | y, _ => (mkWorld ss ks (w_file w), Ok (x, y))
  end.
Proof.
  cbv zeta. unfold prepare_contexts, alloc_store. unfold mbind at 1.
  unfold new_context.
  destruct (va_context v) as [x|].
  - unfold mbind at 1, mret at 1. cbn [w_stores w_contexts w_file].
    rewrite !app_nil_r.
    destruct (va_cs_context v) as [y|]; [reflexivity|].
    destruct (asi_cs (asd_signer a)) as [c|]; [|reflexivity].
    destruct (String.eqb (va_mode v) "ignore"); [reflexivity|].
    unfold mbind at 1. destruct (kw_valid (va_kwargs v)); [|reflexivity].
    unfold alloc_context. cbn [w_stores w_contexts w_file]. destruct c as [i|t]; [reflexivity|].
    unfold mbind, alloc_store, add_store, get_context, put_context. unfold mbind. cbn [w_stores w_contexts w_file].
    rewrite nth_app_at. cbn [nth_error]. unfold mret. cbn [x_stores w_contexts w_stores w_file].
    rewrite list_set_app by lia. rewrite Nat.sub_diag. cbn [list_set app].
    unfold default_context. cbn [x_timestamp x_key_usages x_ekus x_optional_eku x_opts].
    rewrite !app_length. cbn [length].
    replace (length (w_stores w) + 1)%nat with (S (length (w_stores w))) by lia. reflexivity.
  - unfold mbind at 1. destruct (kw_valid (va_kwargs v)) eqn:Kv; cbn [negb]; [|reflexivity].
    unfold alloc_context. cbn [w_stores w_contexts w_file].
    destruct (va_cs_context v) as [y|]; [reflexivity|].
    destruct (asi_cs (asd_signer a)) as [c|]; [|reflexivity].
    destruct (String.eqb (va_mode v) "ignore"); [reflexivity|].
    unfold mbind at 1. cbn [w_stores w_contexts w_file]. destruct c as [i|t]; [reflexivity|].
    unfold mbind, alloc_store, add_store, get_context, put_context. unfold mbind. cbn [w_stores w_contexts w_file].
    rewrite nth_app_at. cbn [nth_error]. unfold mret. cbn [x_stores w_contexts w_stores w_file].
    rewrite list_set_app by lia. rewrite Nat.sub_diag. cbn [list_set app].
    unfold default_context. cbn [x_timestamp x_key_usages x_ekus x_optional_eku x_opts].
    rewrite !app_length. cbn [length].
    replace (length (w_stores w) + 1)%nat with (S (length (w_stores w))) by lia. reflexivity.
Qed.

(** ** Digests *)

Lemma bytes_eqb_spec a b : bytes_eqb a b = true <-> a = b.
Proof. unfold bytes_eqb. destruct (list_eq_dec byte_eq_dec a b); split; congruence. Qed.

Lemma option_bytes_eqb_spec a b : option_bytes_eqb a b = true <-> b = Some a.
Proof.
  destruct b as [b|]; cbn [option_bytes_eqb]; [|split; discriminate].
  rewrite bytes_eqb_spec. split; [now intros ->|]. congruence.
Qed.

Lemma hashes_mono H st i j x : (i <= j)%nat -> hashes H i st = Some x -> hashes H j st = Some x.
Proof.
  intros L. unfold hashes. destruct (hashes_loop i st) as [a|] eqn:E; [|discriminate].
  now rewrite (loop_fuel_mono i j _ _ L E).
Qed.

Lemma dict_get_in {V} k (d : dict V) v : dict_get k d = Some v -> In (k, v) d.
Proof.
  induction d as [|[k' v'] d IH]; cbn [dict_get]; [discriminate|].
  destruct (String.eqb_spec k k') as [->|]; [|right; auto]. intros H. injection H as ->. now left.
Qed.
Lemma dict_get_first {V} k (v : V) d : dict_get k ((k, v) :: d) = Some v.
Proof. cbn. now rewrite String.eqb_refl. Qed.

Lemma dict_single {V} (r : dict V) k v :
  NoDup (map fst r) -> dict_get k r = Some v -> (forall k', k' <> k -> dict_get k' r = None) -> r = [(k, v)].
Proof.
  intros N G O. destruct r as [|[k1 v1] r]; [discriminate G|].
  destruct (string_dec k1 k) as [->|D].
  2: { specialize (O k1 D). rewrite dict_get_first in O. discriminate. }
  rewrite dict_get_first in G. injection G as ->.
  destruct r as [|[k2 v2] r]; [reflexivity|]. exfalso. cbn [map fst] in N.
  inversion N as [|? ? Hn N2]; subst. destruct (string_dec k2 k) as [->|D2].
  - apply Hn. now left.
  - specialize (O k2 D2). cbn [dict_get] in O. destruct (String.eqb_spec k2 k); [contradiction|].
    rewrite String.eqb_refl in O. discriminate.
Qed.

Lemma in_dec_names {V} (names : list string) (f : string -> V) n :
  In n names -> (if in_dec string_dec n names then Some (f n) else None) = Some (f n).
Proof. intros H. destruct (in_dec string_dec n names); [reflexivity|contradiction]. Qed.

(** Hashing with the authenticode ranges only. *)
Lemma authenticode_hashes H f names :
  let st1 := fst (add_authenticode_hashers (fp_new [] f default_block) names) in
  f_bytes (fp_file st1) = f_bytes f /\
  exists o, snd (omit_sections f) = Ok o /\
  match o with
  | Some secs =>
      snd (add_authenticode_hashers (fp_new [] f default_block) names) = Ok true /\
      exists st' inner,
        terminates_with (fun n => hashes H n st1) (st', Ok [("authentihash", inner)]) /\
        NoDup (map fst inner) /\
        forall n, dict_get n inner =
          if in_dec string_dec n names then Some (H n (kept (map snd secs) (f_bytes f))) else None
  | None =>
      snd (add_authenticode_hashers (fp_new [] f default_block) names) = Ok false /\
      exists st', terminates_with (fun n => hashes H n st1) (st', Ok [])
  end.
Proof.
  destruct f as [data p]. destruct (c08 data p) as (o & Ho & Hb & _). cbv zeta. split.
  { unfold add_authenticode_hashers. cbn [fp_new fp_file].
    unfold omit_sections in Hb. revert Hb. rewrite !signed_pe_init_eq. cbn [f_bytes file_seek_end file_len].
    destruct (get_authenticode_omit_sections _ _) as [f2 [[secs|]|e]]; cbn [fst]; intros Hb.
    - unfold add_hashers. cbn [fp_heap with_heap with_file fp_file].
      match goal with |- context [match heap_get ?h ?n with _ => _ end] => destruct (heap_get h n) end; exact Hb.
    - exact Hb.
    - exact Hb. }
  exists o. split; [exact Ho|]. destruct o as [secs|].
  - destruct (add_authenticode_hashers (fp_new [] (mkFile data p) default_block) names) as [st1 b] eqn:Ea. cbn [fst snd].
    destruct (c11_ok H [] (mkFile data p) default_block [] names [] secs st1 b) as (-> & st' & r & Ht & Hn & (inner & Hi & Ni & Hin) & Ho').
    + reflexivity.
    + split; constructor.
    + intros c [].
    + intros c [].
    + exact Ho.
    + exact Ea.
    + split; [reflexivity|]. exists st', inner.
      rewrite <- (dict_single r "authentihash" inner Hn Hi (fun k Hk => Ho' k Hk)).
      split; [exact Ht|]. split; assumption.
  - destruct (c11_unparsable [] (mkFile data p) default_block [] names Ho) as [E1 E2].
    cbn [do_calls fold_left] in *. split; [exact E1|].
    exists (with_fingers (fst (add_authenticode_hashers (fp_new [] (mkFile data p) default_block) names)) []).
    exists 1%nat. intros m Hm. destruct m as [|m]; [lia|].
    destruct E2 as (_ & _ & _ & _ & Ef). change (fp_fingers (fp_new [] (mkFile data p) default_block)) with (@nil finger) in Ef.
    unfold hashes. cbn [hashes_loop].
    unfold hashes_step. rewrite Ef. unfold next_interval. cbn [currents].
    rewrite Ef. reflexivity.
Qed.

Lemma compute_hash_spec E fuel alg w w' r :
  compute_hash E fuel alg w = (w', r) ->
  w_stores w' = w_stores w /\ w_contexts w' = w_contexts w /\ f_bytes (w_file w') = f_bytes (w_file w) /\
  (forall h, r = Ok h -> authentihash_of E (f_bytes (w_file w)) alg h) /\
  (forall h, authentihash_of E (f_bytes (w_file w)) alg h -> r = Ok h \/ r = Err out_of_fuel).
Proof.
  unfold compute_hash. destruct (authenticode_hashes (e_hash E) (w_file w) [alg]) as (Hb & o & Ho & Hh).
  assert (Ho0 : snd (omit_sections (mkFile (f_bytes (w_file w)) 0)) = Ok o).
  { destruct (w_file w) as [data p]. cbn [f_bytes]. destruct (c08 data p) as (o1 & H1 & _ & H2).
    rewrite H1 in Ho. rewrite H2. congruence. }
  destruct (add_authenticode_hashers (fp_new [] (w_file w) default_block) [alg]) as [st b]. cbn [fst snd] in *.
  destruct o as [secs|].
  - destruct Hh as (-> & st' & inner & Ht & Nn & Hin).
    assert (Hg : dict_get alg inner = Some (e_hash E alg (kept (map snd secs) (f_bytes (w_file w))))).
    { rewrite Hin. apply (in_dec_names [alg] (fun n => e_hash E n _)). now left. }
    unfold hash. destruct (hashes (e_hash E) fuel st) as [[st2 r2]|] eqn:Eh.
    + pose proof (hashes_file_bytes _ _ _ _ _ Eh) as Hf.
      assert (Eq : (st', Ok [("authentihash", inner)]) = (st2, r2)).
      { eapply terminates_unique; [exact Ht| |exact Eh]. intros i j x. apply hashes_mono. }
      injection Eq as <- <-. intros H. injection H as <- <-. cbn [w_stores w_contexts w_file rbind]. rewrite Hg.
      split; [reflexivity|]. split; [reflexivity|]. split; [congruence|]. split.
      * intros h Eq. injection Eq as <-. exists secs. auto.
      * intros h (secs' & Hs & ->). rewrite Ho0 in Hs. injection Hs as <-. now left.
    + intros H. injection H as <- <-. repeat (split; [reflexivity|]). split; [discriminate|]. auto.
  - destruct Hh as (-> & st' & Ht).
    assert (Ne : forall h, ~ authentihash_of E (f_bytes (w_file w)) alg h).
    { intros h (secs & Hs & _). congruence. }
    unfold hash. destruct (hashes (e_hash E) fuel st) as [[st2 r2]|] eqn:Eh.
    + pose proof (hashes_file_bytes _ _ _ _ _ Eh) as Hf.
      assert (Eq : (st', Ok []) = (st2, r2)).
      { eapply terminates_unique; [exact Ht| |exact Eh]. intros i j x. apply hashes_mono. }
      injection Eq as <- <-. intros H. injection H as <- <-. cbn [w_stores w_contexts w_file rbind].
      split; [reflexivity|]. split; [reflexivity|]. split; [congruence|]. split; [discriminate|].
      intros h Hh. now elim (Ne h).
    + intros H. injection H as <- <-. repeat (split; [reflexivity|]). split; [discriminate|]. auto.
Qed.

(** The world with the file at another position. *)
Definition same_objects (w w' : world) : Prop :=
  w_stores w' = w_stores w /\ w_contexts w' = w_contexts w /\ f_bytes (w_file w') = f_bytes (w_file w).

Lemma same_objects_refl w : same_objects w w.
Proof. repeat split. Qed.

Lemma same_objects_grows w w' : same_objects w w' -> grows w w'.
Proof.
  intros (A & B & C). split; [assumption|]. rewrite A. split; [lia|].
  intros r s H. exists s. split; [assumption|apply same_view_refl].
Qed.

Lemma check_digests_objects E fuel a expected w w' r :
  check_digests E fuel a expected w = (w', r) -> same_objects w w'.
Proof.
  unfold check_digests. cbv zeta.
  destruct (negb (String.eqb _ _)). { intros H. injection H as <- _. apply same_objects_refl. }
  destruct (negb (String.eqb _ _)). { intros H. injection H as <- _. apply same_objects_refl. }
  unfold mbind. intros H.
  assert (G : forall w1 r1, match expected with
       | Some h => mret h
       | None => if asd_pe a then compute_hash E fuel (sd_digest_alg (asd_data a)) else mraise AssertionError ""
       end w = (w1, r1) -> same_objects w w1).
  { intros w1 r1 G. destruct expected; [injection G as <- _; apply same_objects_refl|].
    destruct (asd_pe a); [|injection G as <- _; apply same_objects_refl].
    destruct (compute_hash_spec _ _ _ _ _ _ G) as (A & B & C & _). repeat split; assumption. }
  destruct (match expected with Some h => mret h | None => _ end w) as [w1 [h|e]] eqn:Eh; specialize (G _ _ eq_refl).
  - destruct (negb _); [injection H as <- _; assumption|]. destruct (negb _); injection H as <- _; assumption.
  - injection H as <- _; assumption.
Qed.

Lemma check_digests_ok E fuel a expected w w' :
  check_digests E fuel a expected w = (w', Ok tt) ->
  algorithms_agree a /\
  expected_hash E (f_bytes (w_file w)) a expected (sp_digest (asd_spc a)) /\
  content_matches E (asd_data a) (asi_info (asd_signer a)).
Proof.
  unfold check_digests. cbv zeta.
  destruct (String.eqb_spec (sd_digest_alg (asd_data a)) (sp_digest_alg (asd_spc a))) as [E1|]; cbn [negb]; [|discriminate].
  destruct (String.eqb_spec (sd_digest_alg (asd_data a)) (si_digest_alg (asi_info (asd_signer a)))) as [E2|]; cbn [negb]; [|discriminate].
  unfold mbind. intros H. split; [split; assumption|].
  assert (G : forall w1 h, match expected with
       | Some h => mret h
       | None => if asd_pe a then compute_hash E fuel (sd_digest_alg (asd_data a)) else mraise AssertionError ""
       end w = (w1, Ok h) -> expected_hash E (f_bytes (w_file w)) a expected h).
  { intros w1 h G. unfold expected_hash. destruct expected; [injection G as _ <-; reflexivity|].
    destruct (asd_pe a); [|discriminate G]. split; [reflexivity|].
    destruct (compute_hash_spec _ _ _ _ _ _ G) as (_ & _ & _ & C & _). now apply C. }
  destruct (match expected with Some h => mret h | None => _ end w) as [w1 [h|e]] eqn:Eh; [|discriminate H].
  specialize (G _ _ eq_refl).
  destruct (bytes_eqb h (sp_digest (asd_spc a))) eqn:Eb; cbn [negb] in H; [|discriminate H].
  apply bytes_eqb_spec in Eb. subst h. split; [assumption|].
  destruct (option_bytes_eqb _ _) eqn:Eo; cbn [negb] in H; [|discriminate H].
  now apply option_bytes_eqb_spec in Eo.
Qed.

Lemma check_digests_fail E fuel a expected w h :
  (~ algorithms_agree a -> exists m, snd (check_digests E fuel a expected w) =
      raise AuthenticodeInconsistentDigestAlgorithmError m) /\
  (algorithms_agree a -> expected_hash E (f_bytes (w_file w)) a expected h ->
   (h <> sp_digest (asd_spc a) \/ ~ content_matches E (asd_data a) (asi_info (asd_signer a))) ->
   (exists m, snd (check_digests E fuel a expected w) = raise AuthenticodeInvalidDigestError m) \/
   (expected = None /\ snd (check_digests E fuel a expected w) = Err out_of_fuel)) /\
  (algorithms_agree a -> expected_hash E (f_bytes (w_file w)) a expected h ->
   h = sp_digest (asd_spc a) -> content_matches E (asd_data a) (asi_info (asd_signer a)) ->
   snd (check_digests E fuel a expected w) = Ok tt \/
   (expected = None /\ snd (check_digests E fuel a expected w) = Err out_of_fuel)).
Proof.
  unfold check_digests, algorithms_agree. cbv zeta.
  destruct (String.eqb_spec (sd_digest_alg (asd_data a)) (sp_digest_alg (asd_spc a))) as [E1|N1]; cbn [negb].
  2: { split; [intros _; eexists; reflexivity|]. split; intros [? ?]; contradiction. }
  destruct (String.eqb_spec (sd_digest_alg (asd_data a)) (si_digest_alg (asi_info (asd_signer a)))) as [E2|N2]; cbn [negb].
  2: { split; [intros _; eexists; reflexivity|]. split; intros [? ?]; contradiction. }
  split; [intros N; elim N; split; assumption|].
  assert (G : expected_hash E (f_bytes (w_file w)) a expected h ->
     exists w1, match expected with
       | Some h => mret h
       | None => if asd_pe a then compute_hash E fuel (sd_digest_alg (asd_data a)) else mraise AssertionError ""
       end w = (w1, Ok h) \/
     (expected = None /\ match expected with
       | Some h => mret h
       | None => if asd_pe a then compute_hash E fuel (sd_digest_alg (asd_data a)) else mraise AssertionError ""
       end w = (w1, Err out_of_fuel))).
  { unfold expected_hash. destruct expected as [h'|].
    - intros ->. exists w. now left.
    - intros [-> A]. destruct (compute_hash E fuel (sd_digest_alg (asd_data a)) w) as [w1 r1] eqn:Ec.
      destruct (compute_hash_spec _ _ _ _ _ _ Ec) as (_ & _ & _ & _ & C). exists w1.
      destruct (C h A) as [->| ->]; auto. }
  split.
  - intros _ He D. destruct (G He) as (w1 & [Eq|[En Eq]]); unfold mbind; rewrite Eq.
    + left. destruct D as [D|D].
      * destruct (bytes_eqb h _) eqn:Eb; [apply bytes_eqb_spec in Eb; contradiction|]. eexists. reflexivity.
      * destruct (bytes_eqb h _); [|eexists; reflexivity]. cbn [negb].
        destruct (option_bytes_eqb _ _) eqn:Eo; [|eexists; reflexivity].
        apply option_bytes_eqb_spec in Eo. contradiction.
    + right. auto.
  - intros _ He -> C. destruct (G He) as (w1 & [Eq|[En Eq]]); unfold mbind; rewrite Eq.
    + left. assert (bytes_eqb (sp_digest (asd_spc a)) (sp_digest (asd_spc a)) = true) as -> by now apply bytes_eqb_spec.
      cbn [negb]. unfold content_matches in C. rewrite C. cbn [option_bytes_eqb]. unfold content_digest.
      assert (forall b, bytes_eqb b b = true) as -> by (intros b; now apply bytes_eqb_spec). reflexivity.
    + right. auto.
Qed.

(** ** Preservation *)

Section preserves.
Context (T : option datetime -> Prop) (x : nat).

Lemma pres_find_items {A} E q (body : cert -> A -> M world A) :
  (forall c a, preserves T x (body c a)) ->
  forall l seen acc, preserves T x (find_items E q body l seen acc).
Proof.
  intros Hb. induction l as [|c l IH]; intros seen acc; cbn [find_items]; [apply pres_ret|].
  destruct (query_matches E q c); [|apply IH]. destruct (cert_mem c seen); [apply IH|].
  apply pres_bind; [apply Hb|intros a; apply IH].
Qed.

Lemma pres_find_stores {A} E q (body : cert -> A -> M world A) :
  (forall c a, preserves T x (body c a)) ->
  forall rs seen acc, preserves T x (find_stores E q body rs seen acc).
Proof.
  intros Hb. induction rs as [|r rs IH]; intros seen acc; cbn [find_stores]; [apply pres_ret|].
  apply pres_bind; [apply pres_store_iter|]. intros l.
  apply pres_bind; [now apply pres_find_items|intros p; apply IH].
Qed.

Lemma pres_verify_issuer E auth i st c :
  (forall t, st = Some t -> T (Some t)) -> preserves T x (verify_issuer E auth i x st c).
Proof.
  intros Ht. unfold verify_issuer. apply pres_bind; [apply pres_get_context|]. intros cx.
  apply pres_bind; [apply pres_res|]. intros _. apply pres_bind; [|intros _; apply pres_context_verify].
  destruct (auth && lifetime_signing c); [apply pres_ret|].
  destruct st as [t|]; [apply pres_set_timestamp; now apply Ht|apply pres_ret].
Qed.

Lemma pres_signer_verify E auth i st :
  (forall t, st = Some t -> T (Some t)) -> preserves T x (signer_verify E auth i x st).
Proof.
  intros Ht. unfold signer_verify, build_chain, for_certificates.
  apply pres_bind.
  - apply pres_bind.
    + apply pres_bind; [apply pres_get_context|]. intros cx. apply pres_find_stores.
      intros c acc w w' r H. unfold build_chain_body in H.
      destruct (verify_issuer E auth i x st c w) as [w1 [ch|e]] eqn:Ev;
        pose proof (pres_verify_issuer E auth i st c Ht w w1 _ Ev) as K.
      * injection H as <- _. assumption.
      * destruct (catches VerificationError e); injection H as <- _; assumption.
    + intros [chs []]; cbn [snd fst]; [apply pres_ret|apply pres_err|apply pres_ret].
  - intros [|ch chs]; [apply pres_raise|apply pres_ret].
Qed.
End preserves.

Lemma pres_cs_verify (T : option datetime -> Prop) y E c trusted : preserves T y (cs_verify E c y trusted).
Proof.
  destruct c as [i|t]; cbn [cs_verify].
  - apply pres_signer_verify. discriminate.
  - unfold rsd_verify. destruct (negb _); [apply pres_raise|].
    intros w w' r H. unfold mbind, mret in H. revert H. apply pres_signer_verify. discriminate.
Qed.

Lemma pres_check_countersigner (T : option datetime -> Prop) y E a c trusted :
  T (cs_signing_time c) -> preserves T y (check_countersigner E a c y trusted).
Proof.
  intros Ht. unfold check_countersigner. destruct (negb _); [apply pres_raise|].
  apply pres_bind; [now apply pres_set_timestamp|]. intros _.
  apply pres_bind; [apply pres_cs_verify|]. intros _. apply pres_ret.
Qed.

(** ** The steps of verify *)

Lemma Forall2_imp {A B} (P Q : A -> B -> Prop) l m :
  (forall a b, P a b -> Q a b) -> Forall2 P l m -> Forall2 Q l m.
Proof. intros H F. induction F; constructor; auto. Qed.

Lemma prepare_shape a v w w1 x y :
  prepare_contexts a v w = (w1, Ok (x, y)) ->
  exists ss ks,
    w_stores w1 = w_stores w ++ embedded_store (asd_data a) :: ss /\
    w_contexts w1 = w_contexts w ++ match va_context v with
              | Some _ => []
              | None => [default_context [va_trusted v; length (w_stores w)] "code_signing" (va_kwargs v)]
              end ++ ks /\
    w_file w1 = w_file w /\
    x = match va_context v with Some x => x | None => length (w_contexts w) end /\
    (forall c, considered a v c -> va_cs_context v = None ->
       y = Some (length (w_contexts w) + match va_context v with Some _ => 0 | None => 1 end)%nat /\
       ss = match c with CSPlain _ => [] | CSToken t => [embedded_store (r_data t)] end /\
       ks = [default_context (va_trusted v :: length (w_stores w) ::
               match c with CSPlain _ => [] | CSToken t => [S (length (w_stores w))] end)
               "time_stamping" (va_kwargs v)]) /\
    (va_cs_context v <> None -> y = va_cs_context v) /\
    ((forall c, ~ considered a v c) -> y = va_cs_context v).
Proof.
  rewrite prepare_eq. cbv zeta. unfold considered.
  destruct (match va_context v with None => negb (kw_valid (va_kwargs v)) | Some _ => false end); [discriminate|].
  destruct (va_cs_context v) as [y0|] eqn:Ey.
  { intros H. injection H as <- <- <-. exists [], []. cbn [w_stores w_contexts w_file]. rewrite app_nil_r.
    repeat (split; [reflexivity|]). split; [discriminate|]. auto. }
  destruct (asi_cs (asd_signer a)) as [c|] eqn:Ec.
  2: { intros H. injection H as <- <- <-. exists [], []. cbn [w_stores w_contexts w_file]. rewrite app_nil_r.
       repeat (split; [reflexivity|]). split; [intros c [H _]; discriminate H|]. auto. }
  destruct (String.eqb_spec (va_mode v) "ignore") as [Ei|Ni].
  { intros H. injection H as <- <- <-. exists [], []. cbn [w_stores w_contexts w_file]. rewrite app_nil_r.
    repeat (split; [reflexivity|]). split; [intros c0 [_ H]; contradiction|]. auto. }
  destruct (kw_valid (va_kwargs v)); [|discriminate].
  assert (L : length (w_contexts w ++ match va_context v with
              | Some _ => []
              | None => [default_context [va_trusted v; length (w_stores w)] "code_signing" (va_kwargs v)]
              end) = (length (w_contexts w) + match va_context v with Some _ => 0 | None => 1 end)%nat).
  { rewrite app_length. destruct (va_context v); reflexivity. }
  destruct c as [i|t]; intros H; injection H as <- <- <-; cbn [w_stores w_contexts w_file]; rewrite L, <- !app_assoc;
    do 2 eexists; (split; [reflexivity|]); (split; [reflexivity|]); (split; [reflexivity|]); (split; [reflexivity|]);
    (split; [|split; [intros N; now contradiction N|intros N; now elim (N _ (conj eq_refl Ni))]]);
    intros c0 [Hc _] _; injection Hc as <-; repeat split.
Qed.

Lemma prepare_signer a v w w1 x y cx l :
  prepare_contexts a v w = (w1, Ok (x, y)) -> signer_context w a v cx l ->
  nth_error (w_contexts w1) x = Some cx /\ refs w1 (x_stores cx) l.
Proof.
  intros P C. destruct (prepare_shape _ _ _ _ _ _ P) as (ss & ks & Es & Ek & _ & Ex & _).
  unfold signer_context in C. subst x. unfold refs. rewrite Ek, Es. destruct (va_context v) as [x0|].
  - destruct C as [C1 C2]. split; [now apply nth_app_some|].
    eapply Forall2_imp; [|exact C2]. intros r s H. cbn beta. now apply nth_app_some.
  - destruct C as (ts & Ht & -> & ->). split; [now rewrite nth_app_at|].
    cbn [x_stores default_context]. repeat constructor.
    + now apply nth_app_some.
    + now rewrite nth_app_at.
Qed.

Lemma prepare_counter a v w w1 x y c cy l :
  prepare_contexts a v w = (w1, Ok (x, y)) -> considered a v c -> counter_context w a c v cy l ->
  exists y0, y = Some y0 /\ nth_error (w_contexts w1) y0 = Some cy /\ refs w1 (x_stores cy) l /\
  forall cx lx, signer_context w a v cx lx -> distinct_contexts v -> y0 <> x.
Proof.
  intros P K C. destruct (prepare_shape _ _ _ _ _ _ P) as (ss & ks & Es & Ek & _ & Ex & Hy & Hc & _).
  unfold counter_context in C. unfold refs. rewrite Ek, Es. specialize (Hy c K).
  destruct (va_cs_context v) as [y0|] eqn:Ey.
  - exists y0. split; [apply Hc; discriminate|]. destruct C as [C1 C2].
    split; [now apply nth_app_some|]. split.
    + eapply Forall2_imp; [|exact C2]. intros r s H. cbn beta. now apply nth_app_some.
    + intros cx lx S D. subst x. apply nth_some_lt in C1. destruct (va_context v) as [x0|] eqn:Ex0; [|lia].
      intros ->. exact (D x0 x0 Ex0 Ey eq_refl).
  - destruct (Hy eq_refl) as (-> & -> & ->). eexists. split; [reflexivity|].
    destruct C as (ts & Ht & C).
    assert (N : forall d, nth_error (w_contexts w ++
       match va_context v with
       | Some _ => []
       | None => [default_context [va_trusted v; length (w_stores w)] "code_signing" (va_kwargs v)]
       end ++ [d]) (length (w_contexts w) + match va_context v with Some _ => 0 | None => 1 end)%nat = Some d).
    { intros d. rewrite nth_error_app2 by lia.
      replace (length (w_contexts w) + match va_context v with Some _ => 0 | None => 1 end - length (w_contexts w))%nat
        with (match va_context v with Some _ => 0 | None => 1 end)%nat by lia. destruct (va_context v); reflexivity. }
    assert (D : forall cx lx, signer_context w a v cx lx -> distinct_contexts v ->
       (length (w_contexts w) + match va_context v with Some _ => 0 | None => 1 end)%nat <> x).
    { intros cx lx S _. subst x. unfold signer_context in S. destruct (va_context v); [|lia].
      destruct S as [S _]. apply nth_some_lt in S. lia. }
    destruct c as [i|t]; destruct C as [-> ->].
    + split; [apply N|]. split; [|exact D]. cbn [x_stores default_context]. repeat constructor.
      * now apply nth_app_some.
      * now rewrite nth_app_at.
    + split; [apply N|]. split; [|exact D]. cbn [x_stores default_context]. repeat constructor.
      * now apply nth_app_some.
      * now rewrite nth_app_at.
      * now rewrite nth_app_next.
Qed.

Lemma prepare_grows a v w w1 p : prepare_contexts a v w = (w1, Ok p) -> grows w w1.
Proof.
  destruct p as [x y]. intros P. destruct (prepare_shape _ _ _ _ _ _ P) as (ss & ks & Es & _ & Ef & _).
  pose proof (grows_alloc w (embedded_store (asd_data a) :: ss) (w_contexts w1) (w_file w1)) as G.
  rewrite <- Es in G. destruct w1. apply G. cbn in Ef. now rewrite Ef.
Qed.
