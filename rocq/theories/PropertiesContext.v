(** Properties of trust lists, certificate stores and verification contexts (C35, C40-C47). *)
From Verif Require Import Base Bytes Monad ModelFile ModelX509 SpecX509 ProofsX509 ProofsX509b
  ModelContext SpecContext ProofsCTL ProofsContext ProofsContext2 PropertiesX509.
From Coq Require Import Permutation.

(** Example certificates: a root, an intermediate, a leaf, and a cross-certificate that
    closes a cycle. *)
Definition ex_int_name : name := [ex_rdn "2.5.4.3" "Intermediate"].
Definition ex_root : cert := mkCert 10 [x10] ex_ca 1 ex_ca ex_key 0 5000 None.
Definition ex_int : cert := mkCert 11 [x11] ex_ca 2 ex_int_name ex_key 0 5000 None.
Definition ex_cross : cert := mkCert 12 [x12] ex_int_name 3 ex_ca ex_key 0 5000 None.
Definition ex_leaf : cert := mkCert 13 [x13] ex_int_name 4 ex_leaf_name ex_key 100 5000 (Some ["code_signing"]).
Definition ex_opts : vopts := mkVopts false "soft-fail" false 10 [] [].
Definition ex_file : file := mkFile [] 0.

(** A trust list with the root, disallowed from time 2000 on for code signing. *)
Definition ex_entry (c : cert) (attrs : list ctl_attr) : raw_subject :=
  mkRawSubject (e_hash ex_env "sha1" (c_der c)) attrs.
Definition ex_raws : list raw_subject :=
  [ex_entry ex_int []; ex_entry ex_root [AtEnhkeyUsage [["code_signing"]; []]];
   ex_entry ex_root [AtEnhkeyUsage [["code_signing"; "time_stamping"]];
                     AtDisallowedFiletime [Z_to_le 8 20000];
                     AtDisallowedEnhkeyUsage [["code_signing"]]; AtOther "1.2.3" 1]].
Definition ex_ctl : ctl :=
  match parse_ctl (mkAlgid "sha1" false) ex_raws with Ok t => t | Err _ => mkCtl "" [] end.

Definition ex_trusted : store := mkStore [ex_root] true (Some ex_ctl) None false.
Definition ex_untrusted : store := mkStore [ex_int; ex_cross; ex_int] false None None false.
Definition ex_context : context :=
  mkContext [1; 0]%nat (Some (Aware 1500)) None (Some (mkUsages false ["code_signing"])) false ex_opts.
Definition ex_world : world := mkWorld [ex_trusted; ex_untrusted] [ex_context] ex_file.
(** The validator answers root, intermediate, leaf. *)
Definition ex_venv : env :=
  {| e_hash := e_hash ex_env; e_load_key := e_load_key ex_env; e_rsa_verify := e_rsa_verify ex_env;
     e_dsa_verify := e_dsa_verify ex_env; e_ecdsa_verify := e_ecdsa_verify ex_env; e_now := 1000;
     e_mk_validation := fun _ _ _ _ _ => Ok tt;
     e_validate := fun _ _ _ c _ _ _ _ => Ok [10; 11; c_id c];
     e_hashlib_has := e_hashlib_has ex_env |}.

(** *** C45: what a trust list entry decides *)

Theorem C45_entry_decision :
  forall s pre ee timestamp requested,
  (subject_verify_trust s (pre ++ [ee]) timestamp requested = Ok true <->
   entry_accepts s (c_valid_from ee) timestamp requested) /\
  (~ entry_accepts s (c_valid_from ee) timestamp requested ->
   exists e, subject_verify_trust s (pre ++ [ee]) timestamp requested = Err e /\
   (entry_decides s (c_valid_from ee) timestamp requested /\ e_class e = CTLCertificateVerificationError \/
    ~ entry_decides s (c_valid_from ee) timestamp requested /\ e_class e = TypeError)) /\
  (aware (c_valid_from ee) -> aware timestamp -> entry_decides s (c_valid_from ee) timestamp requested).
Proof.
  intros s pre ee t r. split; [apply subject_verify_trust_ok|]. split; [|apply aware_decides]. intros N.
  destruct (subject_verify_trust_cases s pre ee t r) as [[_ H]|(e & H & _ & K)]; [contradiction|].
  exists e. split; [exact H|]. unfold ctl_class, type_class in K. tauto.
Qed.
Print Assumptions C45_entry_decision.

Definition ex_subject (nb : option Z) (nbu : option (list string)) (d : option Z) (du : option (list string))
  : ctl_subject := mkSubject [] (Some ["a"; "b"]) None [] [] [] d None du nb nbu.
Example C45_run :
  subject_verify_trust (ex_subject (Some 200) (Some ["a"]) None None) [ex_root; ex_leaf] 0 ["a"; "b"] = Ok true /\
  is_ok (subject_verify_trust (ex_subject (Some 100) (Some ["a"]) None None) [ex_root; ex_leaf] 0 ["a"]) = false /\
  is_ok (subject_verify_trust (ex_subject None (Some ["a"]) None None) [ex_root; ex_leaf] 0 ["a"]) = false /\
  is_ok (subject_verify_trust (ex_subject None (Some []) None None) [ex_root; ex_leaf] 0 ["a"]) = true /\
  is_ok (subject_verify_trust (ex_subject None None (Some 5) None) [ex_root; ex_leaf] 5 []) = false /\
  is_ok (subject_verify_trust (ex_subject None None (Some 5) None) [ex_root; ex_leaf] 4 ["b"]) = true /\
  is_ok (subject_verify_trust (ex_subject None None None None) [ex_root; ex_leaf] 4 ["c"]) = false /\
  subject_verify_trust (ex_subject None None (Some 5) None) [ex_root; ex_leaf] (Naive 4) ["b"]
  = raise TypeError "can't compare offset-naive and offset-aware datetimes" /\
  is_ok (subject_verify_trust (ex_subject None None None (Some ["a"])) [ex_root; ex_leaf] (Naive 4) ["b"]) = true.
Proof. vm_compute. repeat split. Qed.

(** *** C46: monotonicity *)

Theorem C46_monotone :
  forall s pre ee pre' ee' timestamp timestamp' requested requested',
  not_later (c_valid_from ee') (c_valid_from ee) -> not_later timestamp' timestamp -> incl requested' requested ->
  subject_verify_trust s (pre ++ [ee]) timestamp requested = Ok true ->
  subject_verify_trust s (pre' ++ [ee']) timestamp' requested' = Ok true.
Proof.
  intros s pre ee pre' ee' t t' r r' H1 H2 H3 H. apply subject_verify_trust_ok in H.
  apply subject_verify_trust_ok. eapply entry_accepts_mono; eassumption.
Qed.
Print Assumptions C46_monotone.

Example C46_run :
  subject_verify_trust (ex_subject (Some 200) None (Some 7) (Some ["b"])) [ex_root; ex_leaf] 6 ["a"; "b"] = Ok true /\
  not_later (c_valid_from ex_root) (c_valid_from ex_leaf) /\ incl ["a"] ["a"; "b"] /\
  is_ok (subject_verify_trust (ex_subject (Some 200) None (Some 7) (Some ["b"])) [ex_root; ex_leaf] 7 ["a"; "b"]) = false.
Proof. split; [reflexivity|]. split; [right; do 2 eexists; repeat split; discriminate|]. split; [|reflexivity]. intros x [<-|[]]; now left. Qed.

(** *** C47: lookup in a trust list *)

Theorem C47_lookup :
  forall E a l t c, parse_ctl a l = Ok t -> In (alg_name a) ["sha1"; "sha256"] ->
  (forall s, find_subject E t c = Ok (Some s) <-> listed E (alg_name a) l c s) /\
  (find_subject E t c = Ok None <->
   Forall (fun r => rs_identifier r <> list_identifier E (alg_name a) c) l).
Proof.
  intros E a l t c H Ha. split; [now apply find_subject_listed|now apply find_subject_unlisted].
Qed.
Print Assumptions C47_lookup.

(** A chain whose first certificate is not listed is rejected, whatever the context. *)
Theorem C47_unlisted_rejected :
  forall E a l t root rest x w w' r,
  parse_ctl a l = Ok t ->
  Forall (fun r => rs_identifier r <> list_identifier E (alg_name a) root) l ->
  ctl_verify_trust E t (root :: rest) x w = (w', r) ->
  exists e, r = Err e.
Proof.
  intros E a l t root rest x w w' r Hp F H.
  assert (Ha : ctl_algorithm t = alg_name a).
  { unfold parse_ctl in Hp. destruct (get_digest_algorithm a) as [n|] eqn:Ea; cbn [rbind] in Hp; [|discriminate Hp].
    apply get_digest_algorithm_ok in Ea. destruct Ea as [-> _].
    destruct (parse_subjects [] l); cbn [rbind] in Hp; [|discriminate Hp]. now injection Hp as <-. }
  unfold ctl_verify_trust, mbind, mres in H.
  destruct (find_subject_algorithms E t root) as [[Hi Hf]|(_ & e & Hf & _)].
  - rewrite Ha in Hi. rewrite (proj2 (find_subject_unlisted E a l t root Hp Hi) F) in H.
    destruct (raise_fmt root CTLCertificateVerificationError _) as [b|e] eqn:Ef.
    + now apply raise_fmt_not_ok in Ef.
    + injection H as _ <-. eauto.
  - rewrite Hf in H. injection H as _ <-. eauto.
Qed.
Print Assumptions C47_unlisted_rejected.

Example C47_run :
  parse_ctl (mkAlgid "sha1" false) ex_raws = Ok ex_ctl /\
  match find_subject ex_env ex_ctl ex_root with
  | Ok (Some s) => ts_ekus s = Some ["code_signing"; "time_stamping"] /\ ts_disallowed_filetime s = Some 2000
  | _ => False
  end /\
  find_subject ex_env ex_ctl ex_leaf = Ok None.
Proof. vm_compute. repeat split. Qed.

(** *** C40: searching certificates *)

Theorem C40_find_certificates :
  forall E w x l q, context_stores w x l -> Forall readable l ->
  exists w' out, find_certificates E x q w = (w', Ok out) /\
    firsts (satisfies E q) [] (concat (map contents l)) out /\
    subseq out (concat (map contents l)) /\
    Forall (satisfies E q) out /\
    all_different out /\
    (forall c, In c out -> exists pre post, concat (map contents l) = pre ++ c :: post /\
       Forall (fun d => satisfies E q d -> cert_eqb d c = false) pre) /\
    (forall c, In c (concat (map contents l)) -> satisfies E q c ->
       exists d, In d out /\ cert_eqb c d = true).
Proof.
  intros E w x l q H R. destruct (find_certificates_spec E w x l q H R) as (w' & _ & F).
  exists w', (fresh [] (matching E q l)). split; [exact F|]. split; [apply matching_firsts|].
  apply find_certificates_facts.
Qed.
Print Assumptions C40_find_certificates.

Theorem C40_find_certificate :
  forall E w x l q, context_stores w x l -> Forall readable l ->
  exists w' r, find_certificate E x q w = (w', r) /\
  match r with
  | Ok c => In c (concat (map contents l)) /\ satisfies E q c /\
            (forall d, In d (concat (map contents l)) -> satisfies E q d -> cert_eqb d c = true)
  | Err e => e_class e = KeyError /\
      ((forall d, In d (concat (map contents l)) -> ~ satisfies E q d) \/
       (exists c d, In c (concat (map contents l)) /\ In d (concat (map contents l)) /\
          satisfies E q c /\ satisfies E q d /\ cert_eqb c d = false))
  end.
Proof.
  intros E w x l q H R. destruct (find_certificate_spec E w x l q H R) as (w' & _ & [(c & F & G)|(e & F & G)]).
  - exists w', (Ok c). auto.
  - exists w', (Err e). auto.
Qed.
Print Assumptions C40_find_certificate.

(** The error of the first store that cannot be read is reported. *)
Theorem C40_unreadable :
  forall E w x c l1 s rs1 r rs2 q loc e,
  nth_error (w_contexts w) x = Some c -> x_stores c = rs1 ++ r :: rs2 -> ~ In r rs1 ->
  Forall2 (fun r s => nth_error (w_stores w) r = Some s) rs1 l1 -> Forall readable l1 ->
  nth_error (w_stores w) r = Some s ->
  s_location s = Some loc -> s_loaded s = false -> location_error loc = Some e ->
  exists w', find_certificates E x q w = (w', Err e) /\ find_certificate E x q w = (w', Err e).
Proof.
  intros E w x c l1 s rs1 r rs2 q loc e Hc Hs N H R Hr Hl Hn He.
  assert (G : exists w', find_certificates E x q w = (w', Err e)).
  { unfold find_certificates, for_certificates, mbind at 1. rewrite (get_context_ok _ _ _ Hc), Hs.
    eapply (find_stores_error E q (fun c acc => mret (acc ++ [c])) (fun c acc => acc ++ [c])); eauto.
    unfold load_error. now rewrite Hl, Hn. }
  destruct G as [w' G]. exists w'. split; [exact G|]. unfold find_certificate, mbind. now rewrite G.
Qed.
Print Assumptions C40_unreadable.

(** A store by itself: the matching certificates with repetitions. *)
Theorem C40_store :
  forall E w r s q, nth_error (w_stores w) r = Some s -> readable s ->
  exists w' out, store_find_certificates E r q w = (w', Ok out) /\ selected (satisfies E q) (contents s) out /\
  exists a, store_find_certificate E r q w = (w', a) /\
  match a with
  | Ok c => out = [c]
  | Err e => e_class e = KeyError /\ length out <> 1%nat
  end.
Proof. exact store_find_spec. Qed.
Print Assumptions C40_store.

Example C40_run :
  context_stores ex_world 0 [ex_untrusted; ex_trusted] /\ Forall readable [ex_untrusted; ex_trusted] /\
  find_certificates ex_env 0 (mkQuery (Some ex_ca) None None None) ex_world = (ex_world, Ok [ex_cross; ex_root]) /\
  find_certificates ex_env 0 (mkQuery None None None (Some "06 11")) ex_world = (ex_world, Ok [ex_int]) /\
  find_certificates ex_env 0 (mkQuery None None None (Some " 0 611")) ex_world = (ex_world, Ok [ex_int]) /\
  spells "A b c D" (digits [xab; xcd]) /\ ~ spells "abcx" (digits [xab; xcd]) /\
  is_ok (snd (store_find_certificate ex_env 1 (by_subject ex_int_name) ex_world)) = false /\
  snd (find_certificate ex_env 0 (by_subject ex_int_name) ex_world) = Ok ex_int /\
  is_ok (snd (find_certificate ex_env 0 (by_subject ex_ca) ex_world)) = false.
Proof.
  split. { eexists. split; [reflexivity|]. repeat constructor. }
  split. { repeat constructor; intros ? H; discriminate H. }
  do 3 (split; [vm_compute; reflexivity|]).
  split. { vm_compute. repeat first [apply spells_nil | apply spells_space | apply spells_digit; [split; [discriminate|vm_compute; auto]|]]. }
  split. { rewrite spells_hex. discriminate. }
  vm_compute. repeat split.
Qed.

(** *** C41: potential chains *)

Theorem C41_potential_chains :
  forall E w x l depth c, context_stores w x l -> Forall ready l ->
  exists out, potential_chains E x depth c w = (w, Ok out) /\
    NoDup out /\ (forall ch, In ch out <-> path_to l c depth ch).
Proof.
  intros E w x l d c H R. exists (pchains E l d c). split; [now apply potential_chains_pure|].
  split; [apply pchains_NoDup|apply pchains_spec].
Qed.
Print Assumptions C41_potential_chains.

(** The cyclic cross-certificates are met but not followed twice. *)
Example C41_run :
  Forall ready [ex_untrusted; ex_trusted] /\
  potential_chains ex_env 0 10 ex_leaf ex_world = (ex_world, Ok [[ex_root; ex_int; ex_leaf]]) /\
  potential_chains ex_env 0 1 ex_leaf ex_world = (ex_world, Ok []).
Proof.
  split. { repeat constructor. }
  vm_compute. repeat split.
Qed.

(** *** C42: deciding trust *)

(** The full statement is: for every list of stores and every chain, [verify_trust] returns
    True iff some store accepts, and otherwise raises the last trust-list error or else
    CertificateVerificationError.  It is false: a trust list with another subject algorithm
    in a store in front raises an error that is not caught. *)
Theorem C42_refuted :
  exists E w x c l root rest,
    nth_error (w_contexts w) x = Some c /\
    Forall2 (fun r s => nth_error (w_stores w) r = Some s) (x_stores c) l /\ reusable c /\ printable root /\
    (exists s, In s l /\ store_accepts E s (s_items s) (root :: rest) (asked_time E c) (asked_usages c)) /\
    exists m, verify_trust E x (root :: rest) w = (w, raise CertificateTrustListParseError m).
Proof.
  set (s1 := mkStore [ex_root] true (Some (mkCtl "sha512" [])) None false).
  set (s2 := mkStore [ex_root] true None None false).
  set (c := mkContext [0; 1]%nat None None None false ex_opts).
  exists ex_env, (mkWorld [s1; s2] [c] ex_file), 0%nat, c, [s1; s2], ex_root, [ex_leaf].
  split; [reflexivity|]. split; [repeat constructor|]. split; [intros ? H; discriminate H|].
  split; [repeat constructor; eexists; reflexivity|]. split.
  - exists s2. split; [now right; left|]. split; [reflexivity|]. split.
    + exists ex_root, [ex_leaf], ex_root. split; [reflexivity|]. split; [now left|reflexivity].
    + intros t H. discriminate H.
  - eexists. vm_compute. reflexivity.
Qed.
Print Assumptions C42_refuted.

(** Missing from the full statement: stores whose trust list has an unsupported algorithm,
    first certificates that have no textual form (formatting the error message raises
    TypeError), naive datetimes (comparing one with a time in a trust list raises TypeError),
    and usages given as a one-shot iterator. *)
Theorem C42_verify_trust_partial :
  forall E x root rest w l c,
  nth_error (w_contexts w) x = Some c ->
  Forall2 (fun r s => nth_error (w_stores w) r = Some s) (x_stores c) l ->
  reusable c -> printable root -> datable E c (root :: rest) -> Forall supported l ->
  (verify_trust E x (root :: rest) w = (w, Ok true) <->
   exists s, In s l /\ store_accepts E s (s_items s) (root :: rest) (asked_time E c) (asked_usages c)) /\
  ((forall s, In s l -> ~ store_accepts E s (s_items s) (root :: rest) (asked_time E c) (asked_usages c)) ->
   exists e, verify_trust E x (root :: rest) w = (w, Err e) /\
   ((e_class e = CTLCertificateVerificationError /\
     exists pre s post t, l = pre ++ s :: post /\ holds s (s_items s) root /\
       Forall (fun s => ~ holds s (s_items s) root) post /\ s_ctl s = Some t /\
       snd (ctl_verify_trust E t (root :: rest) x w) = Err e) \/
    (e_class e = CertificateVerificationError /\
     Forall (fun s => ~ holds s (s_items s) root) l))).
Proof.
  intros E x root rest w l c Hc H Ru P Da Sp.
  destruct (verify_trust_exact E x root rest w l c Hc H (reusable_stable _ Ru) P Da Sp)
    as [[-> A]|(F & e & -> & D)].
  - split; [split; auto|]. intros N. exfalso. destruct A as (s & Hs & A). exact (N s Hs A).
  - split.
    + split; [discriminate|]. intros (s & Hs & A). exfalso. rewrite Forall_forall in F. exact (F s Hs A).
    + intros _. exists e. auto.
Qed.
Print Assumptions C42_verify_trust_partial.

(** True is never returned without an accepting store, whatever the stores. *)
Theorem C42_sound :
  forall E x chain w w' l c b,
  nth_error (w_contexts w) x = Some c ->
  Forall2 (fun r s => nth_error (w_stores w) r = Some s) (x_stores c) l -> reusable c ->
  verify_trust E x chain w = (w', Ok b) ->
  b = true /\
  exists s, In s l /\ store_accepts E s (s_items s) chain (asked_time E c) (asked_usages c).
Proof.
  intros E x chain w w' l c b Hc H Ru Hv.
  destruct (verify_trust_sound E x chain w l c w' b Hc H (reusable_stable _ Ru) Hv) as (_ & A & B). auto.
Qed.
Print Assumptions C42_sound.

(** The order of the stores does not matter for acceptance. *)
Theorem C42_order_partial :
  forall E x y root rest w l c d,
  nth_error (w_contexts w) x = Some c -> nth_error (w_contexts w) y = Some d ->
  Forall2 (fun r s => nth_error (w_stores w) r = Some s) (x_stores c) l ->
  Permutation (x_stores c) (x_stores d) ->
  x_timestamp d = x_timestamp c -> x_ekus d = x_ekus c ->
  reusable c -> printable root -> datable E c (root :: rest) -> Forall supported l ->
  verify_trust E x (root :: rest) w = (w, Ok true) ->
  verify_trust E y (root :: rest) w = (w, Ok true).
Proof.
  intros E x y root rest w l c d Hc Hd H P T U Ru Pr Da Sp Hv.
  assert (G : exists m, Forall2 (fun r s => nth_error (w_stores w) r = Some s) (x_stores d) m /\ Permutation l m).
  { destruct (Permutation_Forall2 P H) as (m & Pm & Fm). exists m. auto. }
  destruct G as (m & Hm & Pm).
  assert (Rd : reusable d) by (unfold reusable; now rewrite U).
  assert (Sm : Forall supported m) by (rewrite Forall_forall in *; intros s Hs; apply Sp; eapply Permutation_in; [apply Permutation_sym; exact Pm|assumption]).
  assert (Dd : datable E d (root :: rest)) by (unfold datable, asked_time in *; now rewrite T).
  apply (proj1 (C42_verify_trust_partial E y root rest w m d Hd Hm Rd Pr Dd Sm)).
  apply (proj1 (C42_verify_trust_partial E x root rest w l c Hc H Ru Pr Da Sp)) in Hv.
  destruct Hv as (s & Hs & A). exists s. split; [eapply Permutation_in; eassumption|].
  unfold asked_time, asked_usages in *. now rewrite T, U.
Qed.
Print Assumptions C42_order_partial.

Example C42_run :
  reusable ex_context /\ printable ex_root /\ datable ex_env ex_context [ex_root; ex_int; ex_leaf] /\ Forall supported [ex_untrusted; ex_trusted] /\
  verify_trust ex_env 0 [ex_root; ex_int; ex_leaf] ex_world = (ex_world, Ok true) /\
  (let late := mkContext [1; 0]%nat (Some (Aware 2500)) None (Some (mkUsages false ["code_signing"])) false ex_opts in
   let w := mkWorld [ex_trusted; ex_untrusted] [late] ex_file in
   verify_trust ex_env 0 [ex_root; ex_int; ex_leaf] w
   = (w, raise CTLCertificateVerificationError "is disallowed for EKU's since")) /\
  snd (verify_trust ex_env 0 [ex_cross; ex_int; ex_leaf] ex_world)
  = raise CertificateVerificationError "The trust could not be verified".
Proof.
  split. { intros u H. injection H as <-. reflexivity. }
  split. { repeat constructor; eexists; reflexivity. }
  split. { split; [now eexists|]. intros pre ee H. change [ex_root; ex_int; ex_leaf] with ([ex_root; ex_int] ++ [ex_leaf]) in H.
           apply app_inj_tail in H. destruct H as [_ <-]. now eexists. }
  split. { constructor; [intros t H; discriminate H|]. constructor; [|constructor].
           intros t H. injection H as <-. now left. }
  vm_compute. repeat split.
Qed.

(** *** C35: what VerificationContext.verify returns *)

(** The full statement is: whatever the validator answers, a returned chain is accepted by
    a store of the context at the context's timestamp and usages.  It is false for usages
    given as a one-shot iterator: the validator has exhausted it when the trust list reads
    it. *)
Theorem C35_refuted :
  exists E w x c cx l chain,
    nth_error (w_contexts w) x = Some cx /\
    Forall2 (fun r s => nth_error (w_stores w) r = Some s) (x_stores cx) l /\
    snd (context_verify E x c w) = Ok chain /\
    (forall s, In s l -> ~ store_accepts E s (contents s) chain (asked_time E cx) (asked_usages cx)).
Proof.
  set (cx := mkContext [1; 0]%nat (Some (Aware 2500)) None (Some (mkUsages true ["code_signing"])) false ex_opts).
  exists ex_venv, (mkWorld [ex_trusted; ex_untrusted] [cx] ex_file), 0%nat, ex_leaf, cx, [ex_untrusted; ex_trusted],
    [ex_root; ex_int; ex_leaf].
  split; [reflexivity|]. split; [repeat constructor|]. split; [vm_compute; reflexivity|].
  intros s [<-|[<-|[]]] (A & _ & C); [discriminate A|].
  destruct (C ex_ctl eq_refl) as (root & rest & pre & ee & s & E1 & E2 & _ & E4 & E5 & _ & E6 & _ & E7).
  injection E1 as <- <-. vm_compute in E4. injection E4 as <-.
  apply E7. split; [right; discriminate|]. split.
  - intros f Hf. injection Hf as <-. exists 2500. split; [reflexivity|discriminate].
  - intros u Hu. injection Hu as <-. exists "code_signing". split; now left.
Qed.
Print Assumptions C35_refuted.

(** Missing from the full statement: usages given as a one-shot iterator. *)
Theorem C35_returned_chain_partial :
  forall E x c w w' chain cx l,
  nth_error (w_contexts w) x = Some cx ->
  Forall2 (fun r s => nth_error (w_stores w) r = Some s) (x_stores cx) l ->
  reusable cx ->
  context_verify E x c w = (w', Ok chain) ->
  (exists s, In s l /\ store_accepts E s (contents s) chain (asked_time E cx) (asked_usages cx)) /\
  (forall d, In d chain -> d = c \/ In d (concat (map contents l))) /\
  (exists ids, e_validate E (concat (map contents (filter (fun s => s_trusted s) l))) (x_timestamp cx)
      (x_opts cx) c (concat (map contents (filter (fun s => negb (s_trusted s)) l)))
      (usage_list (x_key_usages cx)) (asked_usages cx) (x_optional_eku cx) = Ok ids /\
    map c_id chain = ids).
Proof.
  intros E x c w w' chain cx l Hc H Ru Hv.
  destruct (context_verify_sound E x c w w' chain cx l Hc H Hv) as (ids & s & Ei & Hi & Hs & A).
  assert (U : asked_usages (after_usages cx) = asked_usages cx).
  { unfold asked_usages, after_usages. cbn. pose proof (reusable_stable _ Ru) as S. unfold stable in S. now rewrite S. }
  rewrite U in A. split; [eauto|]. split.
  - intros d Hd. clear -Hi Hd. induction Hi as [|i d' ids ch [Hin _] _ IH]; [destruct Hd|].
    destruct Hd as [<-|Hd]; [|auto]. destruct Hin as [<-|Hin]; auto.
  - exists ids. split; [exact Ei|]. clear -Hi. induction Hi as [|i d ids ch [_ Hd] _ IH]; cbn; [reflexivity|].
    now rewrite Hd, IH.
Qed.
Print Assumptions C35_returned_chain_partial.

(** Without the restriction: the store accepts for the usages that are left. *)
Theorem C35_remaining_usages :
  forall E x c w w' chain cx l,
  nth_error (w_contexts w) x = Some cx ->
  Forall2 (fun r s => nth_error (w_stores w) r = Some s) (x_stores cx) l ->
  context_verify E x c w = (w', Ok chain) ->
  exists s, In s l /\
  store_accepts E s (contents s) chain (asked_time E cx)
    (match x_ekus cx with
     | Some u => if u_oneshot u then [] else u_items u
     | None => []
     end).
Proof.
  intros E x c w w' chain cx l Hc H Hv.
  destruct (context_verify_sound E x c w w' chain cx l Hc H Hv) as (ids & s & _ & _ & Hs & A).
  exists s. split; [assumption|]. unfold asked_usages, after_usages in A. cbn [x_ekus] in A.
  destruct (x_ekus cx); exact A.
Qed.
Print Assumptions C35_remaining_usages.

Example C35_run :
  reusable ex_context /\
  context_verify ex_venv 0 ex_leaf ex_world = (ex_world, Ok [ex_root; ex_int; ex_leaf]) /\
  (let w := mkWorld [ex_untrusted; ex_untrusted] [ex_context] ex_file in
   is_ok (snd (context_verify ex_venv 0 ex_leaf w)) = false).
Proof.
  split. { intros u H. injection H as <-. reflexivity. }
  vm_compute. repeat split.
Qed.

(** *** C43: file system stores behave as plain ones *)

(** A location with two files of which the second is damaged. *)
Definition ex_location : location := [([ex_root], None); ([ex_int], None)].
Definition ex_damaged : location := [([ex_root], None); ([ex_int], Some (mkExn ValueError "bad pem")); ([ex_cross], None)].
Definition ex_fs (l : location) : store := mkStore [] true None (Some l) false.

(** The full statement is that a store answers every operation, at any point of its life, as
    a plain store with the certificates of its location.  It is false: [in] does not load
    the location. *)
Theorem C43_refuted :
  exists E s w o1 o2, nth_error (w_stores w) 0 = Some s /\ readable s /\
  let p := mkWorld [plain (contents s) s] (w_contexts w) (w_file w) in
  snd (perform_all E 0 [o1] w) <> snd (perform_all E 0 [o1] p) /\
  snd (perform_all E 0 [o1; o2] w) <> snd (perform_all E 0 [o1; o2] p) /\
  snd (perform_all E 0 [o2; o1] w) = snd (perform_all E 0 [o2; o1] p).
Proof.
  exists ex_env, (ex_fs ex_location), (mkWorld [ex_fs ex_location] [] ex_file), (OTrusted ex_int), OIter.
  split; [reflexivity|]. split. { intros l H _. injection H as <-. reflexivity. }
  vm_compute. repeat split; discriminate.
Qed.
Print Assumptions C43_refuted.

(** After the first reading operation has succeeded, every operation is answered as by a
    plain store.  Missing: operations before that, see C43_refuted. *)
Theorem C43_after_first_read_partial :
  forall E r w s o h p, nth_error (w_stores w) r = Some s -> readable s -> reads o ->
  nth_error (w_stores p) r = Some (plain (contents s) s) ->
  snd (perform_all E r (o :: h) w) = snd (perform_all E r (o :: h) p).
Proof.
  intros E r w s o h p Hs R Ro Hp.
  rewrite (perform_all_spec _ _ _ _ _ Hs), (perform_all_spec _ _ _ _ _ Hp). cbn [snd].
  now apply first_read.
Qed.
Print Assumptions C43_after_first_read_partial.

(** Before that, [is_trusted] only ever errs on the safe side. *)
Theorem C43_trusts_no_more :
  forall E r w s h c w1 w2, nth_error (w_stores w) r = Some s -> readable s ->
  perform_all E r h w = (w1, w2) ->
  forall b, snd (store_is_trusted r c w1) = Ok b -> b = true ->
  s_trusted s = true /\ exists d, In d (contents s ++ appended h) /\ cert_eqb c d = true.
Proof.
  intros E r w s h c w1 w2 Hs R Hp b Hb ->.
  rewrite (perform_all_spec _ _ _ _ _ Hs) in Hp. injection Hp as <- <-.
  unfold store_is_trusted, mbind in Hb.
  rewrite (get_store_ok _ r (steps h s)) in Hb.
  2: { rewrite (nth_with_store _ _ _ _ _ Hs), Nat.eqb_refl. reflexivity. }
  unfold mret in Hb. cbn [snd] in Hb. injection Hb as Hb. apply andb_true_iff in Hb. destruct Hb as [T M].
  rewrite (proj1 (steps_attrs h s)) in T. split; [assumption|]. apply cert_mem_spec in M.
  destruct M as (d & Hd & Ed). exists d. split; [|assumption]. apply in_app_iff.
  destruct (s_location s) as [l|] eqn:El.
  - destruct (s_loaded s) eqn:Eld.
    + rewrite (proj2 (steps_loaded h s Eld)) in Hd. apply in_app_iff in Hd.
      unfold contents. rewrite El, Eld. exact Hd.
    + destruct (contents_cases h s l El Eld) as (a & b & Ea & [(_ & -> & Ei)|(_ & Ei)]);
        rewrite Ei in Hd; unfold contents; rewrite El, Eld, Ea; repeat rewrite in_app_iff in *; tauto.
  - assert (G : forall h s, s_location s = None -> s_items (steps h s) = s_items s ++ appended h).
    { clear. induction h as [|o h IH]; intros s H; cbn [steps appended]; [now rewrite app_nil_r|].
      assert (R : ready s) by now left.
      destruct o; cbn [step]; rewrite ?(ready_loaded _ R); try (now apply IH).
      rewrite IH by assumption. cbn [s_items]. now rewrite <- app_assoc. }
    rewrite (G h s El) in Hd. apply in_app_iff in Hd. unfold contents. now rewrite El.
Qed.
Print Assumptions C43_trusts_no_more.

Example C43_run :
  let w := mkWorld [ex_fs ex_location] [] ex_file in
  readable (ex_fs ex_location) /\
  snd (perform_all ex_env 0 [OLen; OTrusted ex_int; OAppend ex_leaf; OFindOne (by_subject ex_leaf_name)] w)
  = [ANumber (Ok 2); ABool (Ok true); ANone (Ok tt); ACert (Ok ex_leaf)].
Proof. split; [intros l H _; injection H as <-; reflexivity|]. vm_compute. reflexivity. Qed.

(** *** C44: the life of a file system store *)

(** Whatever the history and wherever loading fails: the store holds what was appended plus,
    at most once and as one block, the certificates of the location up to the failure. *)
Theorem C44_contents :
  forall E r w s loc h, nth_error (w_stores w) r = Some s -> s_location s = Some loc ->
  s_loaded s = false ->
  exists s' a b, nth_error (w_stores (fst (perform_all E r h w))) r = Some s' /\
    appended h = a ++ b /\ s_trusted s' = s_trusted s /\ s_ctl s' = s_ctl s /\
    ((s_loaded s' = false /\ b = [] /\ s_items s' = s_items s ++ a) \/
     (s_loaded s' = true /\ s_items s' = s_items s ++ a ++ location_certs loc ++ b)).
Proof.
  intros E r w s loc h Hs Hl Hn. rewrite (perform_all_spec _ _ _ _ _ Hs). cbn [fst].
  destruct (contents_cases h s loc Hl Hn) as (a & b & Ea & D).
  exists (steps h s), a, b. split.
  { rewrite (nth_with_store _ _ _ _ _ Hs), Nat.eqb_refl. reflexivity. }
  split; [assumption|]. destruct (steps_attrs h s) as (-> & -> & _). auto.
Qed.
Print Assumptions C44_contents.

(** Once loaded (with or without an error), only [append] changes it. *)
Theorem C44_stable :
  forall E r w s h, nth_error (w_stores w) r = Some s -> s_loaded s = true ->
  exists s', nth_error (w_stores (fst (perform_all E r h w))) r = Some s' /\
    s_loaded s' = true /\ s_items s' = s_items s ++ appended h.
Proof.
  intros E r w s h Hs Hn. rewrite (perform_all_spec _ _ _ _ _ Hs). cbn [fst].
  exists (steps h s). split.
  { rewrite (nth_with_store _ _ _ _ _ Hs), Nat.eqb_refl. reflexivity. }
  now apply steps_loaded.
Qed.
Print Assumptions C44_stable.

(** Other stores are not affected. *)
Theorem C44_others :
  forall E r r' w s h, nth_error (w_stores w) r = Some s -> r <> r' ->
  nth_error (w_stores (fst (perform_all E r h w))) r' = nth_error (w_stores w) r'.
Proof.
  intros E r r' w s h Hs N. rewrite (perform_all_spec _ _ _ _ _ Hs). cbn [fst].
  rewrite (nth_with_store _ _ _ _ _ Hs). destruct (Nat.eqb_spec r r'); [contradiction|reflexivity].
Qed.
Print Assumptions C44_others.

(** A failing load: the error is reported once, the store then stays incomplete. *)
Example C44_run :
  let w := mkWorld [ex_fs ex_damaged] [] ex_file in
  snd (perform_all ex_env 0 [OIter; OIter; OTrusted ex_int; OTrusted ex_cross] w)
  = [ACerts (raise ValueError "bad pem"); ACerts (Ok [ex_root; ex_int]); ABool (Ok true); ABool (Ok false)].
Proof. vm_compute. reflexivity. Qed.
