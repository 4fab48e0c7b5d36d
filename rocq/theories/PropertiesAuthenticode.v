(** Properties C25-C34: AuthenticodeSignedData.verify. *)
From Verif Require Import Base Bytes Monad ModelFile ModelFingerprint ModelPE SpecPE ModelX509 SpecX509
  ModelContext SpecContext ModelPkcs7 ModelAuthenticode SpecAuthenticode
  ProofsVerify ProofsVerify2 ProofsVerify3 ProofsVerify4 ProofsVerify5
  PropertiesX509 PropertiesContext PropertiesPE.

(** *** Concrete data *)

Definition ex_encrypted : bytes := encode_attributes [x01].
Definition ex_content : bytes := [x0a; x0b].
(** A signer naming the issuer and serial number of ex_leaf, with the digest of the content. *)
Definition ex_asigner : sinfo :=
  mkSinfo ex_int_name 4 ex_encrypted "rsa" ex_encrypted "sha256" (Some (x06 :: ex_content)) (Some spc_type) None.
Definition ex_tsa : cert := mkCert 17 [x17] ex_int_name 5 ex_leaf_name ex_key 0 5000 (Some ["time_stamping"]).
Definition ex_data (certs : list cert) : sdata := mkSdata "sha256" spc_type ex_content certs.
Definition ex_spcinfo : spc_info := mkSpc "sha256" [x07].
Definition ex_asd (cs : option countersigner) (certs : list cert) : asd :=
  ASD (ex_data certs) ex_spcinfo (ASI ex_asigner cs []) true.
(** Countersigners stating the time 700: of the encrypted digest, of another one, not signed. *)
Definition ex_stamp (sig md : bytes) : countersigner :=
  CSPlain (mkSinfo ex_int_name 5 (encode_attributes [x02]) "rsa" sig "sha256" (Some md) None (Some (Aware 700))).
Definition ex_good : countersigner := ex_stamp (encode_attributes [x02]) (x06 :: ex_encrypted).
Definition ex_foreign : countersigner := ex_stamp (encode_attributes [x02]) [x06].
Definition ex_forged : countersigner := ex_stamp [] (x06 :: ex_encrypted).
Definition ex_token : countersigner :=
  CSToken (mkRsd (mkSdata "sha256" "tst_info" [x0c] [ex_tsa])
    (mkTst "" "sha256" (x06 :: ex_encrypted) 5 700 0)
    (mkSinfo ex_int_name 5 (encode_attributes [x02]) "rsa" (encode_attributes [x02]) "sha256" (Some [x06; x0c])
       (Some "tst_info") None)).
Definition ex_certs : list cert := [ex_int; ex_leaf; ex_tsa].
(** The certificates are valid until the time 800; it is later than that. *)
Definition ex_tenv : env :=
  with_validator (e_mk_validation ex_venv)
    (fun roots t o c ints ku eku b =>
       match t with
       | Some (Aware t) => if t <=? 800 then Ok [10; 11; c_id c] else raise (ExtException "PathValidationError") "expired"
       | Some (Naive _) | None => raise (ExtException "PathValidationError") "expired"
       end) ex_venv.
Definition ex_v (x y : option nat) (m : string) : vargs := mkVargs x y 0 no_kwargs m.
(** A trusted store and a context at no particular time over it and the certificates. *)
Definition ex_ctx : context :=
  mkContext [0; 1]%nat None None (Some (mkUsages false ["code_signing"])) true default_opts.
Definition ex_w : world := mkWorld [ex_trusted; mkStore ex_certs false None None false] [ex_ctx; ex_ctx] ex_file.
Definition ex_run (cs : option countersigner) (v : vargs) : res (list (list cert)) :=
  snd (asd_verify ex_tenv 0 (ex_asd cs ex_certs) (Some [x07]) v ex_w).

(** Signed with a countersignature of either kind, and without. *)
Example verify_runs :
  ex_run (Some ex_good) (ex_v None None "strict") = Ok [[ex_root; ex_int; ex_leaf]] /\
  ex_run (Some ex_token) (ex_v None None "strict") = Ok [[ex_root; ex_int; ex_leaf]] /\
  ex_run (Some ex_good) (ex_v (Some 0%nat) (Some 1%nat) "permit") = Ok [[ex_root; ex_int; ex_leaf]] /\
  ex_run (Some ex_good) (ex_v None None "ignore") = raise CertificateVerificationError "Chain verification failed" /\
  ex_run None (ex_v None None "strict") = raise CertificateVerificationError "Chain verification failed" /\
  ex_run (Some ex_foreign) (ex_v None None "strict")
  = raise AuthenticodeCounterSignerError "An error occurred while validating the countersignature" /\
  ex_run (Some ex_forged) (ex_v None None "permit") = raise CertificateVerificationError "Chain verification failed".
Proof. vm_compute. repeat split. Qed.

(** *** C25: integrity *)

Theorem C25_integrity :
  forall E fuel a expected v w w' chains,
  asd_verify E fuel a expected v w = (w', Ok chains) ->
  algorithms_agree a /\
  expected_hash E (f_bytes (w_file w)) a expected (sp_digest (asd_spc a)) /\
  content_matches E (asd_data a) (asi_info (asd_signer a)).
Proof. exact c25. Qed.
Print Assumptions C25_integrity.

(** With the supplied hash, and with the hash of a file; with another one there is no
    success. *)
Definition ex_on_file (data digest : bytes) : res (list (list cert)) :=
  snd (asd_verify ex_venv 3000 (ASD (ex_data ex_certs) (mkSpc "sha256" digest) (ASI ex_asigner None []) true) None
         (ex_v None None "strict") (mkWorld [ex_trusted] [] (mkFile data 3))).
Example C25_run :
  (exists h, authentihash_of ex_venv (f_bytes ex_signed) "sha256" h /\
     ex_on_file (f_bytes ex_signed) h = Ok [[ex_root; ex_int; ex_leaf]] /\
     is_ok (ex_on_file (f_bytes ex_signed) (x00 :: h)) = false) /\
  is_ok (ex_on_file [x4d] [x06]) = false.
Proof.
  split; [|vm_compute; reflexivity].
  eexists. split; [eexists; split; [vm_compute; reflexivity|reflexivity]|]. vm_compute. repeat split.
Qed.

(** *** C26: authenticity *)

Theorem C26_authenticity :
  forall E fuel a expected v w w' chains cx l,
  asd_verify E fuel a expected v w = (w', Ok chains) -> signer_context w a v cx l ->
  chains <> [] /\
  Forall (signed_chain E (asi_info (asd_signer a)) cx l
            (fun _ t => t = x_timestamp cx \/ exists c, considered a v c /\ t = counter_stated_time c)) chains.
Proof. exact c26. Qed.
Print Assumptions C26_authenticity.

(** Without the certificate of the signer, with another serial number, or with a key or a
    root that does not fit there is no success. *)
Definition ex_over (i : sinfo) (certs : list cert) (roots : store) : res (list (list cert)) :=
  snd (asd_verify ex_venv 0 (ASD (ex_data certs) ex_spcinfo (ASI i None []) true) (Some [x07])
         (ex_v None None "strict") (mkWorld [roots] [] ex_file)).
Example C26_run :
  signer_context (mkWorld [ex_trusted] [] ex_file) (ex_asd None ex_certs) (ex_v None None "strict")
    (default_context [0; 1]%nat "code_signing" no_kwargs) [ex_trusted; shipped (ex_data ex_certs)] /\
  ex_over ex_asigner ex_certs ex_trusted = Ok [[ex_root; ex_int; ex_leaf]] /\
  is_ok (ex_over ex_asigner [ex_int] ex_trusted) = false /\
  is_ok (ex_over (mkSinfo ex_int_name 6 ex_encrypted "rsa" ex_encrypted "sha256" (Some (x06 :: ex_content)) None None)
           ex_certs ex_trusted) = false /\
  is_ok (ex_over (mkSinfo ex_int_name 4 ex_encrypted "rsa" [] "sha256" (Some (x06 :: ex_content)) None None)
           ex_certs ex_trusted) = false /\
  is_ok (ex_over ex_asigner (ex_root :: ex_certs) (mkStore [ex_root] false None None false)) = false.
Proof. split; [exists ex_trusted; repeat split|]. vm_compute. repeat split. Qed.

(** *** C27: the errors of the digest checks *)

Theorem C27_digest_errors :
  forall E fuel a expected v w,
  kwargs_ok a v ->
  (~ algorithms_agree a ->
   exists m, snd (asd_verify E fuel a expected v w) = raise AuthenticodeInconsistentDigestAlgorithmError m) /\
  (forall h, algorithms_agree a -> expected_hash E (f_bytes (w_file w)) a expected h ->
   h <> sp_digest (asd_spc a) \/ ~ content_matches E (asd_data a) (asi_info (asd_signer a)) ->
   (exists m, snd (asd_verify E fuel a expected v w) = raise AuthenticodeInvalidDigestError m) \/
   (expected = None /\ snd (asd_verify E fuel a expected v w) = Err out_of_fuel)).
Proof. exact c27. Qed.
Print Assumptions C27_digest_errors.

(** The second alternative is that of a number of steps chosen too small. *)
Theorem C27_computed :
  forall E a v w h,
  kwargs_ok a v -> algorithms_agree a -> expected_hash E (f_bytes (w_file w)) a None h ->
  h <> sp_digest (asd_spc a) \/ ~ content_matches E (asd_data a) (asi_info (asd_signer a)) ->
  exists N, forall fuel, (N <= fuel)%nat ->
    exists m, snd (asd_verify E fuel a None v w) = raise AuthenticodeInvalidDigestError m.
Proof. exact c27_enough. Qed.
Print Assumptions C27_computed.

(** Nothing else is looked at: the contexts do not exist here. *)
Example C27_run :
  let v := ex_v (Some 5%nat) (Some 6%nat) "strict" in
  kwargs_ok (ex_asd (Some ex_foreign) []) v /\ algorithms_agree (ex_asd (Some ex_foreign) []) /\
  snd (asd_verify ex_env 0 (ex_asd (Some ex_foreign) []) (Some [x08]) v ex_world)
  = raise AuthenticodeInvalidDigestError "The expected hash does not match the digest in SpcInfo" /\
  snd (asd_verify ex_env 0 (ASD (mkSdata "sha1" spc_type ex_content []) ex_spcinfo (ASI ex_asigner None []) true)
         (Some [x08]) v ex_world)
  = raise AuthenticodeInconsistentDigestAlgorithmError "SignedData.digestAlgorithm must equal SpcInfo.digestAlgorithm" /\
  snd (asd_verify ex_env 0 (ASD (mkSdata "sha256" spc_type [x0a] []) ex_spcinfo (ASI ex_asigner None []) true)
         (Some [x07]) v ex_world)
  = raise AuthenticodeInvalidDigestError "The expected hash of the SpcInfo does not match SignerInfo" /\
  (exists m, snd (asd_verify ex_env 3000 (ex_asd None []) None v (mkWorld [] [] ex_signed))
             = raise AuthenticodeInvalidDigestError m).
Proof.
  split; [now left|]. split; [split; reflexivity|]. vm_compute. repeat split. eexists. reflexivity.
Qed.

(** *** C28: strict countersignatures *)

Theorem C28_strict :
  forall E fuel a expected v w w' chains c cy ly,
  asd_verify E fuel a expected v w = (w', Ok chains) ->
  va_mode v = "strict" -> asi_cs (asd_signer a) = Some c -> counter_context w a c v cy ly ->
  counter_holds E a c cy ly.
Proof. exact c28_ok. Qed.
Print Assumptions C28_strict.

Theorem C28_strict_error :
  forall E fuel a expected v w h c cy ly,
  va_mode v = "strict" -> asi_cs (asd_signer a) = Some c -> counter_context w a c v cy ly -> kwargs_ok a v ->
  algorithms_agree a -> expected_hash E (f_bytes (w_file w)) a expected h -> h = sp_digest (asd_spc a) ->
  content_matches E (asd_data a) (asi_info (asd_signer a)) ->
  ~ counter_holds E a c cy ly ->
  exists e, snd (asd_verify E fuel a expected v w) = Err e /\
    (e_class e = AuthenticodeCounterSignerError \/ issubclass (e_class e) Exception_ = false).
Proof. exact c28_fail. Qed.
Print Assumptions C28_strict_error.

Example C28_run :
  let v := ex_v None None "strict" in
  counter_context ex_w (ex_asd (Some ex_good) ex_certs) ex_good v
    (default_context [0; 2]%nat "time_stamping" no_kwargs) [ex_trusted; shipped (ex_data ex_certs)] /\
  counter_holds ex_tenv (ex_asd (Some ex_good) ex_certs) ex_good
    (default_context [0; 2]%nat "time_stamping" no_kwargs) [ex_trusted; shipped (ex_data ex_certs)] /\
  ~ counter_holds ex_tenv (ex_asd (Some ex_foreign) ex_certs) ex_foreign
    (default_context [0; 2]%nat "time_stamping" no_kwargs) [ex_trusted; shipped (ex_data ex_certs)] /\
  ex_run (Some ex_foreign) v
  = raise AuthenticodeCounterSignerError "An error occurred while validating the countersignature" /\
  ex_run (Some ex_forged) v
  = raise AuthenticodeCounterSignerError "An error occurred while validating the countersignature".
Proof.
  intros v. assert (C : counter_context ex_w (ex_asd (Some ex_good) ex_certs) ex_good v
    (default_context [0; 2]%nat "time_stamping" no_kwargs) [ex_trusted; shipped (ex_data ex_certs)]).
  { exists ex_trusted. repeat split. }
  split; [exact C|]. split.
  { destruct (asd_verify ex_tenv 0 (ex_asd (Some ex_good) ex_certs) (Some [x07]) v ex_w) as [w' r] eqn:Er.
    assert (r = Ok [[ex_root; ex_int; ex_leaf]]) as -> by (change r with (snd (w', r)); rewrite <- Er; vm_compute; reflexivity).
    eapply c28_ok; [exact Er|reflexivity|reflexivity|exact C]. }
  split.
  { intros [H _]. vm_compute in H. discriminate H. }
  vm_compute. repeat split.
Qed.

(** *** C29: permitted countersignatures *)

(** A countersignature that holds counts in the same way as in the strict mode. *)
Theorem C29_permitted_as_strict :
  forall E fuel a expected v w w' r,
  permissive (va_mode v) ->
  asd_verify E fuel a expected (with_mode "strict" v) w = (w', r) ->
  (forall e, r = Err e -> e_class e <> AuthenticodeCounterSignerError) ->
  asd_verify E fuel a expected v w = (w', r).
Proof. exact c29_ok. Qed.
Print Assumptions C29_permitted_as_strict.

(** The full statement continues: one that does not hold counts as if it were absent.  This is
    false.  First, when one context object is passed for both purposes: the failing check
    leaves the time that the countersignature states in it. *)
Lemma ex_forged_fails E a cy ly :
  e_rsa_verify E = e_rsa_verify ex_env -> e_dsa_verify E = e_dsa_verify ex_env ->
  e_ecdsa_verify E = e_ecdsa_verify ex_env -> e_hash E = e_hash ex_env ->
  ~ counter_holds E a ex_forged cy ly.
Proof.
  intros E1 E2 E3 E4 (_ & (chain & c & cx' & _ & _ & H & _) & _).
  destruct H as [H|(_ & _ & _ & H)].
  - destruct H as [_ H|_ H|_ H]; rewrite ?E1, ?E2, ?E3 in H; vm_compute in H; discriminate H.
  - rewrite E1, E4 in H. vm_compute in H. discriminate H.
Qed.

Theorem C29_refuted :
  exists E a expected v w c cy ly chains e,
    permissive (va_mode v) /\ asi_cs (asd_signer a) = Some c /\ counter_context w a c v cy ly /\
    Forall readable ly /\ ~ counter_holds E a c cy ly /\
    snd (asd_verify E 0 a expected v w) = Ok chains /\
    snd (asd_verify E 0 (with_cs None a) expected v w) = Err e.
Proof.
  exists ex_tenv, (ex_asd (Some ex_forged) ex_certs), (Some [x07]), (ex_v (Some 0%nat) (Some 0%nat) "permit"), ex_w,
    ex_forged, ex_ctx, [ex_trusted; mkStore ex_certs false None None false]. do 2 eexists.
  split; [split; discriminate|]. split; [reflexivity|]. split; [split; [reflexivity|repeat constructor]|].
  split; [repeat constructor; discriminate|].
  split; [now apply ex_forged_fails|]. vm_compute. split; reflexivity.
Qed.
Print Assumptions C29_refuted.

(** Second, also with different contexts, when the location of a store cannot be read: the
    failing check marks the store as loaded, and the signer is then verified with the
    certificates that were read before the error. *)
Definition ex_w_damaged : world :=
  mkWorld [ex_fs ex_damaged; mkStore ex_certs false None None false] [ex_ctx; ex_ctx] ex_file.
Theorem C29_unreadable_refuted :
  exists E a expected v w c cy ly chains e,
    permissive (va_mode v) /\ asi_cs (asd_signer a) = Some c /\ counter_context w a c v cy ly /\
    distinct_contexts v /\ ~ counter_holds E a c cy ly /\
    snd (asd_verify E 0 a expected v w) = Ok chains /\
    snd (asd_verify E 0 (with_cs None a) expected v w) = Err e.
Proof.
  exists ex_venv, (ex_asd (Some ex_forged) ex_certs), (Some [x07]), (ex_v (Some 0%nat) (Some 1%nat) "permit"),
    ex_w_damaged, ex_forged, ex_ctx, [ex_fs ex_damaged; mkStore ex_certs false None None false]. do 2 eexists.
  split; [split; discriminate|]. split; [reflexivity|]. split; [split; [reflexivity|repeat constructor]|].
  split; [intros x y [= <-] [= <-]; discriminate|].
  split; [now apply ex_forged_fails|]. vm_compute. split; reflexivity.
Qed.
Print Assumptions C29_unreadable_refuted.

(** With different contexts and readable stores it is true, except that exceptions that are
    not an Exception pass. *)
Theorem C29_permitted_partial :
  forall E fuel a expected v w c cx l cy ly,
  permissive (va_mode v) -> asi_cs (asd_signer a) = Some c -> distinct_contexts v -> kwargs_ok a v ->
  signer_context w a v cx l -> counter_context w a c v cy ly -> Forall readable l -> Forall readable ly ->
  (~ counter_holds E a c cy ly ->
   snd (asd_verify E fuel a expected v w) = snd (asd_verify E fuel (with_cs None a) expected v w) \/
   exists e, snd (asd_verify E fuel a expected v w) = Err e /\ issubclass (e_class e) Exception_ = false) /\
  (forall e, snd (asd_verify E fuel a expected (with_mode "strict" v) w) = Err e ->
   e_class e = AuthenticodeCounterSignerError ->
   snd (asd_verify E fuel a expected v w) = snd (asd_verify E fuel (with_cs None a) expected v w) \/
   (counter_holds E a c cy ly /\ snd (asd_verify E fuel a expected v w) = Err e)).
Proof. exact c29_fail. Qed.
Print Assumptions C29_permitted_partial.

Example C29_run :
  let v := ex_v (Some 0%nat) (Some 1%nat) in
  (* a countersignature that holds extends the validity; the others do not *)
  ex_run (Some ex_good) (v "permit") = ex_run (Some ex_good) (v "strict") /\
  ex_run (Some ex_good) (v "permit") = Ok [[ex_root; ex_int; ex_leaf]] /\
  ex_run (Some ex_forged) (v "permit") = ex_run None (v "permit") /\
  ex_run (Some ex_foreign) (v "permit") = ex_run None (v "permit") /\
  is_ok (ex_run None (v "permit")) = false /\
  (* and do no harm when the signer is valid without them *)
  snd (asd_verify ex_venv 0 (ex_asd (Some ex_forged) ex_certs) (Some [x07]) (v "permit") ex_w)
  = Ok [[ex_root; ex_int; ex_leaf]].
Proof. vm_compute. repeat split. Qed.

(** *** C30: ignored countersignatures *)

Theorem C30_ignored :
  forall E fuel a expected v w o1 o2,
  va_mode v = "ignore" ->
  asd_verify E fuel (with_cs o1 a) expected v w = asd_verify E fuel (with_cs o2 a) expected v w.
Proof. exact c30. Qed.
Print Assumptions C30_ignored.

Example C30_run :
  let run cs := snd (asd_verify ex_venv 0 (ex_asd cs ex_certs) (Some [x07]) (ex_v None None "ignore") ex_w) in
  with_cs None (ex_asd (Some ex_forged) ex_certs) = ex_asd None ex_certs /\
  run (Some ex_forged) = Ok [[ex_root; ex_int; ex_leaf]] /\ run None = Ok [[ex_root; ex_int; ex_leaf]].
Proof. vm_compute. repeat split. Qed.

(** *** C31: the time at which the chains are validated *)

Theorem C31_without_countersignature :
  forall E fuel a expected v w w' chains cx l,
  asd_verify E fuel a expected v w = (w', Ok chains) -> signer_context w a v cx l -> distinct_contexts v ->
  (forall c, ~ considered a v c) ->
  Forall (signed_chain E (asi_info (asd_signer a)) cx l (validated_at cx None)) chains.
Proof. exact c31_none. Qed.
Print Assumptions C31_without_countersignature.

Theorem C31_with_countersignature :
  forall E fuel a expected v w w' chains cx l c cy ly,
  asd_verify E fuel a expected v w = (w', Ok chains) -> signer_context w a v cx l -> distinct_contexts v ->
  considered a v c -> counter_context w a c v cy ly ->
  (counter_holds E a c cy ly /\
   Forall (signed_chain E (asi_info (asd_signer a)) cx l (validated_at cx (counter_stated_time c))) chains) \/
  (va_mode v <> "strict" /\
   (exists e, snd (asd_verify E fuel a expected (with_mode "strict" v) w) = Err e /\
              e_class e = AuthenticodeCounterSignerError) /\
   Forall (signed_chain E (asi_info (asd_signer a)) cx l (validated_at cx None)) chains).
Proof. exact c31_some. Qed.
Print Assumptions C31_with_countersignature.

(** The validator sees the time of the countersignature, of the context, or none. *)
Definition ex_only_at (t : option datetime) : env :=
  with_validator (e_mk_validation ex_venv)
    (fun _ t' _ c _ _ eku _ =>
       if list_eq_dec string_dec eku ["time_stamping"] then Ok [10; 11; c_id c]
       else if match t, t' with Some (Aware t), Some (Aware t') => t =? t' | None, None => true | _, _ => false end
       then Ok [10; 11; c_id c] else raise (ExtException "PathValidationError") "not then") ex_venv.
Definition ex_kw (t : option datetime) (m : string) : vargs := mkVargs None None 0 (mkKwargs t None true default_opts true) m.
Example C31_run :
  let ok t cs v := is_ok (snd (asd_verify (ex_only_at t) 0 (ex_asd cs ex_certs) (Some [x07]) v ex_w)) in
  ok (Some (Aware 700)) (Some ex_good) (ex_kw None "strict") = true /\
  ok (Some (Aware 700)) (Some ex_good) (ex_kw (Some (Aware 600)) "permit") = true /\
  ok (Some (Aware 600)) (Some ex_good) (ex_kw (Some (Aware 600)) "strict") = false /\
  ok (Some (Aware 600)) (Some ex_forged) (ex_kw (Some (Aware 600)) "permit") = true /\
  ok (Some (Aware 700)) (Some ex_forged) (ex_kw (Some (Aware 600)) "permit") = false /\
  ok (Some (Aware 600)) (Some ex_good) (ex_kw (Some (Aware 600)) "ignore") = true /\
  ok (Some (Aware 600)) None (ex_kw (Some (Aware 600)) "strict") = true /\
  ok None None (ex_kw None "strict") = true /\
  ok (Some (Aware 1000)) None (ex_kw None "strict") = false.
Proof. vm_compute. repeat split. Qed.

(** *** C32: lifetime signing *)

(** The full statement: for a certificate with the lifetime signing usage the time of the
    countersignature is not used.  It is false: an earlier candidate without the usage, with
    the same issuer, serial number and key, sets the time even if its chain fails. *)
Definition ex_lifetime : cert :=
  mkCert 18 [x18] ex_int_name 4 ex_leaf_name ex_key 0 800 (Some ["code_signing"; "microsoft_lifetime_signing"]).
Definition ex_lure : cert := mkCert 19 [x19] ex_int_name 4 ex_ca ex_key 0 800 (Some ["code_signing"]).
(** The lure is not accepted at all, the others until the time 800. *)
Definition ex_lure_env : env :=
  with_validator (e_mk_validation ex_venv)
    (fun roots t o c ints ku eku b =>
       if c_id c =? 19 then raise (ExtException "PathValidationError") "not issued by us"
       else e_validate ex_tenv roots t o c ints ku eku b) ex_venv.
Definition ex_lure_run (certs : list cert) : res (list (list cert)) :=
  snd (asd_verify ex_lure_env 0 (ex_asd (Some ex_good) certs) (Some [x07]) (ex_v None None "strict") ex_w).

Theorem C32_refuted :
  exists E a expected v w w' c chain cx l,
    asd_verify E 0 a expected v w = (w', Ok [chain]) /\ signer_context w a v cx l /\ distinct_contexts v /\
    In c chain /\ named (asi_info (asd_signer a)) c /\ lifetime c /\
    ~ signed_chain E (asi_info (asd_signer a)) cx l (fun _ t => t = x_timestamp cx) chain.
Proof.
  exists ex_lure_env, (ex_asd (Some ex_good) [ex_int; ex_lure; ex_lifetime; ex_tsa]), (Some [x07]),
    (ex_v None None "strict"), ex_w. do 5 eexists.
  split; [vm_compute; reflexivity|]. split; [exists ex_trusted; repeat split|]. split; [intros x y [=]|].
  split; [do 2 right; left; reflexivity|]. split; [split; reflexivity|].
  split; [eexists; split; [reflexivity|right; left; reflexivity]|].
  intros (c & cx' & _ & _ & _ & _ & T & H & _). change (x_timestamp cx' = None) in T. rewrite T in H.
  revert H. cbn [ex_lure_env with_validator e_validate]. destruct (c_id c =? 19); discriminate.
Qed.
Print Assumptions C32_refuted.

(** It is true when all certificates that the signer names and that verify its signature have
    the usage. *)
Theorem C32_lifetime_partial :
  forall E fuel a expected v w w' chains cx l,
  asd_verify E fuel a expected v w = (w', Ok chains) -> signer_context w a v cx l -> distinct_contexts v ->
  (forall c, considered a v c -> exists cy ly, counter_context w a c v cy ly) ->
  (forall c, In c (concat (map contents l)) -> named (asi_info (asd_signer a)) c ->
     signs E (v_allow_legacy (x_opts cx)) (asi_info (asd_signer a)) c -> lifetime c) ->
  Forall (signed_chain E (asi_info (asd_signer a)) cx l (fun _ t => t = x_timestamp cx)) chains.
Proof. exact c32. Qed.
Print Assumptions C32_lifetime_partial.

(** Rejected after its lifetime, accepted with the lure. *)
Example C32_run :
  is_ok (ex_lure_run [ex_int; ex_lifetime; ex_tsa]) = false /\
  is_ok (ex_lure_run [ex_int; ex_leaf; ex_tsa]) = true /\
  is_ok (ex_lure_run [ex_int; ex_lifetime; ex_lure; ex_tsa]) = false /\
  ex_lure_run [ex_int; ex_lure; ex_lifetime; ex_tsa] = Ok [[ex_root; ex_int; ex_lifetime]] /\
  snd (asd_verify ex_venv 0 (ex_asd (Some ex_good) [ex_int; ex_lifetime; ex_tsa]) (Some [x07])
         (ex_v None None "strict") ex_w) = Ok [[ex_root; ex_int; ex_lifetime]].
Proof. vm_compute. repeat split. Qed.

(** *** C33: independence of several signatures *)

(** The full statement: verifying other signatures with the same arguments does not change
    the verdict.  It is false: in a context that was passed for the signers the time of one
    countersignature stays for the next signature. *)
Theorem C33_refuted :
  exists E v jobs w a expected chains e,
    usable w v a /\ distinct_contexts v /\
    snd (asd_verify E 0 a expected v w) = Err e /\
    snd (asd_verify E 0 a expected v (after_verifying E 0 v jobs w)) = Ok chains.
Proof.
  exists ex_tenv, (ex_v (Some 0%nat) None "strict"), [(ex_asd (Some ex_good) ex_certs, Some [x07])], ex_w,
    (ex_asd None ex_certs), (Some [x07]). do 2 eexists.
  split.
  { split; [|intros c [[=] _]].
    exists ex_ctx, [ex_trusted; mkStore ex_certs false None None false].
    split; [split; [reflexivity|repeat constructor]|]. repeat constructor; discriminate. }
  split; [intros x y _ [=]|].
  vm_compute. split; reflexivity.
Qed.
Print Assumptions C33_refuted.

(** It is true for contexts whose usages can be read repeatedly, when none is passed for the
    signer together with a countersignature to be checked. *)
Theorem C33_independent_partial :
  forall E fuel v jobs w a expected,
  shareable w v (a :: map fst jobs) -> usable w v a ->
  snd (asd_verify E fuel a expected v w) = snd (asd_verify E fuel a expected v (after_verifying E fuel v jobs w)) \/
  (expected = None /\
   (snd (asd_verify E fuel a expected v w) = Err out_of_fuel \/
    snd (asd_verify E fuel a expected v (after_verifying E fuel v jobs w)) = Err out_of_fuel)).
Proof. exact c33. Qed.
Print Assumptions C33_independent_partial.

Example C33_run :
  let v := ex_v None None "strict" in
  let jobs := [(ex_asd (Some ex_good) ex_certs, Some [x07]); (ex_asd (Some ex_token) [], Some [x08]);
               (ex_asd (Some ex_forged) ex_certs, Some [x07])] in
  let later := after_verifying ex_tenv 0 v jobs ex_w in
  shareable ex_w v (ex_asd None ex_certs :: map fst jobs) /\ usable ex_w v (ex_asd None ex_certs) /\
  later <> ex_w /\
  snd (asd_verify ex_tenv 0 (ex_asd None ex_certs) (Some [x07]) v later)
  = raise CertificateVerificationError "Chain verification failed" /\
  snd (asd_verify ex_tenv 0 (ex_asd (Some ex_good) ex_certs) (Some [x07]) v later) = Ok [[ex_root; ex_int; ex_leaf]].
Proof.
  intros v jobs later. split; [split; intros x [=]|]. split.
  { split; [|intros c [[=] _]].
    exists (default_context [0; 2]%nat "code_signing" no_kwargs), [ex_trusted; shipped (ex_data ex_certs)].
    split; [exists ex_trusted; repeat split|]. repeat constructor; discriminate. }
  split; [intros H; apply (f_equal (fun w => length (w_stores w))) in H; vm_compute in H; discriminate H|].
  vm_compute. split; reflexivity.
Qed.

(** *** C34: trust anchors *)

(** Without contexts given, nothing depends on what the validator answers for other anchors
    than the certificates of the trusted store, or for other intermediates than those shipped
    with the signature: certificates of the signature never become anchors. *)
Theorem C34_trust_anchors :
  forall mk validate E fuel a expected v w ts,
  va_context v = None -> va_cs_context v = None ->
  nth_error (w_stores w) (va_trusted v) = Some ts ->
  let anchors := if s_trusted ts then contents ts else [] in
  let others := if s_trusted ts then [] else contents ts in
  (forall t o c more,
     more = [] \/ (exists tk, asi_cs (asd_signer a) = Some (CSToken tk) /\ more = sd_certificates (r_data tk)) ->
     mk anchors t o c (others ++ sd_certificates (asd_data a) ++ more) =
     e_mk_validation E anchors t o c (others ++ sd_certificates (asd_data a) ++ more)) ->
  (forall t o c more ku eku b,
     more = [] \/ (exists tk, asi_cs (asd_signer a) = Some (CSToken tk) /\ more = sd_certificates (r_data tk)) ->
     validate anchors t o c (others ++ sd_certificates (asd_data a) ++ more) ku eku b =
     e_validate E anchors t o c (others ++ sd_certificates (asd_data a) ++ more) ku eku b) ->
  asd_verify (with_validator mk validate E) fuel a expected v w = asd_verify E fuel a expected v w.
Proof. exact c34. Qed.
Print Assumptions C34_trust_anchors.

(** A validator that accepts every chain as soon as a certificate other than those of the
    trusted store is an anchor: a signature with its own root is still refused, and one
    under the trusted root is accepted. *)
Definition ex_naive : env :=
  with_validator (fun _ _ _ _ _ => Ok tt)
    (fun roots t o c ints ku eku b =>
       if forallb (fun r => c_id r =? 10) roots
       then if c_id c =? 13 then Ok [10; 11; 13] else raise (ExtException "PathBuildingError") ""
       else Ok [c_id c]) ex_venv.
Definition ex_own_root : cert := mkCert 20 [x20] ex_int_name 4 ex_int_name ex_key 0 5000 None.
Example C34_run :
  let run certs := snd (asd_verify ex_naive 0 (ex_asd None certs) (Some [x07]) (ex_v None None "strict") ex_w) in
  run ex_certs = Ok [[ex_root; ex_int; ex_leaf]] /\ is_ok (run [ex_own_root]) = false.
Proof. vm_compute. split; reflexivity. Qed.
