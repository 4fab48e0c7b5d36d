(** Properties C56 and following: whole verifications. *)
From Verif Require Import Base Bytes Monad ModelFile ModelFingerprint SpecFingerprint ModelPE SpecPE ModelX509 SpecX509
  ModelContext SpecContext ModelPkcs7 ModelAuthenticode SpecAuthenticode SpecSignedPE SpecWhole
  ProofsWhole PropertiesFingerprint
  PropertiesX509 PropertiesContext PropertiesPE PropertiesPkcs7 PropertiesAuthenticode PropertiesSignedPE.

(** *** C56: verification ends, and with which errors *)

(** Verifying a file ends: from some number of steps on the world, the dict and the result do
    not change any more.  An error is one of reading the signatures, of there being none, of a
    name of a hash that hashlib does not have, one of the listed classes, or one raised by a
    library; in particular never one of the two that only the model has (out of fuel and
    dangling reference). *)
Theorem C56_terminates_with_listed_errors :
  forall load E depth mode expected ign v w,
  well_formed w v ->
  exists N x,
    (forall fuel, (N <= fuel)%nat -> pe_open_verify load E depth fuel mode expected ign v w = x) /\
    forall e, snd x = Err e ->
      (exists l, terminates_with (fun k => iterate load depth true ign k (w_file w)) (l, Some e) /\
         (In (e_class e) (SignedPEParseError :: parse_errors) \/ exists b, load b = Err e)) \/
      (terminates_with (fun k => iterate load depth true ign k (w_file w)) ([], None) /\
       e_class e = AuthenticodeNotSignedError) \/
      (exists l, terminates_with (fun k => iterate load depth true ign k (w_file w)) (l, None) /\ l <> [] /\
         ((e_class e = AttributeError /\ ~ known_names E expected) \/
          In (e_class e) verify_errors \/ foreign load E (w_stores w) e)).
Proof. exact c56. Qed.
Print Assumptions C56_terminates_with_listed_errors.

(** Libraries that raise nothing by themselves but for wrong signatures and chains. *)
Definition ex_quiet (answer : option (list Z)) : env :=
  {| e_hash := e_hash ex_env; e_load_key := fun _ => Ok "rsa";
     e_rsa_verify := e_rsa_verify ex_env; e_dsa_verify := e_dsa_verify ex_env; e_ecdsa_verify := e_ecdsa_verify ex_env;
     e_now := 1000; e_mk_validation := fun _ _ _ _ _ => Ok tt;
     e_validate := fun _ _ _ _ _ _ _ _ =>
       match answer with Some ids => Ok ids | None => raise (ExtException "PathValidationError") "" end;
     e_hashlib_has := e_hashlib_has ex_env |}.
Lemma quiet_never load answer stores e :
  (forall b, exists r, load b = Ok r) -> (forall s, In s stores -> s_location s = None) ->
  ~ foreign load (ex_quiet answer) stores e.
Proof.
  intros Hl Hs [b H|k H|k s d h H Hk|k s d h H Hk|k s d h H Hk|ts m o H|ts m o c is ku eku b H Hk|s l cs Hi H _].
  - destruct (Hl b); congruence.
  - discriminate.
  - cbn in H. destruct (bytes_eqb s d); [discriminate|]. inversion H; subst. discriminate.
  - cbn in H. destruct (bytes_eqb s d); [discriminate|]. inversion H; subst. discriminate.
  - cbn in H. destruct (bytes_eqb s d); [discriminate|]. inversion H; subst. discriminate.
  - discriminate.
  - cbn in H. destruct answer; [discriminate|]. inversion H; subst. discriminate.
  - rewrite (Hs s Hi) in H. discriminate.
Qed.

(** Every class of the list is raised by some verification without any library raising it. *)
Definition ex_counted (c : raw_si) : raw_sd :=
  match ex_raw "sha256" (ex_hash "sha256" ex_pair) [] with
  | RawSD algs t content certs crls [RawSI sid d signed contents s sg _] =>
      RawSD algs t content certs crls [RawSI sid d signed contents s sg [ACounterSignature [c]]]
  | r => r
  end.
Record scenario := mkScenario {
  sc_class : exc_class;
  sc_ci : raw_ci;
  sc_answer : option (list Z);
  sc_depth : nat;
  sc_store : store;
  sc_file : file;
  sc_expected : option (dict bytes);
  sc_ignore : bool
}.
Definition ex_scenarios : list scenario :=
  let chain := Some [10; 11; 13] in
  let good := ex_raw "sha256" (ex_hash "sha256" ex_pair) [] in
  let parse k r := mkScenario k r chain 9 ex_trusted ex_pair None false in
  let token t := RawSigned (ex_sd [ex_si ex_spc_attrs [ATimeStampToken [RawSigned t]]]) in
  let bad_tst acc tsa := RawSD [ex_sha256] "tst_info"
    (mkRawContent [] (RVTst (mkRawTst "v1" "" ex_sha256 [] 0 0 acc tsa))) [] 0
    [ex_si (ex_attrs "tst_info" []) []] in
  let trust k ctl := mkScenario k (RawSigned good) chain 9 (mkStore [ex_root] true (Some ctl) None false) ex_pair None false in
  let valid k answer := mkScenario k (RawSigned good) answer 9 ex_trusted ex_pair None false in
  [mkScenario SignedPEParseError (RawSigned good) chain 9 ex_trusted ex_file None false;
   mkScenario AuthenticodeNotSignedError (RawSigned good) chain 9 ex_trusted ex_file None true;
   mkScenario AttributeError (RawSigned good) chain 9 ex_trusted ex_pair (Some [("SHA-256", [])]) true;
   parse ParseError (RawOther "data" false);
   parse SignerInfoParseError (RawSigned (ex_sd [ex_si [] []]));
   parse AuthenticodeParseError (RawSigned (ex_sd []));
   parse KeyError (RawSigned (RawSD [] "" (mkRawContent [] RVNone) [] 0 []));
   parse TypeError (RawSigned (RawSD [ex_sha256] spc_type (mkRawContent [] RVNone) [] 0 []));
   mkScenario RecursionError (RawSigned good) chain 0 ex_trusted ex_pair None true;
   parse AssertionError (token (ex_token_sd [ACounterSignature [ex_counter]]));
   parse NotImplementedError (token (bad_tst None (TsaOther "dns_name")));
   parse OverflowError (token (bad_tst (Some (Some (10 ^ 15), None, None)) TsaAbsent));
   parse AuthenticodeInconsistentDigestAlgorithmError
     (RawSigned (RawSD [mkAlgid "sha1" false] spc_type
        (mkRawContent ex_content (RVSpc ex_spc)) [] 0 [ex_si ex_spc_attrs []]));
   parse AuthenticodeInvalidDigestError (RawSigned (ex_raw "sha256" [] []));
   parse AuthenticodeCounterSignerError (RawSigned (ex_counted ex_counter));
   parse SignerInfoVerificationError
     (RawSigned match good with RawSD a t c _ n s => RawSD a t c [] n s end);
   valid CertificateVerificationError None;
   trust CTLCertificateVerificationError (mkCtl "sha1" []);
   trust CertificateTrustListParseError (mkCtl "md5" []);
   valid IndexError (Some [])].
Definition sc_load (s : scenario) : loader := fun _ => Ok (sc_ci s).
Definition sc_world (s : scenario) : world := mkWorld [sc_store s] [] (sc_file s).
Notation sc_run s :=
  (verify_result (sc_load s) (ex_quiet (sc_answer s)) (sc_depth s) 400 "all" (sc_expected s) (sc_ignore s)
     (ex_v None None "strict") (sc_world s)) (only parsing).

Definition class_eqb (k k' : exc_class) : bool := if exc_class_eq_dec k k' then true else false.
Lemma scenarios_run :
  forallb (fun s => match sc_run s with Err e => class_eqb (e_class e) (sc_class s) | Ok _ => false end
                    && match s_location (sc_store s) with None => true | Some _ => false end) ex_scenarios = true /\
  forallb (fun k => existsb (fun s => class_eqb (sc_class s) k) ex_scenarios)
    (SignedPEParseError :: AuthenticodeNotSignedError :: AttributeError :: parse_errors ++ verify_errors) = true.
Proof. vm_compute. split; reflexivity. Qed.

Theorem C56_each_class_occurs :
  forall k, In k (SignedPEParseError :: AuthenticodeNotSignedError :: AttributeError :: parse_errors ++ verify_errors) ->
  exists load E depth fuel mode expected ign v w e,
    well_formed w v /\ verify_result load E depth fuel mode expected ign v w = Err e /\ e_class e = k /\
    ~ foreign load E (w_stores w) e.
Proof.
  intros k Hk. destruct scenarios_run as [Hrun Hall].
  rewrite forallb_forall in Hrun, Hall. specialize (Hall k Hk). apply existsb_exists in Hall. destruct Hall as (s & Hs & Hc).
  specialize (Hrun s Hs). unfold class_eqb in *. apply andb_prop in Hrun. destruct Hrun as [Hrun Hloc].
  destruct (exc_class_eq_dec (sc_class s) k) as [<-|]; [|discriminate]. destruct (sc_run s) as [|e] eqn:Hr; [discriminate|].
  destruct (exc_class_eq_dec (e_class e) (sc_class s)) as [He|]; [|discriminate].
  exists (sc_load s), (ex_quiet (sc_answer s)), (sc_depth s), 400%nat, "all", (sc_expected s), (sc_ignore s),
    (ex_v None None "strict"), (sc_world s), e.
  split; [|split; [exact Hr|split; [exact He|]]].
  - split; [cbn; lia|]. split; [discriminate|]. split; [discriminate|]. cbn. tauto.
  - apply quiet_never; [intros b; now exists (sc_ci s)|]. intros t [<-|[]].
    destruct (s_location (sc_store s)); [discriminate|reflexivity].
Qed.
Print Assumptions C56_each_class_occurs.

(** That every error raised by signify itself is a SignifyError is therefore wrong. *)
Theorem C56_refuted :
  exists load E depth fuel mode expected ign v w e,
    well_formed w v /\ verify_result load E depth fuel mode expected ign v w = Err e /\
    ~ foreign load E (w_stores w) e /\
    issubclass (e_class e) SignifyError = false.
Proof.
  destruct (C56_each_class_occurs IndexError) as (load & E & d & n & m & x & i & v & w & e & H1 & H2 & H3 & H4).
  { repeat (first [left; reflexivity|right]). }
  exists load, E, d, n, m, x, i, v, w, e. split; [exact H1|]. split; [exact H2|]. split; [exact H4|]. now rewrite H3.
Qed.
Print Assumptions C56_refuted.
