(** Properties C71 and C72: certificate trust lists from octets. *)
From Verif Require Import Base Bytes Monad ModelFile ModelX509 ModelContext SpecContext ModelPkcs7 ModelLazy ModelCtl ModelDer ModelSpc ModelDecode
  ModelStl SpecPkcs7 ProofsPkcs7 SpecCtl SpecStl SpecEnvelope ProofsBer2 ProofsStl ProofsStl2 ProofsStl3 ProofsCtl2 PropertiesFingerprint PropertiesX509 PropertiesContext PropertiesCtl ExampleDer PropertiesEnvelope.

(** *** C71: the errors of opening a list *)

Theorem C71_errors :
  forall data e, der_from_stl_file data = Err e ->
  In (e_class e) [ValueError; ParseError; CertificateTrustListParseError; KeyError; TypeError; IndexError; StructError; OverflowError].
Proof. exact (open_fails CertificateTrustListParseError). Qed.
Print Assumptions C71_errors.

Theorem C71_envelope :
  forall data e, der_list_from_envelope data = Err e ->
  In (e_class e) [ValueError; ParseError; KeyError; TypeError; IndexError; StructError; OverflowError].
Proof. intros data e H. destruct (open_fails ParseError data e H) as [?|[?|[?|?]]]; cbn; tauto. Qed.
Print Assumptions C71_envelope.

(** Every class is reached.  A list whose only entry has one attribute. *)
Definition o_ctl := "2b0601040182370a01".
Definition e_ctl_attr (n : byte) (vals : list bytes) : bytes :=
  e_seq [enc x06 [[x2b; x06; x01; x04; x01; x82; x37; x0a; x0b; n]]; e_set (map e_octets vals)].
Definition e_entry (id : bytes) (attrs : list bytes) : bytes := e_seq [e_octets id; e_set attrs].
Definition e_list (alg : string) (entries : list bytes) : bytes :=
  e_seq [e_seq [e_oid "2b06010505070303"]; e_octets (str "list"); e_int x07; enc x17 [str "200102030405Z"];
         e_seq [e_oid alg]; e_seq entries].
Definition e_stl (entries : list bytes) : bytes := e_signed x01 [e_alg o_sha256] o_ctl (e_list o_sha1 entries) [] [].
Definition e_stl_rejected : list (exc_class * bytes) :=
  [(ValueError, removelast (e_stl []));
   (ParseError, e_signed x01 [e_alg o_sha256] o_ctl (e_list o_rsa []) [] []);
   (CertificateTrustListParseError, e_seq [e_oid o_data]);
   (KeyError, e_signed x01 [] o_ctl (e_list o_sha1 []) [] []);
   (TypeError, e_seq [e_oid o_signed]);
   (IndexError, e_stl [e_entry [x05] [e_ctl_attr x14 []]]);
   (StructError, e_stl [e_entry [x05] [e_ctl_attr x68 [[x00]]]]);
   (OverflowError, e_stl [e_entry [x05] [e_ctl_attr x68 [repeat xff 8]]])].
Example C71_reached :
  forallb (fun p => match der_from_stl_file (snd p) with
                    | Err e => if exc_class_eq_dec (e_class e) (fst p) then true else false
                    | Ok _ => false
                    end) e_stl_rejected = true /\
  is_ok (der_from_stl_file (e_stl [])) = true /\
  match der_list_from_envelope (e_seq [e_oid o_data]) with Err e => e_class e = ParseError | Ok _ => False end.
Proof. vm_compute. repeat split. Qed.

(** *** C72: a list is read as it is written *)

(** When a file holds the list [r] it is opened iff both digest algorithms are acceptable and
    the attributes of the entries are well-formed. *)
Theorem C72_readable :
  forall data alg cs r, holds_trust_list data alg cs r ->
  ((exists t, der_from_stl_file data = Ok t) <->
   (forall n, In n [alg; rl_algorithm r] ->
      In (alg_name n) ["md5"; "sha1"; "sha256"; "sha384"; "sha512"] /\ alg_has_params n = false) /\
   Forall (fun e => Forall well_formed (rs_attributes e)) (rl_subjects r)).
Proof. exact c72_readable. Qed.
Print Assumptions C72_readable.

(** What is then read of it. *)
Theorem C72_read :
  forall data alg cs r t, holds_trust_list data alg cs r -> der_from_stl_file data = Ok t ->
  tl_digest_alg t = alg_name alg /\ certificates_of cs (tl_certificates t) /\
  tl_usage t = rl_usage r /\ tl_identifier t = rl_identifier r /\ tl_sequence t = rl_sequence r /\
  tl_this_update t = rl_this_update r /\ tl_next_update t = rl_next_update r /\
  ctl_algorithm (tl_ctl t) = alg_name (rl_algorithm r) /\
  NoDup (map ts_identifier (subjects (tl_ctl t))) /\
  forall s, In s (subjects (tl_ctl t)) <-> exists e, last_entry (rl_subjects r) (rs_identifier e) e /\ reads e s.
Proof. intros data alg cs r t H Ht. rewrite certificates_ok. exact (c72_read data alg cs r t H Ht). Qed.
Print Assumptions C72_read.

(** The decision on a chain, from the octets: the last entry for the root allows it. *)
Theorem C72_trust :
  forall E data alg cs r t x c root rest w,
  holds_trust_list data alg cs r -> der_from_stl_file data = Ok t ->
  nth_error (w_contexts w) x = Some c -> reusable c ->
  (ctl_verify_trust E (tl_ctl t) (root :: rest) x w = (w, Ok true) <->
   In (alg_name (rl_algorithm r)) ["sha1"; "sha256"] /\
   exists e, last_entry (rl_subjects r) (list_identifier E (alg_name (rl_algorithm r)) root) e /\
     allows e (c_valid_from (last rest root)) (asked_time E c) (asked_usages c)).
Proof.
  intros E data alg cs r t x c root rest w H Ht Hc R.
  exact (C60_trust E _ _ _ x c root rest w (c72_parsed _ _ _ _ _ H Ht) Hc R).
Qed.
Print Assumptions C72_trust.

(** A list with three entries: the last for ex_root counts; it allows two usages until a time,
    and has a friendly name, an attribute that is not known and two values where one is used. *)
Definition e_usages (oids : list string) : bytes := e_seq (map e_oid oids).
Definition ex_root_id : bytes := list_identifier ex_env "sha1" ex_root.
Definition e_entries : list bytes :=
  [e_entry (list_identifier ex_env "sha1" ex_int) []; e_seq [e_octets ex_root_id];
   e_entry ex_root_id
     [e_ctl_attr x09 [e_usages ["2b06010505070303"; "2b06010505070301"]; e_usages []];
      e_ctl_attr x0b [[x47; x00; xe9; x00; x3d; xd8; x12; xde; x00; x00]];
      e_ctl_attr x68 [Z_to_le 8 20000; []];
      e_ctl_attr x7e [[]]; e_ctl_attr x7f [e_usages ["2b06010505070301"]];
      e_ctl_attr x14 [[x02]]; e_ctl_attr x53 [[x03]; [x04]]; e_seq [e_oid "2a03"; e_set [e_octets []]]]].
Definition ex_raw_list : raw_list :=
  mkRawList ["code_signing"] (Some (str "list")) (Some 7)
    (ModelDecode.days_from_civil 2020 1 2 * 86400000000 + 11045000000) None (mkAlgid "sha1" false)
    [mkRawSubject (list_identifier ex_env "sha1" ex_int) []; mkRawSubject ex_root_id [];
     mkRawSubject ex_root_id
       [AtEnhkeyUsage [["code_signing"; "server_auth"]; []];
        AtFriendlyName [[71%N; 233%N; 128530%N]];
        AtDisallowedFiletime [Z_to_le 8 20000; []];
        AtNotBeforeFiletime [[]]; AtNotBeforeEnhkeyUsage [["server_auth"]];
        AtKeyIdentifier [[x02]]; AtOther "microsoft_ctl_root_program_cert_policies" 2; AtOther "1.2.3" 1]].
(** The two ways to hold it; the second has a certificate. *)
Definition e_stl_v1 : bytes := e_stl e_entries.
Definition e_stl_v3 : bytes :=
  e_signed x03 [e_alg o_sha256] o_ctl (e_octets (e_list o_sha1 e_entries)) [enc xa0 [e_cert]] [].
Definition ex_choices : list raw_choice :=
  match parse_tlv e_cert with
  | Ok (t, _) => match lz_certificates [read_choice t] with Ok l => map ChoiceCertificate l | Err _ => [] end
  | Err _ => []
  end.

Ltac items :=
  repeat match goal with
  | |- Forall2 _ [] _ => apply Forall2_nil
  | |- Forall2 _ (_ :: _) _ => apply Forall2_cons
  end.
Ltac a_pair := split; computed.
Ltac a_usage := first [exists []; a_pair | eexists [_]; a_pair | eexists [_; _]; a_pair].
Lemma e_entries_mean : exists l,
  map (load TrustedSubject) e_entries = map Ok l /\ Forall2 entry_means l (rl_subjects ex_raw_list).
Proof.
  eexists [_; _; _]. split; [vm_compute; reflexivity|]. cbn [rl_subjects ex_raw_list]. items.
  - eexists. split; [reflexivity|]. eexists. split; [reflexivity|constructor].
  - eexists. split; [reflexivity|]. reflexivity.
  - eexists. split; [reflexivity|]. eexists. split; [reflexivity|]. cbn [rs_attributes]. items.
    + exists [x2b; x06; x01; x04; x01; x82; x37; x0a; x0b; x09]. eexists [_; _]. split; [reflexivity|].
      apply MeansEnhkeyUsage; [reflexivity|]. items; a_usage.
    + exists [x2b; x06; x01; x04; x01; x82; x37; x0a; x0b; x0b]. eexists [_]. split; [reflexivity|].
      apply MeansFriendlyName; [reflexivity|]. items. split; [|split].
      * repeat constructor; unfold scalar; cbn; lia.
      * intros u E. apply (f_equal (fun l => last l 1%N)) in E. rewrite last_last in E. discriminate E.
      * exists 1%nat. reflexivity.
    + exists [x2b; x06; x01; x04; x01; x82; x37; x0a; x0b; x68]. eexists [_; _]. split; [reflexivity|].
      apply MeansDisallowedFiletime. reflexivity.
    + exists [x2b; x06; x01; x04; x01; x82; x37; x0a; x0b; x7e]. eexists [_]. split; [reflexivity|].
      apply MeansNotBeforeFiletime. reflexivity.
    + exists [x2b; x06; x01; x04; x01; x82; x37; x0a; x0b; x7f]. eexists [_]. split; [reflexivity|].
      apply MeansNotBeforeEnhkeyUsage; [reflexivity|]. items; a_usage.
    + exists [x2b; x06; x01; x04; x01; x82; x37; x0a; x0b; x14]. eexists [_]. split; [reflexivity|].
      apply MeansKeyIdentifier. reflexivity.
    + exists [x2b; x06; x01; x04; x01; x82; x37; x0a; x0b; x53]. eexists [_; _]. split; [reflexivity|].
      apply MeansOther. vm_compute. intuition discriminate.
    + exists [x2a; x03]. eexists [_]. split; [reflexivity|].
      apply MeansOther. vm_compute. intuition discriminate.
Qed.
Lemma e_list_means : exists v, load CertificateTrustList (e_list o_sha1 e_entries) = Ok v /\ list_means v ex_raw_list.
Proof.
  destruct e_entries_mean as (l & El & Hl).
  apply (f_equal (fun x => map (fun r => match r with Ok v => Some v | Err _ => None end) x)) in El. rewrite map_map in El.
  vm_compute in El.
  destruct l as [|v1 [|v2 [|v3 [|? ?]]]]; try discriminate El. injection El as <- <- <-.
  eexists. split; [vm_compute; reflexivity|].
  eexists _, [_], _, _, _, _, _, _, _. split; [reflexivity|]. split; [vm_compute; reflexivity|].
  split; [reflexivity|]. split; [eexists; split; [reflexivity|vm_compute; reflexivity]|].
  split; [eexists _, _; split; [reflexivity|apply ProofsPrim4.time_is; vm_compute; reflexivity]|]. split; [exact I|].
  split; [eexists _, _; split; [reflexivity|split; [vm_compute; reflexivity|reflexivity]]|].
  eexists. split; [reflexivity|exact Hl].
Qed.
Example C72_held :
  holds_trust_list e_stl_v1 (mkAlgid "sha256" false) [] ex_raw_list /\
  holds_trust_list e_stl_v3 (mkAlgid "sha256" false) ex_choices ex_raw_list.
Proof.
  destruct e_list_means as (v & Ev & Hv). split.
  - left. exists v. split; [|exact Hv]. clear Hv. vm_compute in Ev. injection Ev as <-.
    unfold stl_file. do 7 eexists. split; [computed|]. split; [reflexivity|]. split; [reflexivity|].
    split; [vm_compute; reflexivity|].
    split; [eexists _, _; split; [reflexivity|split; [vm_compute; reflexivity|eexists; split; [reflexivity|rewrite <- truthy_is; vm_compute; split; first [reflexivity|discriminate]]]]|].
    reflexivity.
  - right. exists 3. eexists. exists v. split; [discriminate|]. split; [|split; [apply load_written; [reflexivity|exact Ev]|exact Hv]].
    unfold stl_file. do 7 eexists. split; [computed|]. split; [reflexivity|]. split; [reflexivity|].
    split; [vm_compute; reflexivity|].
    split; [eexists _, _; split; [reflexivity|split; [vm_compute; reflexivity|eexists; split; [reflexivity|rewrite <- truthy_is; vm_compute; split; first [reflexivity|discriminate]]]]|].
    eexists [_]. split; [reflexivity|].
    let l := eval vm_compute in ex_choices in replace ex_choices with l by (vm_compute; reflexivity). each choice.
Qed.
Example C72_run : forall data, In data [e_stl_v1; e_stl_v3] ->
  match der_from_stl_file data with
  | Ok t =>
      length (subjects (tl_ctl t)) = 2%nat /\
      let w time us := mkWorld [] [mkContext [] (Some time) None (Some (mkUsages false us)) false ex_opts] ex_file in
      let run time us := ctl_verify_trust ex_env (tl_ctl t) [ex_root; ex_leaf] 0 (w time us) in
      run 1999 ["code_signing"] = (w 1999 ["code_signing"], Ok true) /\
      is_ok (snd (run 2000 ["code_signing"])) = false /\
      is_ok (snd (run 1999 ["time_stamping"])) = false /\
      is_ok (snd (run 1999 ["server_auth"])) = false
  | Err _ => False
  end.
Proof. intros data [<-|[<-|[]]]; vm_compute; repeat split. Qed.
