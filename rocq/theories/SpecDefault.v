(** What a verification without arguments has to find, in the octets of the file, of the files of
    the directory and of the trust list. *)
From Verif Require Import Base ModelFile ModelPE ModelX509 SpecX509 ModelContext SpecContext ModelPkcs7 ModelAuthenticode ModelCtl ModelDer ModelDecode ModelPem
  SpecCtl SpecAuthenticode SpecSignedPE SpecFingerprint SpecPE SpecPem SpecRead SpecAccepted SpecEvidence SpecTrustList.

(** No time is given: there is none, or that which the countersignature states. *)
Definition stated_time (a : asd) (t : option datetime) : Prop :=
  t = None \/ exists c, asi_cs (asd_signer a) = Some c /\ t = counter_stated_time c.

(** A chain for a signer [i] from certificates at hand; it ends in the directory, and its root has
    an entry in the list [r], the last of which allows it the usage at such a time, or now. *)
Definition default_chain (E : env) (files : list (res bytes)) (r : raw_list) (hand : cert -> Prop)
  (timely : option datetime -> Prop) (usage : string) (i : sinfo) (chain : list cert) : Prop :=
  exists c anchors others time root rest d e listed,
    hand c /\ named i c /\ signs E true i c /\
    Forall (in_directory files) anchors /\ Forall hand others /\ timely time /\
    e_validate E anchors time (mkVopts true "soft-fail" false 30 [] []) c others [] [usage] true = Ok (map c_id chain) /\
    chain = root :: rest /\ Forall hand chain /\ in_directory files d /\ cert_eqb root d = true /\
    last_entry (rl_subjects r) (list_identifier E (alg_name (rl_algorithm r)) root) e /\ timely listed /\
    allows e (c_valid_from (last rest root)) (match listed with Some x => x | None => Aware (e_now E) end) [usage].

(** The certificates for a countersigner: also those that come with a token. *)
Definition counter_hand (files : list (res bytes)) (a : asd) (c : countersigner) (x : cert) : Prop :=
  at_hand files a x \/ exists t, c = CSToken t /\ In x (sd_certificates (r_data t)).

(** The signature [a] with these chains: it is in the file, its digest is that of the image, and
    its signer signed it.  If it has a countersignature, that is of this signature, with a chain at
    the time that it states. *)
Definition default_evidence (E : env) (data : bytes) (files : list (res bytes)) (r : raw_list) (a : asd) (chains : list (list cert)) : Prop :=
  in_file data a /\ algorithms_agree a /\ authentihash_of E data (digest_of a) (sp_digest (asd_spc a)) /\
  content_matches E (asd_data a) (asi_info (asd_signer a)) /\
  chains <> [] /\ Forall (default_chain E files r (at_hand files a) (stated_time a) "code_signing" (asi_info (asd_signer a))) chains /\
  (forall c, asi_cs (asd_signer a) = Some c ->
     covers E c (si_signature (asi_info (asd_signer a))) /\
     (forall t, c = CSToken t -> content_matches E (r_data t) (r_signer t)) /\
     exists chain, default_chain E files r (counter_hand files a c) (eq (counter_stated_time c)) "time_stamping" (counter_signer c) chain).

(** The arguments as documented: the store of the module, no contexts, no time, no key usages, the
    default options, and countersignatures that must hold; and the world with that store and this file. *)
Definition documented_args : vargs :=
  mkVargs None None 0 (mkKwargs None None true (mkVopts true "soft-fail" false 30 [] []) true) "strict".
Definition documented_world (t : ctl) (files : list (res bytes)) (f : file) : world :=
  mkWorld [mkStore [] true (Some t) (Some (location_of files)) false] [] f.
