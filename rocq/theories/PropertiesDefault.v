(** Property C90: what SignedPEFile(f).verify() without arguments guarantees. *)
From Verif Require Import Base Bytes Monad ModelFile ModelPE SpecPE ModelX509 ModelContext SpecContext ModelPkcs7 ModelLazy ModelCtl ModelAuthenticode ModelLazyFile ModelDer ModelSpc ModelDecode
  ModelStl ModelPem ModelDefault SpecX509 SpecCtl SpecStl SpecAuthenticode SpecSignedPE SpecDer SpecPem SpecRead SpecEnvelope SpecAccepted SpecEvidence SpecTrustList SpecComplete SpecExact SpecOctets SpecSigned SpecDefault
  ProofsTrustList ProofsDefault PropertiesFingerprint PropertiesX509 PropertiesAuthenticode PropertiesSignedPE PropertiesContext PropertiesCtl
  ExampleDer PropertiesEnvelope PropertiesOctets PropertiesAccepted PropertiesSigned PropertiesStl PropertiesPem PropertiesEvidence PropertiesTrustList.

(** The module can be imported iff the list can be read and opened. *)
Theorem C90_import :
  forall stl files,
  (exists s, default_store stl files = Ok s) <->
  exists octets alg cs r, stl = Ok octets /\ encoded_list octets alg cs r /\
    (forall n, In n [alg; rl_algorithm r] ->
       In (alg_name n) ["md5"; "sha1"; "sha256"; "sha384"; "sha512"] /\ alg_has_params n = false) /\
    Forall (fun e => Forall well_formed (rs_attributes e)) (rl_subjects r).
Proof. exact default_imports. Qed.
Print Assumptions C90_import.

(** A file that is verified, for every reading of the octets of the list (there is one): every
    signature of the result has its evidence in the file, the directory and the list. *)
Theorem C90_sound :
  forall E depth fuel stl files f out,
  default_verify E depth fuel stl files f = Ok out ->
  out <> [] /\ exists octets, stl = Ok octets /\ (exists alg cs r, encoded_list octets alg cs r) /\
  forall alg cs r, encoded_list octets alg cs r ->
  In (alg_name (rl_algorithm r)) ["sha1"; "sha256"] /\
  forall a chains, In (a, chains) out -> default_evidence E (f_bytes f) files r a chains.
Proof. exact default_means. Qed.
Print Assumptions C90_sound.

(** So nothing is verified with an empty directory, or with a list without entries. *)
Theorem C90_nothing :
  forall E depth fuel octets alg cs r files f,
  encoded_list octets alg cs r ->
  rl_subjects r = [] \/ (forall c, ~ in_directory files c) ->
  exists e, default_verify E depth fuel (Ok octets) files f = Err e.
Proof. exact default_nothing. Qed.
Print Assumptions C90_nothing.

(** Exactly what is verified: the file has signatures one of which is authentic, and the first
    of them is the result. *)
Theorem C90_exact :
  forall E octets t files f, lawful E -> der_from_stl_file octets = Ok t ->
  (forall l a, signed_octets true (f_bytes f) l -> In a l -> tidy (documented_world (tl_ctl t) files f) documented_args a) ->
  forall out,
  (exists depth N, forall fuel, (N <= fuel)%nat -> default_verify E depth fuel (Ok octets) files f = Ok out) <->
  exists pre a post chains, signed_octets true (f_bytes f) (pre ++ a :: post) /\ out = [(a, chains)] /\
    authentic_for E (documented_world (tl_ctl t) files f) documented_args None a chains /\
    forall b, In b pre -> forall chains, ~ authentic_for E (documented_world (tl_ctl t) files f) documented_args None b chains.
Proof. exact default_exact. Qed.
Print Assumptions C90_exact.

(** ** Examples *)

(** The file of ExampleDer.v is verified, also with a countersignature of its signature, and
    not with one of other octets; not without its root in the directory or in the list, and not
    if the list forbids it to sign code, or to state times if there is a countersignature. *)
Definition n_signature : bytes :=
  e_signature (e_signed_attrs o_spc (e_spc o_sha256 (ex_hash "sha256" (ex_image [mkEntry 0x200 2 (str "12345678")])))).
Definition n_file (over : bytes) : file := e_image x01 [e_attr a_counter [e_counter over []]].
Definition n_run (entries : list bytes) (blocks : list bytes) (f : file) : bool :=
  is_ok (default_verify e_env 9 60 (Ok (e_stl entries)) (map (fun b => Ok (lit "A note" ++ [x0d; x0a] ++ e_block b)) blocks) f).
Definition n_no_times : bytes := e_entry t_me [e_ctl_attr x7f [e_usages ["2b06010505070308"]]; e_ctl_attr x7e [Z_to_le 8 0]].
Example C90_run :
  n_run [e_entry t_me []] [e_cert2; e_cert] (e_image x01 []) = true /\
  n_run [e_entry t_me []] [e_cert2; e_cert] (n_file n_signature) = true /\
  n_run [e_entry t_me []] [e_cert2; e_cert] (n_file (x00 :: n_signature)) = false /\
  n_run [e_entry t_me []] [e_cert2] (e_image x01 []) = false /\
  n_run [] [e_cert2; e_cert] (e_image x01 []) = false /\
  n_run [t_forbid] [e_cert2; e_cert] (e_image x01 []) = false /\
  n_run [n_no_times] [e_cert2; e_cert] (e_image x01 []) = true /\
  n_run [n_no_times] [e_cert2; e_cert] (n_file n_signature) = false.
Proof. vm_compute. repeat split. Qed.
Example C90_unopened :
  is_ok (default_store (Ok (e_stl [])) []) = true /\
  default_store (raise OSError "gone") [] = raise OSError "gone" /\
  is_ok (default_store (Ok (removelast (e_stl []))) []) = false.
Proof. vm_compute. repeat split. Qed.

(** The hypotheses of C90_exact, for the file of PropertiesSigned.v, which has a countersigned
    signature with another one in it, and a third entry that is passed over. *)
Definition n_files : list (res bytes) := [Ok (lit "A note" ++ [x0d; x0a] ++ e_block e_cert)].
Example C90_tidy :
  exists t, der_from_stl_file (e_stl [e_entry t_me []]) = Ok t /\ lawful e_env /\
  (exists l, signed_octets true (f_bytes s_file) l /\ length l = 2%nat) /\
  forall l a, signed_octets true (f_bytes s_file) l -> In a l -> tidy (documented_world (tl_ctl t) n_files s_file) documented_args a.
Proof.
  destruct (der_from_stl_file (e_stl [e_entry t_me []])) as [t|e] eqn:Q; [|vm_compute in Q; discriminate Q].
  exists t. split; [reflexivity|]. split; [exact C79_lawful|].
  split; [exists o_list; split; [exact (proj1 C87_ignored)|exact (proj2 C79_signed)]|].
  intros l x Sl. rewrite (C87_unique _ _ _ _ Sl (proj1 C87_ignored)). intros Hx.
  assert (K : forall t, asi_cs (asd_signer x) <> Some (CSToken t)).
  { assert (F : Forall (fun x => forall t, asi_cs (asd_signer x) <> Some (CSToken t)) o_list)
      by (vm_compute; repeat constructor; discriminate).
    rewrite Forall_forall in F. apply F. exact Hx. }
  assert (C : sd_certificates (asd_data x) = [r_cert]).
  { assert (F : Forall (fun x => sd_certificates (asd_data x) = [r_cert]) o_list) by (vm_compute; repeat constructor).
    rewrite Forall_forall in F. apply F. exact Hx. }
  assert (Lc : location_certs (location_of n_files) = [r_cert]) by (vm_compute; reflexivity).
  assert (So : sound [mkStore [] true (Some (tl_ctl t)) (Some (location_of n_files)) false; shipped (asd_data x)]).
  { split.
    - apply Forall_cons; [|apply Forall_cons; [intros ? H; discriminate H|apply Forall_nil]].
      intros lo H _. injection H as <-. vm_compute. reflexivity.
    - intros y z Hy Hz _.
      assert (F : forall y, In y (concat (map contents [mkStore [] true (Some (tl_ctl t)) (Some (location_of n_files)) false; shipped (asd_data x)])) -> y = r_cert).
      { intros u. cbn [shipped concat map contents s_items s_location s_loaded app]. rewrite C, Lc. intros [<-|[<-|[]]]; reflexivity. }
      rewrite (F y Hy), (F z Hz). reflexivity. }
  split; [intros ? ? H; discriminate H|]. split.
  - do 2 eexists. split; [eexists; repeat split; reflexivity|exact So].
  - intros [c|k] [Hc _]; [|elim (K k Hc)]. do 2 eexists. split; [|exact So]. eexists; repeat split; reflexivity.
Qed.
Example C90_first : is_ok (default_verify e_env 9 60 (Ok (e_stl [e_entry t_me []])) n_files s_file) = true.
Proof. vm_compute. reflexivity. Qed.
