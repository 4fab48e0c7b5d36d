(** Property C66: looking up the components of a name; C41 for the potential chains of a signer. *)
From Verif Require Import Base Bytes Monad ModelFile ModelX509 SpecX509 SpecLookup ProofsX509 ModelContext SpecContext ProofsContext
  ModelPkcs7 ModelAuthenticode SpecAuthenticode ProofsLookup PropertiesFingerprint PropertiesX509 PropertiesContext
  PropertiesSigner PropertiesAuthenticode.

(** [get_components(t)] yields the values of exactly the first attributes whose type [t]
    denotes, by object identifier, by the name of the decoder or by label, in reversed order. *)
Theorem C66_components :
  forall native t n vs, get_components_of native t n = vs <-> values_of (denotes native t) n vs.
Proof. exact c66_exact. Qed.
Print Assumptions C66_components.

(** A label and its object identifier are interchangeable. *)
Theorem C66_labels :
  forall native oid label n, short_label oid label -> separate_names native -> wf_name n ->
  get_components_of native label n = get_components_of native oid n /\
  values_of (fun o => o = oid) n (get_components_of native oid n).
Proof. exact c66_label. Qed.
Print Assumptions C66_labels.

(** Equal names have equal components. *)
Theorem C66_equal_names :
  forall native t m n, wf_name m -> wf_name n -> name_eqb m n = true ->
  get_components_of native t m = get_components_of native t n.
Proof. exact c66_equal. Qed.
Print Assumptions C66_equal_names.

(** What is listed is found under the type it is listed with. *)
Theorem C66_complete :
  forall native n tv, In tv (rdns n) -> In (snd tv) (get_components_of native (fst tv) n).
Proof. exact c66_complete. Qed.
Print Assumptions C66_complete.

(** The full statement is that every attribute of the name is found under its object
    identifier.  It is false of an RDN with more than one attribute. *)
Theorem C66_refuted :
  exists native n r a, separate_names native /\ wf_name n /\ In r n /\ In a (r_first r :: r_rest r) /\
    get_components_of native (a_oid a) n = [].
Proof.
  exists (fun o => o), [mkRdn (ex_ava "2.5.4.3" "a") [ex_ava "2.5.4.11" "b"]].
  eexists. exists (ex_ava "2.5.4.11" "b"). split.
  { intros oid D. split; [|reflexivity]. intros o l H ->. destruct (alpha_label _ _ H) as [N _]. contradiction. }
  split; [wf_name_tac|]. split; [left; reflexivity|]. split; [right; left; reflexivity|]. reflexivity.
Qed.
Print Assumptions C66_refuted.

(** The names of asn1crypto for some types. *)
Definition ex_native (oid : string) : string :=
  if String.eqb oid "2.5.4.3" then "common_name"
  else if String.eqb oid "2.5.4.11" then "organizational_unit_name"
  else if String.eqb oid "2.5.4.5" then "serial_number" else oid.
Definition ex_units : name :=
  [mkRdn (ex_ava "2.5.4.11" "first") []; mkRdn (ex_ava "2.5.4.5" "7") []; mkRdn (ex_ava "2.5.4.11" "second") [ex_ava "2.5.4.3" "hidden"];
   mkRdn (ex_ava "2.5.4.3" "shown") []].
Definition vals (l : list string) : list nval := map (fun s => a_val (ex_ava "" s)) l.
Example C66_run :
  wf_name ex_units /\
  get_components_of ex_native "OU" ex_units = vals ["second"; "first"] /\
  get_components_of ex_native "2.5.4.11" ex_units = vals ["second"; "first"] /\
  get_components_of ex_native "organizational_unit_name" ex_units = vals ["second"; "first"] /\
  get_components_of ex_native "serial_number" ex_units = vals ["7"] /\
  get_components_of ex_native "CN" ex_units = vals ["shown"] /\
  get_components_of ex_native "O" ex_units = [].
Proof. split; [wf_name_tac|]. vm_compute. repeat split. Qed.
Example C66_separate : separate_names ex_native /\ short_label "2.5.4.11" "OU".
Proof.
  split; [|unfold short_label; cbn [In]; auto 12]. intros oid D. unfold ex_native.
  assert (G : forall s, dotted s <-> forallb dotted_char (list_ascii_of_string s) = true).
  { intros s. unfold dotted. rewrite forallb_forall, Forall_forall. tauto. }
  assert (L : forall s, ~ In s ["CN"; "C"; "L"; "ST"; "STREET"; "O"; "OU"; "DC"; "EMAIL"] -> forall o l, short_label o l -> s <> l).
  { intros s N o l H ->. apply N. unfold short_label in H. apply (in_map fst) in H. exact H. }
  assert (F : forall o l, short_label o l -> oid <> l).
  { intros o l H ->. destruct (alpha_label _ _ H) as [N _]. contradiction. }
  repeat (destruct (String.eqb _ _); [split; [apply L; cbn [In]; intros Q; repeat (destruct Q as [Q|Q]; [discriminate Q|]); exact Q
    |rewrite G; intros Q; vm_compute in Q; discriminate Q]|]).
  split; [exact F|reflexivity].
Qed.

(** *** C41, for signers *)

(** [SignerInfo.potential_chains]: for each candidate, in order, its paths, none of them twice. *)
Theorem C41_signer :
  forall E i w x l, context_stores w x l -> Forall ready l ->
  exists cs outs, candidate_list i (concat (map contents l)) cs /\
    signer_potential_chains E i x w = (w, Ok (concat outs)) /\ NoDup (concat outs) /\
    Forall2 (fun c out => forall ch, In ch out <-> path_to l c 10 ch) cs outs.
Proof. exact c41_signer. Qed.
Print Assumptions C41_signer.

Example C41_signer_run :
  let w := mkWorld [ex_trusted; mkStore [ex_int; ex_leaf; ex_other_leaf; ex_root; ex_tsa] false None None false] [ex_ctx] ex_file in
  context_stores w 0 (w_stores w) /\ Forall ready (w_stores w) /\
  signer_potential_chains ex_env ex_signer 0 w = (w, Ok [[ex_root; ex_int; ex_leaf]; [ex_root; ex_int; ex_other_leaf]]).
Proof.
  cbv zeta. split; [eexists; split; [reflexivity|]; repeat constructor|]. split; [repeat constructor|]. vm_compute. reflexivity.
Qed.
