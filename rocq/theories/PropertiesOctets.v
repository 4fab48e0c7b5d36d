(** Property C79: the verdict on a file, from its octets on. *)
From Verif Require Import Base Monad ModelFile ModelFingerprint ModelPE SpecFingerprint SpecPE ModelX509 SpecX509 ModelContext SpecContext ModelPkcs7
  ModelLazy ModelAuthenticode ModelLazyFile ModelDer ModelSpc ModelDecode SpecAsn SpecRead SpecPkcs7 SpecAuthenticode SpecSignedPE SpecDer
  SpecFrame SpecWhole SpecComplete SpecExact SpecEnvelope SpecOctets ProofsBer2 ProofsOctets PropertiesFingerprint PropertiesX509
  PropertiesAuthenticode PropertiesSignedPE PropertiesExact ExampleDer PropertiesEnvelope.

(** A file with these signatures: they are what the iteration yields. *)
Theorem C79_read :
  forall depth ign f l, signed_file depth (f_bytes f) l ->
  terminates_with (fun k => octets_iterate depth ign k f) (l, None).
Proof. exact c79_read. Qed.
Print Assumptions C79_read.

(** It is verified iff the names of the given hashes are known and the signatures that the mode
    chooses are authentic; the result has these, with their chains. *)
Theorem C79_verdict :
  forall E depth mode expected ign v w l,
  lawful E -> signed_file depth (f_bytes (w_file w)) l -> shareable w v l -> (forall a, In a l -> tidy w v a) ->
  forall out, octets_settle E depth expected ign v mode w (Ok out) <->
    known_names E expected /\ accepted_as E w v expected mode l out.
Proof. exact c79_verdict. Qed.
Print Assumptions C79_verdict.

(** Otherwise an exception is raised. *)
Theorem C79_decided :
  forall E depth mode expected ign v w l,
  lawful E -> well_formed w v ->
  signed_file depth (f_bytes (w_file w)) l -> shareable w v l -> (forall a, In a l -> tidy w v a) ->
  (exists out, octets_settle E depth expected ign v mode w (Ok out) /\ accepted_as E w v expected mode l out) \/
  ((forall out, known_names E expected -> ~ accepted_as E w v expected mode l out) /\
   exists e, octets_settle E depth expected ign v mode w (Err e)).
Proof. exact c79_decided. Qed.
Print Assumptions C79_decided.

(** ** An example *)

(** A file with an entry that is no signature, and a signature that is countersigned and has another
    nested in it. *)
Definition o_hash : bytes := ex_hash "sha256" (ex_image [mkEntry 0x200 2 (str "12345678")]).
Definition o_content : bytes := e_spc o_sha256 o_hash.
Definition o_attrs : list bytes := e_signed_attrs o_spc o_content.
Definition o_envelope : bytes :=
  e_envelope x01 o_hash [e_attr a_counter [e_counter (e_signature o_attrs) []]; e_attr a_nested [e_envelope x03 o_hash []]].
Definition o_entries : list cert_entry := [mkEntry 0x200 1 (str "other"); mkEntry 0x200 2 o_envelope].
Definition o_file : file := ex_image o_entries.

Definition o_counter : raw_si :=
  let attrs := e_signed_attrs o_data (e_signature o_attrs) ++ [e_attr a_time [enc x17 [str "200102030405Z"]]] in
  r_signer (r_attrs "data" (e_signature o_attrs) ++ [ASigningTime [Aware (r_day + 11045000000)]]) attrs (e_signature attrs) [].
Definition o_nested : raw_sd :=
  let content := e_seq [o_content] in
  let attrs := e_signed_attrs o_spc content in
  RawSD [r_sha256] t_spc (mkRawContent content (r_spc o_hash)) [ChoiceCertificate r_cert] 0
    [r_signer (r_attrs t_spc content) attrs (e_signature attrs) []].
Definition o_signed : raw_sd :=
  RawSD [r_sha256] t_spc (mkRawContent o_content (r_spc o_hash)) [ChoiceCertificate r_cert] 0
    [r_signer (r_attrs t_spc o_content) o_attrs (e_signature o_attrs)
       [ACounterSignature [o_counter]; ANestedSignature [RawSigned o_nested]]].
Example C79_says : says o_envelope (RawSigned o_signed).
Proof.
  lazymatch goal with |- says ?b ?s =>
    let r := eval vm_compute in s in
    lazymatch eval vm_compute in (load AAny b) with
    | Ok (VAny ?t) => replace s with r by computed; exists t; split; [computed|]
    end
  end.
  info.
Qed.

(** What is read of it. *)
Definition o_list : list asd := match parse_asd 5 true o_signed with Ok x => recursive_nested true x | Err _ => [] end.
Example C79_signed : signed_file 5 (f_bytes o_file) o_list /\ length o_list = 2%nat.
Proof.
  destruct (parse_asd 5 true o_signed) as [x|e] eqn:Q; [|vm_compute in Q; discriminate Q].
  assert (P : asd_reads true o_signed x) by (eapply ProofsPkcs7.parse_asd_sound; exact Q).
  assert (L : o_list = recursive_nested true x) by (unfold o_list; rewrite Q; reflexivity).
  assert (Le : length o_list = 2%nat) by (vm_compute; reflexivity).
  split; [|exact Le]. split; [intro N; rewrite N in Le; discriminate Le|].
  exists o_entries. split.
  - exists 88, 136, 0x10B, 240, (zlen (enc_table o_entries)). split; [|split; [|split]].
    + vm_compute. repeat split; try discriminate; auto.
    + vm_compute. repeat split; try discriminate; auto.
    + unfold o_entries. repeat (constructor; [unfold encodable; vm_compute; intuition discriminate|]). constructor.
    + left. vm_compute. reflexivity.
  - apply entries_other; [reflexivity|discriminate|]. replace o_list with (o_list ++ []) by apply app_nil_r.
    apply (entries_signature 5 _ [] x); [reflexivity|reflexivity| | |apply entries_none].
    + exists o_signed. split; [exact C79_says|split; [exact P|]]. apply Nat.leb_le. vm_compute. reflexivity.
    + rewrite L. clear - Q. vm_compute in Q. injection Q as <-. vm_compute.
      match goal with |- unfolds (ASD ?d ?s (ASI ?i ?cs [?y]) ?pe) (_ :: ?r) =>
        apply (unfolds_intro d s i cs [y] pe [r]) end.
      constructor; [|constructor].
      match goal with |- unfolds (ASD ?d ?s (ASI ?i ?cs ?l) ?pe) _ => apply (unfolds_intro d s i cs [] pe []) end. constructor.
Qed.

(** Both signatures are verified, with the certificate in the store; not so if an octet of the file
    is changed. *)
Definition o_world (f : file) : world := mkWorld [mkStore [r_cert] true None None false] [] f.
Definition o_out : list (asd * list (list cert)) := map (fun x => (x, [[r_cert]])) o_list.
Definition o_altered : file := mkFile (ztake 230 (f_bytes o_file) ++ [x21] ++ zskip 231 (f_bytes o_file)) 0.
Check (@eq_refl (res (list (asd * list (list cert)))) (Ok o_out)
  <: lz_verify_result der_loader e_env 5 60 "all" None true (ex_v None None "strict") (o_world o_file) = Ok o_out).
Check (@eq_refl bool false
  <: is_ok (lz_verify_result der_loader e_env 5 60 "all" None true (ex_v None None "strict") (o_world o_altered)) = false).

(** The other hypotheses. *)
Example C79_lawful : lawful e_env.
Proof. apply ex_lawful; try reflexivity. discriminate. Qed.
Example C79_tidy :
  let w := o_world o_file in let v := ex_v None None "strict" in
  well_formed w v /\ shareable w v o_list /\ forall x, In x o_list -> tidy w v x.
Proof.
  cbv zeta. split; [|split].
  - split; [apply Nat.leb_le; reflexivity|]. split; [discriminate|]. split; [discriminate|]. intros cx r [].
  - split; discriminate.
  - intros x Hx.
    assert (K : forall t, asi_cs (asd_signer x) <> Some (CSToken t)).
    { assert (F : Forall (fun x => forall t, asi_cs (asd_signer x) <> Some (CSToken t)) o_list)
        by (vm_compute; repeat constructor; discriminate).
      rewrite Forall_forall in F. apply F. exact Hx. }
    assert (C : sd_certificates (asd_data x) = [r_cert]).
    { assert (F : Forall (fun x => sd_certificates (asd_data x) = [r_cert]) o_list) by (vm_compute; repeat constructor).
      rewrite Forall_forall in F. apply F. exact Hx. }
    assert (So : sound [mkStore [r_cert] true None None false; shipped (asd_data x)]).
    { split; [repeat apply Forall_cons; try apply Forall_nil; intros ? H; discriminate H|].
      intros y z Hy Hz _. cbn [shipped concat map contents s_items s_location app] in Hy, Hz. rewrite C in Hy, Hz.
      assert (F : forall y, In y (contents (mkStore [r_cert] true None None false) ++ [r_cert] ++ []) -> y = r_cert).
      { intros u [<-|[<-|[]]]; reflexivity. }
      rewrite (F y Hy), (F z Hz). reflexivity. }
    split; [intros ? ? H; discriminate H|]. split.
    + do 2 eexists. split; [eexists; repeat split; reflexivity|exact So].
    + intros [c|t] [Hc _]; [|elim (K t Hc)]. do 2 eexists. split; [|exact So]. eexists; repeat split; reflexivity.
Qed.
