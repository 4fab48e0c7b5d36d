(** Property C88: what is verified has its evidence in the octets of the file and of the trusted
    directory. *)
From Verif Require Import Base Monad ModelFile ModelPE SpecPE SpecFingerprint ModelX509 SpecX509 ModelContext SpecContext ModelPkcs7 ModelLazy ModelAuthenticode ModelLazyFile
  ModelDer ModelDecode ModelPem SpecAuthenticode SpecSignedPE SpecDer SpecPem SpecRead SpecEnvelope SpecOctets SpecAccepted SpecSigned SpecEvidence
  ProofsEvidence PropertiesFingerprint PropertiesX509 PropertiesAuthenticode PropertiesSignedPE ExampleDer PropertiesPem.

(** If verify returns with default contexts, no supplied hashes and a store over a directory, this
    store is trusted, the result is not empty, and for each signature in it there is evidence,
    whatever the libraries, the files of the directory, the mode and the number of steps. *)
Theorem C88_evidence :
  forall E depth fuel mode ign v w out ts files,
  lz_verify_result der_loader E depth fuel mode None ign v w = Ok out ->
  va_context v = None -> va_cs_context v = None -> nth_error (w_stores w) (va_trusted v) = Some ts ->
  s_items ts = [] -> s_location ts = Some (location_of files) ->
  s_trusted ts = true /\ out <> [] /\
  forall a chains, In (a, chains) out -> evidence E (f_bytes (w_file w)) v files (s_ctl ts) a chains.
Proof. exact verified_evidence. Qed.
Print Assumptions C88_evidence.

(** So nothing is verified with a directory in which no file has a block with a certificate. *)
Theorem C88_none :
  forall E depth fuel mode ign v w ts files,
  va_context v = None -> va_cs_context v = None -> nth_error (w_stores w) (va_trusted v) = Some ts ->
  s_items ts = [] -> s_location ts = Some (location_of files) ->
  (forall c, ~ in_directory files c) ->
  exists e, lz_verify_result der_loader E depth fuel mode None ign v w = Err e.
Proof. exact no_evidence. Qed.
Print Assumptions C88_none.

(** ** Examples *)

(** A signed file is verified with a directory that has the certificate of the signer, after a
    remark and another certificate, and not with one that has the other certificate only. *)
Definition d_store (trusted : bool) (ders : list bytes) : store :=
  mkStore [] trusted None (Some (location_of (map (fun d => Ok (lit "A note" ++ [x0d; x0a] ++ e_block d)) ders))) false.
Definition d_run (s : store) : bool :=
  is_ok (lz_verify_result der_loader e_env 9 60 "first" None true (ex_v None None "strict") (mkWorld [s] [] (e_image x01 []))).
Example C88_run :
  d_run (d_store true [e_cert2; e_cert]) = true /\ d_run (d_store true [e_cert2]) = false /\
  d_run (d_store true []) = false /\ d_run (d_store false [e_cert2; e_cert]) = false.
Proof. vm_compute. repeat split. Qed.
Example C88_hypotheses :
  exists E depth fuel mode ign v w out ts files,
  lz_verify_result der_loader E depth fuel mode None ign v w = Ok out /\
  va_context v = None /\ va_cs_context v = None /\ nth_error (w_stores w) (va_trusted v) = Some ts /\
  s_items ts = [] /\ s_location ts = Some (location_of files) /\ exists c, in_directory files c.
Proof.
  destruct (lz_verify_result der_loader e_env 9 60 "first" None true (ex_v None None "strict")
              (mkWorld [d_store true [e_cert2; e_cert]] [] (e_image x01 []))) as [out|e] eqn:R.
  - do 7 eexists. exists out. do 2 eexists. split; [exact R|]. split; [reflexivity|]. split; [reflexivity|].
    split; [reflexivity|]. split; [reflexivity|]. split; [reflexivity|].
    destruct (C88_evidence _ _ _ _ _ _ _ _ _ _ R eq_refl eq_refl eq_refl eq_refl eq_refl) as (_ & Ne & K).
    destruct out as [|[a chains] out]; [congruence|]. destruct (K a chains (or_introl eq_refl)) as (_ & _ & _ & _ & Nc & F).
    destruct F as [|chain chains (c & an & ot & ti & _ & _ & _ & _ & _ & _ & _ & _ & (root & rest & d & _ & D & _) & _) _]; [congruence|].
    exists d. exact D.
  - exfalso. pose proof (proj1 C88_run) as Q. unfold d_run in Q. rewrite R in Q. discriminate Q.
Qed.
