(** Property C36: the chains of a signer. *)
From Verif Require Import Base Bytes Monad ModelFile ModelX509 SpecX509 ModelContext SpecContext ModelPkcs7
  ModelAuthenticode SpecAuthenticode ProofsContext ProofsSigner ProofsSigner2
  PropertiesX509 PropertiesContext PropertiesPkcs7.

(** *** Concrete data *)

(** A signer naming the issuer and serial number of ex_leaf; its signature is accepted by
    the library of the examples for every RSA key. *)
Definition ex_signer : sinfo :=
  mkSinfo ex_int_name 4 (encode_attributes [x01]) "rsa" (encode_attributes [x01]) "sha256" None None None.
(** Others with the same issuer and serial number: one whose key cannot be loaded, one of
    another kind of key, one with another subject. *)
Definition ex_unloadable : cert := mkCert 14 [x14] ex_int_name 4 ex_ca (mkSpki "bad" PNone []) 0 5000 None.
Definition ex_unsupported : cert := mkCert 15 [x15] ex_int_name 4 ex_int_name (mkSpki "x25519" PNone []) 0 5000 None.
Definition ex_other_leaf : cert := mkCert 16 [x16] ex_int_name 4 ex_ca ex_key 0 5000 None.
Definition ex_signer_world (certs : list cert) : world :=
  mkWorld [ex_trusted; mkStore (ex_int :: certs) false None None false] [ex_context] ex_file.

(** *** C36 *)

(** The full statement: the result is the list of the chains of those candidates whose own
    verification succeeds; if none does, the first error; SignerInfoVerificationError if
    there are no candidates.  It is false: when verifying a candidate ends with an
    exception that is no VerificationError (here the key cannot be loaded), that exception
    is raised although another candidate verifies. *)
Theorem C36_refuted :
  exists E i x w l bad good chain m,
    context_stores w x l /\ candidate_list i (concat (map contents l)) [bad; good] /\
    snd (verify_issuer E true i x None good w) = Ok chain /\
    snd (verify_issuer E true i x None good (fst (verify_issuer E true i x None bad w))) = Ok chain /\
    snd (signer_verify E true i x None w) = raise ValueError m.
Proof.
  set (l := [mkStore [ex_int; ex_unloadable; ex_leaf] false None None false; ex_trusted]).
  exists ex_venv, ex_signer, 0%nat, (ex_signer_world [ex_unloadable; ex_leaf]), l,
    ex_unloadable, ex_leaf, [ex_root; ex_int; ex_leaf], "key".
  split. { exists ex_context. split; [reflexivity|]. repeat constructor. }
  split. { exact (candidates_list ex_venv ex_signer l). }
  vm_compute. repeat split.
Qed.
Print Assumptions C36_refuted.

(** Missing from the full statement: candidates after one whose verification ends with an
    exception that is no VerificationError; stores that cannot be read; usages given as
    one-shot iterators; a signing time that applies to some candidates only (C32_refuted). *)
Theorem C36_chains_partial :
  forall E auth i x st w cx l,
  nth_error (w_contexts w) x = Some cx ->
  Forall2 (fun r s => nth_error (w_stores w) r = Some s) (x_stores cx) l ->
  Forall readable l -> repeatable cx -> same_time auth st i (concat (map contents l)) ->
  exists out, candidate_list i (concat (map contents l)) out /\
  let verdict c := snd (verify_issuer E auth i x st c w) in
  let r := snd (signer_verify E auth i x st w) in
  (Forall (fun c => harmless (verdict c)) out ->
   (oks (map verdict out) <> [] -> r = Ok (oks (map verdict out))) /\
   (forall c out' e, out = c :: out' -> oks (map verdict out) = [] -> verdict c = Err e -> r = Err e) /\
   (out = [] -> exists m, r = raise SignerInfoVerificationError m)) /\
  (forall pre c post e, out = pre ++ c :: post -> Forall (fun c => harmless (verdict c)) pre ->
     verdict c = Err e -> issubclass (e_class e) VerificationError = false -> r = Err e).
Proof.
  intros E auth i x st w cx l Hc Hl R Rp T. exists (candidates E i l). split; [apply candidates_list|].
  cbv zeta.
  destruct (signer_verify_pure E auth i x st w cx l Hc Hl R) as (w' & _ & ->). cbn [snd].
  assert (V : forall c, snd (verify_issuer E auth i x st c w) = snd (p_issuer E auth i st l c cx)).
  { intros c. destruct (verify_issuer_pure E auth i x st c w cx l Hc Hl R) as (w1 & _ & ->). reflexivity. }
  destruct (p_signer_verdicts E auth i st l (candidates E i l) cx Rp (same_time_uniform E auth st i l T)) as [H1 H2].
  rewrite (map_ext _ _ V).
  assert (F : forall cs, Forall (fun c => harmless (snd (verify_issuer E auth i x st c w))) cs ->
                         Forall (fun c => harmless (snd (p_issuer E auth i st l c cx))) cs).
  { intros cs. apply Forall_impl. intros c. now rewrite V. }
  split.
  - intros Fo. destruct (H1 (F _ Fo)) as (A1 & A2 & A3). split; [exact A1|]. split; [|exact A3].
    intros c out' e. rewrite V. apply A2.
  - intros pre c post e Ho Fo. rewrite V. apply (H2 pre c post e Ho (F _ Fo)).
Qed.
Print Assumptions C36_chains_partial.

(** Three candidates: one with an unsupported key, two that verify; then only the
    unsupported one, then none. *)
Example C36_run :
  repeatable ex_context /\
  same_time true (Some (Aware 700)) ex_signer [ex_int; ex_unsupported; ex_leaf; ex_other_leaf; ex_root] /\
  snd (signer_verify ex_venv true ex_signer 0 (Some (Aware 700)) (ex_signer_world [ex_unsupported; ex_leaf; ex_other_leaf; ex_leaf]))
  = Ok [[ex_root; ex_int; ex_leaf]; [ex_root; ex_int; ex_other_leaf]] /\
  snd (signer_verify ex_venv true ex_signer 0 (Some (Aware 700)) (ex_signer_world [ex_unsupported]))
  = raise SignerInfoVerificationError "Could not verify the signer of the authenticated attributes" /\
  snd (signer_verify ex_venv true ex_signer 0 (Some (Aware 700)) (ex_signer_world []))
  = raise SignerInfoVerificationError "No valid certificate chain found to a trust anchor".
Proof.
  split. { split; intros u H; [discriminate H|]. injection H as <-. reflexivity. }
  split.
  { right. right. right. intros c [<-|[<-|[<-|[<-|[<-|[]]]]]] _ (us & H & I); try discriminate H.
    injection H as <-. destruct I as [I|[]]; discriminate I. }
  vm_compute. repeat split.
Qed.
