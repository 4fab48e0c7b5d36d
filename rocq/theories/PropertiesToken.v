(** Property C65: signers and time-stamp tokens verified on their own; C64 for hashes computed from the file. *)
From Verif Require Import Base Bytes Monad ModelFile ModelFingerprint SpecFingerprint ProofsFingerprint ModelPE SpecPE ModelX509 SpecX509
  ModelContext SpecContext ProofsContext ProofsContext2 ModelPkcs7 ModelAuthenticode SpecAuthenticode SpecSignedPE SpecComplete
  SpecFrame SpecExact ProofsExact ProofsExact2 ProofsToken PropertiesFingerprint
  PropertiesX509 PropertiesContext PropertiesPE PropertiesPkcs7 PropertiesSigner PropertiesAuthenticode PropertiesSignedPE PropertiesComplete
  PropertiesExact.

(** [SignerInfo.verify] of an Authenticode signer yields exactly the chains of the search in
    which the signing time is of no avail to lifetime signing certificates. *)
Theorem C65_signer :
  forall E i x st w cx l chains, lawful E ->
  nth_error (w_contexts w) x = Some cx -> stores_at w (x_stores cx) l -> sound l ->
  (snd (signer_verify E true i x st w) = Ok chains <-> chains_of E i cx l lifetime st chains).
Proof. exact c65_signer. Qed.
Print Assumptions C65_signer.

(** For the other signers it counts for every certificate. *)
Theorem C65_plain_signer :
  forall E i x st w cx l chains, lawful E ->
  nth_error (w_contexts w) x = Some cx -> stores_at w (x_stores cx) l -> sound l ->
  (snd (signer_verify E false i x st w) = Ok chains <-> chains_of E i cx l none_exempt st chains).
Proof. exact c65_plain. Qed.
Print Assumptions C65_plain_signer.

(** [RFC3161SignedData.verify], with a context or without: exactly when the content matches and
    the signer has a chain. *)
Theorem C65_token :
  forall E t given trusted w cx l chains, lawful E -> token_context w t given trusted cx l -> sound l ->
  (snd (rsd_verify E t given trusted w) = Ok chains <-> token_authentic E w t given trusted chains).
Proof. exact c65_token. Qed.
Print Assumptions C65_token.

(** Everything else is an ordinary exception; for content that does not match, whatever the
    context, AuthenticodeCounterSignerError. *)
Theorem C65_decided :
  forall E t given trusted w cx l, lawful E -> token_context w t given trusted cx l -> sound l ->
  (forall chains, ~ token_authentic E w t given trusted chains) ->
  exists e, snd (rsd_verify E t given trusted w) = Err e /\ ordinary e.
Proof. exact c65_decided. Qed.
Print Assumptions C65_decided.
Theorem C65_content :
  forall E t given trusted w, ~ content_matches E (r_data t) (r_signer t) ->
  exists e, rsd_verify E t given trusted w = (w, Err e) /\ e_class e = AuthenticodeCounterSignerError.
Proof. exact c65_content. Qed.
Print Assumptions C65_content.

(** Without an expected hash, the authentihash of the file takes its place. *)
Theorem C64_computed :
  forall E a v w, lawful E -> tidy w v a ->
  exists N, forall fuel, (N <= fuel)%nat -> forall chains,
  snd (asd_verify E fuel a None v w) = Ok chains <->
  exists h, expected_hash E (f_bytes (w_file w)) a None h /\ authentic E w v a h chains.
Proof. exact c64_computed. Qed.
Print Assumptions C64_computed.

(** ** Examples *)

Definition ex_lone (md : bytes) : rsd :=
  mkRsd (mkSdata "sha256" "tst_info" [x0c] [ex_int; ex_tsa]) (mkTst "" "sha256" (x06 :: ex_encrypted) 5 700 0)
    (mkSinfo ex_int_name 5 (encode_attributes [x02]) "rsa" (encode_attributes [x02]) "sha256" (Some md) (Some "tst_info") None).
(** The context at the time 700, over a trusted store and the certificates. *)
Definition ex_then : context := at_time (Some (Aware 700)) ex_ctx.
Definition ex_token_world : world := mkWorld (w_stores ex_w) [ex_then] ex_file.
Example ex_tenv_lawful : lawful ex_tenv.
Proof.
  apply ex_lawful; try reflexivity. intros r t o c i ku eku b e. cbn [ex_tenv with_validator e_validate].
  destruct t as [[t|t]|]; [destruct (t <=? 800)| |]; try discriminate; intros [= <-]; reflexivity.
Qed.
Example ex_venv_lawful : lawful ex_venv.
Proof. apply ex_lawful; try reflexivity; discriminate. Qed.
Example ex_stores_sound : sound [ex_trusted; shipped (r_data (ex_lone []))] /\ sound (w_stores ex_w).
Proof.
  split; (split; [repeat apply Forall_cons; try apply Forall_nil; intros ? H; discriminate H|]).
  - change (identified [ex_root; ex_int; ex_tsa]). ids.
  - change (identified [ex_root; ex_int; ex_leaf; ex_tsa]). ids.
Qed.

(** A token is valid on its own while its certificates are; afterwards only with a context at
    the time that it states. *)
Example C65_lone :
  let t := ex_lone [x06; x0c] in
  token_authentic ex_venv ex_token_world t None 0 [[ex_root; ex_int; ex_tsa]] /\
  (forall chains, ~ token_authentic ex_tenv ex_token_world t None 0 chains) /\
  token_authentic ex_tenv ex_token_world t (Some 0%nat) 0 [[ex_root; ex_int; ex_tsa]] /\
  (forall chains, ~ token_authentic ex_venv ex_token_world (ex_lone [x06; x0d]) None 0 chains).
Proof.
  cbv zeta.
  assert (Cn : forall md, token_context ex_token_world (ex_lone md) None 0
    (default_context [0; 2]%nat "time_stamping" no_kwargs) [ex_trusted; shipped (r_data (ex_lone []))]).
  { intros md. exists ex_trusted. repeat split. }
  assert (Cs : token_context ex_token_world (ex_lone [x06; x0c]) (Some 0%nat) 0 ex_then (w_stores ex_w)).
  { split; [reflexivity|]. repeat constructor. }
  destruct ex_stores_sound as [S1 S2]. split; [|split; [|split]].
  - apply (C65_token _ _ _ _ _ _ _ _ ex_venv_lawful (Cn _) S1). vm_compute. reflexivity.
  - intros chains H. apply (C65_token _ _ _ _ _ _ _ _ ex_tenv_lawful (Cn _) S1) in H. vm_compute in H. discriminate H.
  - apply (C65_token _ _ _ _ _ _ _ _ ex_tenv_lawful Cs S2). vm_compute. reflexivity.
  - intros chains H. apply (C65_token _ _ _ _ _ _ _ _ ex_venv_lawful (Cn _) S1) in H. vm_compute in H. discriminate H.
Qed.

(** A lifetime signing certificate, expired, and a signing time before that: enough for a
    plain signer, not for an Authenticode signer. *)
Example C65_lifetime :
  let w := mkWorld [ex_trusted; mkStore [ex_int; ex_lifetime] false None None false] [ex_ctx] ex_file in
  let l := w_stores w in
  sound l /\
  chains_of ex_tenv ex_asigner ex_ctx l none_exempt (Some (Aware 700)) [[ex_root; ex_int; ex_lifetime]] /\
  (forall chains, ~ chains_of ex_tenv ex_asigner ex_ctx l none_exempt None chains) /\
  (forall chains, ~ chains_of ex_tenv ex_asigner ex_ctx l lifetime (Some (Aware 700)) chains).
Proof.
  cbv zeta. set (w := mkWorld _ _ _).
  assert (So : sound (w_stores w)).
  { split; [repeat apply Forall_cons; try apply Forall_nil; intros ? H; discriminate H|].
    change (identified [ex_root; ex_int; ex_lifetime]). ids. }
  assert (Hx : nth_error (w_contexts w) 0 = Some ex_ctx) by reflexivity.
  assert (Hr : stores_at w (x_stores ex_ctx) (w_stores w)) by repeat constructor.
  split; [exact So|]. split; [|split].
  - apply (C65_plain_signer _ _ 0 _ w _ _ _ ex_tenv_lawful Hx Hr So). vm_compute. reflexivity.
  - intros chains H. apply (C65_plain_signer _ _ 0 _ w _ _ _ ex_tenv_lawful Hx Hr So) in H. vm_compute in H. discriminate H.
  - intros chains H. apply (C65_signer _ _ 0 _ w _ _ _ ex_tenv_lawful Hx Hr So) in H. vm_compute in H. discriminate H.
Qed.

(** Usages from a generator: after the first candidate has been refused for the lack of them,
    the second is accepted, for no usage at all. *)
Definition ex_picky : env :=
  with_validator (e_mk_validation ex_venv)
    (fun roots t o c ints ku eku b =>
       match eku with [] => Ok [10; 11; c_id c] | _ => raise (ExtException "InvalidCertificateError") "not for this usage" end) ex_venv.
Example C65_oneshot :
  let cx once := mkContext [0; 1]%nat None None (Some (mkUsages once ["code_signing"])) true default_opts in
  let w once := mkWorld [ex_trusted; mkStore [ex_int; ex_lure; ex_third] false None None false] [cx once] ex_file in
  let l := w_stores (w true) in
  lawful ex_picky /\ sound l /\
  chains_of ex_picky ex_asigner (cx true) l lifetime None [[ex_root; ex_int; ex_third]] /\
  (forall chains, ~ chains_of ex_picky ex_asigner (cx false) l lifetime None chains).
Proof.
  cbv zeta.
  assert (L : lawful ex_picky).
  { apply ex_lawful; try reflexivity. intros r t o c i ku eku b e. cbn [ex_picky with_validator e_validate].
    destruct eku; [discriminate|]. intros [= <-]. reflexivity. }
  set (w := fun once => mkWorld [ex_trusted; mkStore [ex_int; ex_lure; ex_third] false None None false]
    [mkContext [0; 1]%nat None None (Some (mkUsages once ["code_signing"])) true default_opts] ex_file).
  assert (So : sound (w_stores (w true))).
  { split; [repeat apply Forall_cons; try apply Forall_nil; intros ? H; discriminate H|].
    change (identified [ex_root; ex_int; ex_lure; ex_third]). ids. }
  split; [exact L|]. split; [exact So|]. split.
  - apply (C65_signer _ _ 0 _ (w true) _ _ _ L eq_refl ltac:(repeat constructor) So). vm_compute. reflexivity.
  - intros chains H. apply (C65_signer _ _ 0 _ (w false) _ _ _ L eq_refl ltac:(repeat constructor) So) in H. vm_compute in H. discriminate H.
Qed.

(** The hash of the file is computed. *)
Example C64_on_file :
  let w := mkWorld [ex_trusted] [] (mkFile (f_bytes ex_signed) 3) in
  let a digest := ASD (ex_data ex_certs) (mkSpc "sha256" digest) (ASI ex_asigner None []) true in
  let v := ex_v None None "strict" in
  exists h, expected_hash ex_venv (f_bytes (w_file w)) (a h) None h /\ tidy w v (a h) /\
    authentic ex_venv w v (a h) h [[ex_root; ex_int; ex_leaf]] /\
    (forall chains, ~ authentic ex_venv w v (a (x00 :: h)) h chains).
Proof.
  cbv zeta. destruct C25_run as [(h & Ha & _) _].
  assert (T : forall d, tidy (mkWorld [ex_trusted] [] (mkFile (f_bytes ex_signed) 3)) (ex_v None None "strict")
     (ASD (ex_data ex_certs) (mkSpc "sha256" d) (ASI ex_asigner None []) true)).
  { intros d. split; [intros x y H; discriminate H|]. split; [|intros c [H _]; discriminate H].
    do 2 eexists. split; [exists ex_trusted; repeat split|].
    split; [repeat apply Forall_cons; try apply Forall_nil; intros ? H; discriminate H|].
    change (identified [ex_root; ex_int; ex_leaf; ex_tsa]). ids. }
  exists h. split; [split; [reflexivity|exact Ha]|]. split; [apply T|].
  destruct Ha as (secs & Q & ->). vm_compute in Q. injection Q as <-. split.
  - apply (C64_exact _ 0 _ _ _ _ _ ex_venv_lawful (T _)). vm_compute. reflexivity.
  - intros chains H. apply (C64_exact _ 0 _ _ _ _ _ ex_venv_lawful (T _)) in H. vm_compute in H. discriminate H.
Qed.
