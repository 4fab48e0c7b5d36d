(** Properties C61, C62 and C63: what verifying changes, repeating it, and how the modes are related. *)
From Verif Require Import Base Bytes Monad ModelFile ModelFingerprint SpecFingerprint ProofsFingerprint ModelPE SpecPE ModelX509 SpecX509
  ModelContext SpecContext ProofsCTL ProofsContext ProofsContext2 ModelPkcs7 ModelAuthenticode SpecAuthenticode SpecSignedPE ProofsSignedPE2
  SpecFrame ProofsFrame ProofsFrame2 PropertiesFingerprint
  PropertiesX509 PropertiesContext PropertiesPE PropertiesPkcs7 PropertiesAuthenticode PropertiesSignedPE.

(** *** C61 *)

(** Whatever the file, the libraries, the arguments and the outcome. *)
Theorem C61_file :
  forall load E depth fuel mode expected ign v w l x,
  terminates_with (fun k => iterate load depth true ign k (w_file w)) (l, x) ->
  frame (consults w v) (passed v) (stated_times l v) w
    (fst (fst (pe_open_verify load E depth fuel mode expected ign v w))).
Proof. exact c61. Qed.
Print Assumptions C61_file.

(** The same for AuthenticodeSignedData.verify. *)
Theorem C61_signature :
  forall E fuel a expected v w,
  frame (consults w v) (passed v) (stated_times [a] v) w (fst (asd_verify E fuel a expected v w)).
Proof. exact c61_signature. Qed.
Print Assumptions C61_signature.

(** In particular nothing changes if no context is passed and the trusted store has nothing left to load. *)
Theorem C61_unchanged :
  forall load E depth fuel mode expected ign v w ts,
  default_contexts v -> nth_error (w_stores w) (va_trusted v) = Some ts -> ready ts ->
  let w' := fst (fst (pe_open_verify load E depth fuel mode expected ign v w)) in
  f_bytes (w_file w') = f_bytes (w_file w) /\
  (forall r s, nth_error (w_stores w) r = Some s -> nth_error (w_stores w') r = Some s) /\
  (forall x c, nth_error (w_contexts w) x = Some c -> nth_error (w_contexts w') x = Some c).
Proof. exact c61_unchanged. Qed.
Print Assumptions C61_unchanged.

(** A store that is not loaded yet, one that is not consulted, and a context. *)
Definition ex_lazy : store := mkStore [] true None (Some [([ex_root], None); ([ex_int], None)]) false.
Definition ex_idle : store := mkStore [ex_int] true None (Some [([ex_leaf], None)]) false.
Definition ex_stock : world := mkWorld [ex_lazy; ex_idle] [ex_ctx] ex_pair.
Definition ex_both : loader := ex_of "sha1" true "sha256" true.
Example C61_run :
  let w' := fst (fst (pe_open_verify ex_both ex_venv 9 400 "all" None true (ex_v None None "strict") ex_stock)) in
  (exists l x, terminates_with (fun k => iterate ex_both 9 true true k (w_file ex_stock)) (l, x)) /\
  snd (pe_open_verify ex_both ex_venv 9 400 "all" None true (ex_v None None "strict") ex_stock) <> Err out_of_fuel /\
  nth_error (w_stores w') 0 = Some (mkStore [ex_root; ex_int] true None (s_location ex_lazy) true) /\
  nth_error (w_stores w') 1 = Some ex_idle /\ (length (w_stores w') > 2)%nat /\
  nth_error (w_contexts w') 0 = Some ex_ctx /\
  (* a context that is passed takes the time of the countersignature *)
  nth_error (w_contexts (fst (asd_verify ex_tenv 0 (ex_asd (Some ex_good) ex_certs) (Some [x07])
               (ex_v (Some 0%nat) None "strict") ex_w))) 0 = Some (at_time (Some (Aware 700)) ex_ctx) /\
  stated_times [ex_asd (Some ex_good) ex_certs] (ex_v (Some 0%nat) None "strict") (Some (Aware 700)).
Proof.
  intros w'. split; [do 2 eexists; apply (iterate_done ex_both 9 true true 400); vm_compute; reflexivity|].
  split; [vm_compute; discriminate|].
  split; [vm_compute; reflexivity|]. split; [vm_compute; reflexivity|]. split; [vm_compute; repeat constructor|].
  split; [vm_compute; reflexivity|]. split; [vm_compute; reflexivity|].
  exists (ex_asd (Some ex_good) ex_certs), ex_good. split; [now left|]. split; [|reflexivity]. split; [reflexivity|discriminate].
Qed.

(** *** C62 *)

(** The full statement: a verification gives the same result whatever was verified before.  It
    is false: a trusted store that fails to load is not loaded again. *)
Theorem C62_refuted :
  exists load E depth fuel v f w w' e out,
    default_contexts v /\ history w w' /\ (exists ts, nth_error (w_stores w) (va_trusted v) = Some ts) /\
    verify_result load E depth fuel "all" None true v (with_file f w) = Err e /\
    verify_result load E depth fuel "all" None true v (with_file f w') = Ok out.
Proof.
  exists ex_both, ex_venv, 9%nat, 400%nat, (ex_v None None "strict"), ex_pair,
    (mkWorld [mkStore [] true None (Some [([ex_root], Some (mkExn ValueError "No PEM"))]) false] [] ex_pair).
  do 3 eexists. split; [split; reflexivity|].
  split; [apply history_verify with (f := ex_pair) (load := ex_both) (E := ex_venv) (depth := 9%nat) (fuel := 400%nat)
            (mode := "all") (expected := None) (ign := true) (v := ex_v None None "strict"); apply history_start|].
  split; [eexists; reflexivity|]. split; vm_compute; reflexivity.
Qed.
Print Assumptions C62_refuted.

(** It is true if the trusted store can be read and no context is passed to this verification;
    the earlier ones may be of any files with any arguments. *)
Theorem C62_repeatable :
  forall load E depth expected ign v f w w' mode,
  default_contexts v -> readable_trust w v -> history w w' ->
  exists r, settles load E depth expected ign v mode (with_file f w) r /\
            settles load E depth expected ign v mode (with_file f w') r.
Proof. exact c62. Qed.
Print Assumptions C62_repeatable.

Example C62_run :
  let v := ex_v None None "strict" in
  let once := fst (fst (pe_open_verify ex_both ex_venv 9 400 "all" None true v (with_file ex_tampered ex_stock))) in
  default_contexts v /\ readable_trust ex_stock v /\ history ex_stock once /\ w_stores once <> w_stores ex_stock /\
  (exists out, verify_result ex_both ex_venv 9 400 "any" None true v (with_file ex_pair ex_stock) = Ok out /\
               verify_result ex_both ex_venv 9 400 "any" None true v (with_file ex_pair once) = Ok out).
Proof.
  intros v once. split; [split; reflexivity|]. split.
  { exists ex_lazy. split; [reflexivity|]. intros l H _. injection H as <-. reflexivity. }
  split; [apply history_verify; apply history_start|]. split.
  { intros H. apply (f_equal (@length store)) in H. vm_compute in H. discriminate H. }
  eexists. split; vm_compute; reflexivity.
Qed.

(** *** C63 *)

(** Accepted in the mode "all": accepted in every mode, and which signature is returned. *)
Theorem C63_all :
  forall load E depth expected ign v w,
  default_contexts v -> readable_trust w v ->
  forall out, settles load E depth expected ign v "all" w (Ok out) ->
  exists a chains rest, out = (a, chains) :: rest /\
    settles load E depth expected ign v "first" w (Ok [(a, chains)]) /\
    (forall mode, any_mode mode -> settles load E depth expected ign v mode w (Ok [(a, chains)])) /\
    exists pre x post, out = pre ++ x :: post /\ settles load E depth expected ign v "best" w (Ok [x]) /\
      (forall y, In y out -> strength (digest_of (fst y)) <= strength (digest_of (fst x))) /\
      (forall y, In y pre -> strength (digest_of (fst y)) < strength (digest_of (fst x))).
Proof. exact c63_all. Qed.
Print Assumptions C63_all.

(** Accepted in the mode "first": accepted in the mode "any", with the same result. *)
Theorem C63_first :
  forall load E depth expected ign v w,
  default_contexts v -> readable_trust w v ->
  forall out mode, any_mode mode ->
  settles load E depth expected ign v "first" w (Ok out) -> settles load E depth expected ign v mode w (Ok out).
Proof. exact c63_first. Qed.
Print Assumptions C63_first.

(** Rejected in the mode "any", other than by an interruption: rejected in every mode. *)
Theorem C63_none :
  forall load E depth expected ign v w,
  default_contexts v -> readable_trust w v ->
  forall e mode mode', any_mode mode ->
  settles load E depth expected ign v mode w (Err e) -> issubclass (e_class e) Exception_ = true ->
  exists e', settles load E depth expected ign v mode' w (Err e') /\ issubclass (e_class e') Exception_ = true.
Proof. exact c63_none. Qed.
Print Assumptions C63_none.

(** Every mode has a result. *)
Theorem C63_settles :
  forall load E depth expected ign v w,
  default_contexts v -> readable_trust w v ->
  forall mode, exists r, settles load E depth expected ign v mode w r.
Proof. exact c63_settles. Qed.
Print Assumptions C63_settles.

Example C63_run :
  default_contexts (ex_v None None "strict") /\ readable_trust (ex_worldf ex_pair) (ex_v None None "strict") /\
  any_mode "any" /\
  ex_try (ex_of "sha1" true "sha256" true) "all" = Ok [("sha1", ex_chain); ("sha256", ex_chain)] /\
  ex_try (ex_of "sha1" true "sha256" true) "best" = Ok [("sha256", ex_chain)] /\
  (* neither of "first" and "best" implies the other, and "any" implies neither *)
  ex_try (ex_of "sha1" true "sha256" false) "first" = Ok [("sha1", ex_chain)] /\
  ex_try (ex_of "sha1" true "sha256" false) "best" = Err ex_invalid /\
  ex_try (ex_of "sha1" false "sha256" true) "first" = Err ex_invalid /\
  ex_try (ex_of "sha1" false "sha256" true) "best" = Ok [("sha256", ex_chain)] /\
  ex_try (ex_of "sha1" false "sha256" false) "any" = Err ex_invalid /\
  issubclass (e_class ex_invalid) Exception_ = true.
Proof.
  split; [split; reflexivity|]. split; [exists ex_trusted; split; [reflexivity|intros l H; discriminate H]|].
  split; [repeat split; discriminate|]. vm_compute. repeat split.
Qed.
