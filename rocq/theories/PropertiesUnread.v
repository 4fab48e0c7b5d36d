(** Property C74: stores that cannot be read. *)
From Verif Require Import Base Bytes Monad ModelFile ModelX509 SpecX509 ModelContext SpecContext ModelPkcs7 ModelAuthenticode SpecAuthenticode
  SpecSignedPE SpecComplete SpecExact SpecUnread ProofsUnread ProofsUnread2 PropertiesFingerprint PropertiesX509 PropertiesContext
  PropertiesPE PropertiesPkcs7 PropertiesAuthenticode PropertiesSignedPE PropertiesFrame PropertiesComplete PropertiesExact PropertiesToken.

(** No chain is found for a signer, on its own or of a time-stamp token. *)
Theorem C74_signer :
  forall E authenticode i x st w cx l s,
  nth_error (w_contexts w) x = Some cx -> stores_at w (x_stores cx) l -> In s l -> unreadable s ->
  exists e, snd (signer_verify E authenticode i x st w) = Err e.
Proof. exact unread_signer. Qed.
Print Assumptions C74_signer.
Theorem C74_token :
  forall E t given trusted w cx l s,
  token_context w t given trusted cx l -> In s l -> unreadable s ->
  exists e, snd (rsd_verify E t given trusted w) = Err e.
Proof. exact unread_token. Qed.
Print Assumptions C74_token.

(** A signature is accepted exactly if all stores can be read and it is authentic.  Missing: mode
    "permit" with a countersignature, where it is false (C29_unreadable_refuted). *)
Theorem C74_exact_partial :
  forall E fuel a h v w cx l chains,
  lawful E -> distinct_contexts v -> signer_context w a v cx l -> plain_errors l -> identified (concat (map contents l)) ->
  (va_mode v = "strict" /\ (forall c, considered a v c -> exists cy ly, counter_context w a c v cy ly /\ plain_errors ly /\
     identified (concat (map contents ly))) \/ forall c, ~ considered a v c) ->
  (snd (asd_verify E fuel a (Some h) v w) = Ok chains <->
   Forall readable l /\ (forall c cy ly, considered a v c -> counter_context w a c v cy ly -> Forall readable ly) /\
   authentic E w v a h chains).
Proof. exact unread_exact. Qed.
Print Assumptions C74_exact_partial.
(** Nothing needs to be known about the libraries and the other stores for it not to be accepted. *)
Theorem C74_signature_partial :
  forall E fuel a h v w s,
  relies_on w v s -> (va_mode v = "strict" \/ forall c, ~ considered a v c) -> unreadable s ->
  exists e, snd (asd_verify E fuel a (Some h) v w) = Err e.
Proof. exact unread_reliance. Qed.
Print Assumptions C74_signature_partial.
Theorem C74_countersignature :
  forall E fuel a h v w c cy ly s,
  considered a v c -> counter_context w a c v cy ly -> va_mode v = "strict" -> In s ly -> unreadable s ->
  exists e, snd (asd_verify E fuel a (Some h) v w) = Err e.
Proof. exact unread_counter. Qed.
Print Assumptions C74_countersignature.

(** No file is accepted if all its signatures, or the first, have to be verified. *)
Theorem C74_file_partial :
  forall load E depth fuel mode expected ign v w s,
  relies_on w v s -> unreadable s -> (va_mode v = "strict" \/ va_mode v = "ignore") -> conjunctive mode ->
  exists e, verify_result load E depth fuel mode expected ign v w = Err e.
Proof. exact unread_file. Qed.
Print Assumptions C74_file_partial.

(** The full statement, for every mode, is false: the first signature fails with the error of the
    store, and the second is verified with the certificates that were read before it. *)
Definition ex_partial : store := mkStore [] true None (Some [([ex_root], Some (mkExn ValueError "No PEM"))]) false.
Definition ex_partial_world : world := mkWorld [ex_partial] [] ex_pair.
Theorem C74_refuted :
  exists load E depth fuel mode v w s,
    relies_on w v s /\ unreadable s /\ va_mode v = "strict" /\
    is_ok (verify_result load E depth fuel mode None true v w) = true.
Proof.
  exists ex_both, ex_venv, 9%nat, 400%nat, "any", (ex_v None None "strict"), ex_partial_world, ex_partial.
  split; [reflexivity|]. split; [do 2 eexists; repeat split|]. split; [reflexivity|]. vm_compute. reflexivity.
Qed.
Print Assumptions C74_refuted.

(** With the modes "all" and "first" the same file is not accepted; it is if the store can be read. *)
Example C74_run :
  let sound := mkStore [] true None (Some [([ex_root], None)]) false in
  let run mode s := verify_result ex_both ex_venv 9 400 mode None true (ex_v None None "strict") (mkWorld [s] [] ex_pair) in
  relies_on ex_partial_world (ex_v None None "strict") ex_partial /\ unreadable ex_partial /\ plain_errors [ex_partial; sound] /\
  run "all" ex_partial = Err (mkExn ValueError "No PEM") /\ run "first" ex_partial = Err (mkExn ValueError "No PEM") /\
  is_ok (run "all" sound) = true /\
  snd (asd_verify ex_tenv 0 (ex_asd (Some ex_good) ex_certs) (Some [x07]) (ex_v None None "strict") (mkWorld [sound] [] ex_file))
    = Ok [[ex_root; ex_int; ex_leaf]] /\
  is_ok (snd (asd_verify ex_tenv 0 (ex_asd (Some ex_good) ex_certs) (Some [x07]) (ex_v None None "strict") ex_partial_world)) = false /\
  is_ok (snd (asd_verify ex_tenv 0 (ex_asd None ex_certs) (Some [x07]) (ex_v None None "strict") ex_partial_world)) = false.
Proof.
  cbv zeta. split; [reflexivity|]. assert (U : unreadable ex_partial) by (do 2 eexists; repeat split). split; [exact U|].
  split; [constructor; [right; exact U|constructor; [left|constructor]]; intros l H _; injection H as <-; reflexivity|].
  vm_compute. repeat split; reflexivity.
Qed.

(** The hypotheses of C74_exact_partial hold for a countersigned signature and the damaged store. *)
Example C74_exact_held :
  let v := ex_v None None "strict" in let a := ex_asd (Some ex_good) ex_certs in
  lawful ex_venv /\ distinct_contexts v /\
  signer_context ex_partial_world a v (default_context [0; 1]%nat "code_signing" no_kwargs) [ex_partial; shipped (asd_data a)] /\
  plain_errors [ex_partial; shipped (asd_data a)] /\ identified (concat (map contents [ex_partial; shipped (asd_data a)])) /\
  considered a v ex_good /\
  counter_context ex_partial_world a ex_good v (default_context [0; 1]%nat "time_stamping" no_kwargs) [ex_partial; shipped (asd_data a)] /\
  ~ Forall readable [ex_partial; shipped (asd_data a)].
Proof.
  cbv zeta. split; [exact ex_venv_lawful|]. split; [intros x y H; discriminate H|].
  split; [exists ex_partial; repeat split|].
  split; [constructor; [right; do 2 eexists; repeat split|constructor; [left; intros l H; discriminate H|constructor]]|].
  split; [change (identified [ex_root; ex_int; ex_leaf; ex_tsa]); ids|].
  split; [split; [reflexivity|discriminate]|]. split; [exists ex_partial; repeat split|].
  intro F. apply Forall_inv in F. discriminate (F _ eq_refl eq_refl).
Qed.
