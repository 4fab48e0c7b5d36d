(** Stores that cannot be read. *)
From Verif Require Import Base ModelX509 ModelContext SpecContext ModelPkcs7 ModelAuthenticode SpecAuthenticode.

(** The files of the store are still to be read, and one of them cannot, with an exception that is no
    verification error. *)
Definition unreadable (s : store) : Prop :=
  exists loc e, s_location s = Some loc /\ s_loaded s = false /\ location_error loc = Some e /\
  issubclass (e_class e) VerificationError = false.
(** Files that cannot be read are reported otherwise than by verification errors. *)
Definition plain_errors (l : list store) : Prop := Forall (fun s => readable s \/ unreadable s) l.
(** The chain of the signer is built with the store [s]. *)
Definition relies_on (w : world) (v : vargs) (s : store) : Prop :=
  match va_context v with
  | Some x => exists cx r, nth_error (w_contexts w) x = Some cx /\ In r (x_stores cx) /\ nth_error (w_stores w) r = Some s
  | None => nth_error (w_stores w) (va_trusted v) = Some s
  end.
