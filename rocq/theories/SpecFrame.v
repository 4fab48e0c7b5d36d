(** What a verification may change, stated on the data types of the model. *)
From Verif Require Import Base ModelFile ModelX509 ModelContext SpecContext ModelPkcs7 ModelAuthenticode SpecAuthenticode SpecSignedPE.

(** [s'] is [s] after the certificates of its location were appended, once. *)
Definition loaded_once (s s' : store) : Prop :=
  exists l, s_location s = Some l /\ s_loaded s = false /\
    s' = mkStore (s_items s ++ location_certs l) (s_trusted s) (s_ctl s) (Some l) true.

(** From [w] to [w']: the contents of the file are the same; every store is the same, or it
    is one of [stores] and was loaded; every context is the same, or it is one of [contexts],
    and its timestamp may be one of [times] and its one-shot usages may be used up. *)
Definition frame (stores contexts : nat -> Prop) (times : option datetime -> Prop) (w w' : world) : Prop :=
  f_bytes (w_file w') = f_bytes (w_file w) /\
  (forall r s, nth_error (w_stores w) r = Some s ->
     nth_error (w_stores w') r = Some s \/
     (stores r /\ exists s', nth_error (w_stores w') r = Some s' /\ loaded_once s s')) /\
  (forall x c, nth_error (w_contexts w) x = Some c ->
     nth_error (w_contexts w') x = Some c \/
     (contexts x /\ exists c', nth_error (w_contexts w') x = Some c' /\ evolved times c c')).

(** The contexts passed to a verification. *)
Definition passed (v : vargs) (x : nat) : Prop := va_context v = Some x \/ va_cs_context v = Some x.

(** The stores it may read: those of the contexts passed, and the trusted store if a context
    is to be made. *)
Definition consults (w : world) (v : vargs) (r : nat) : Prop :=
  (exists x cx, passed v x /\ nth_error (w_contexts w) x = Some cx /\ In r (x_stores cx)) \/
  (r = va_trusted v /\ (va_context v = None \/ va_cs_context v = None)).

(** The times that the countersignatures of [l] state. *)
Definition stated_times (l : list asd) (v : vargs) (t : option datetime) : Prop :=
  exists a c, In a l /\ considered a v c /\ t = counter_stated_time c.

(** ** Sequences of verifications *)

Definition with_file (f : file) (w : world) : world := mkWorld (w_stores w) (w_contexts w) f.

(** [w'] is reached from [w] by verifying any files with any arguments, one after the other. *)
Inductive history : world -> world -> Prop :=
| history_start w : history w w
| history_verify w w1 f load E depth fuel mode expected ign v :
    history w w1 ->
    history w (fst (fst (pe_open_verify load E depth fuel mode expected ign v (with_file f w1)))).

(** The contexts are those that verification makes itself. *)
Definition default_contexts (v : vargs) : Prop := va_context v = None /\ va_cs_context v = None.
(** The trusted store exists, and its location can be read if it has not been. *)
Definition readable_trust (w : world) (v : vargs) : Prop :=
  exists ts, nth_error (w_stores w) (va_trusted v) = Some ts /\ readable ts.

(** The result of a verification, whatever the number of steps allowed for loops, if it is large enough. *)
Definition settles (load : loader) (E : env) (depth : nat) (expected : option (dict bytes)) (ign : bool) (v : vargs)
  (mode : string) (w : world) (r : res (list (asd * list (list cert)))) : Prop :=
  exists N, forall fuel, (N <= fuel)%nat -> verify_result load E depth fuel mode expected ign v w = r.

(** The modes that choose every signature and accept one. *)
Definition any_mode (mode : string) : Prop := mode <> "all" /\ mode <> "first" /\ mode <> "best".
