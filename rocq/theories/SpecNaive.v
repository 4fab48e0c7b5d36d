(** Datetimes without a timezone (C78). *)
From Verif Require Import Base Monad ModelX509.

(** The constructor of ValidationContext refuses a moment without a timezone
    (pyhanko_certvalidator and certvalidator both raise ValueError). *)
Definition needs_zone (E : env) : Prop :=
  forall r us o c i, exists m, e_mk_validation E r (Some (Naive us)) o c i = raise ValueError m.
Definition zoneless (t : option datetime) : Prop := exists us, t = Some (Naive us).
