(** The texts of times, completely. *)
From Verif Require Import Base ModelX509 SpecPrim.

(** Hours, or hours and minutes, or hours, minutes and seconds; the length in seconds of the last. *)
Inductive day_time : bytes -> Z -> Z -> Z -> Z -> Prop :=
| hours h : 0 <= h < 24 -> day_time (two h) h 0 0 3600
| minutes h m : 0 <= h < 24 -> 0 <= m < 60 -> day_time (two h ++ two m) h m 0 60
| seconds h m s : 0 <= h < 24 -> 0 <= m < 60 -> 0 <= s < 60 -> day_time (two h ++ two m ++ two s) h m s 1.

(** A decimal fraction of that unit, in microseconds: the nearest, and the smaller of two that are equally near. *)
Definition decimal_digit (x : byte) : Prop := 48 <= Z_of_byte x <= 57.
Definition decimal_value (b : bytes) : Z := fold_left (fun v x => 10 * v + (Z_of_byte x - 48)) b 0.
Definition rounds (us num den : Z) : Prop := 2 * num - den <= 2 * (us * den) < 2 * num + den.
Inductive fraction (unit : Z) : bytes -> Z -> Prop :=
| no_fraction : fraction unit [] 0
| some_fraction x ds us :
    x = byte_of_Z 46 \/ x = byte_of_Z 44 -> ds <> [] -> Forall decimal_digit ds ->
    rounds us (decimal_value ds * 1000000 * unit) (10 ^ zlen ds) -> fraction unit (x :: ds) us.

(** The zone: none, Z, or an offset of less than a day, in minutes. *)
Inductive any_zone : bytes -> option Z -> Prop :=
| no_zone : any_zone [] None
| zulu_zone : any_zone [byte_of_Z 90] (Some 0)
| hour_zone x sg h : (x = byte_of_Z 43 /\ sg = 1) \/ (x = byte_of_Z 45 /\ sg = -1) -> 0 <= h < 24 ->
    any_zone (x :: two h) (Some (sg * (60 * h)))
| minute_zone x sg h m : (x = byte_of_Z 43 /\ sg = 1) \/ (x = byte_of_Z 45 /\ sg = -1) ->
    0 <= h < 100 -> 0 <= m < 100 -> 60 * h + m < 1440 ->
    any_zone (x :: two h ++ two m) (Some (sg * (60 * h + m))).
Definition hour_only (b : bytes) : Prop := length b = 3%nat.

(** The end, or a newline and the end. *)
Inductive ending : bytes -> Prop :=
| at_once : ending []
| after_newline : ending [byte_of_Z 10].

(** The date and time with its zone as a datetime, if it is in a year up to 9999. *)
Definition at_zone (us : Z) (off : option Z) : datetime :=
  match off with None => Naive us | Some o => Aware (us - o * 60000000) end.
Definition instant_of (y mo d h mi s us : Z) (off : option Z) (t : datetime) : Prop :=
  1 <= y /\ date y mo d /\
  exists n last, days_after (y, mo, d) n /\ days_after (9999, 12, 31) last /\
    let local := (((n * 24 + h) * 60 + mi) * 60 + s) * 1000000 + us in
    local < (last + 1) * 86400000000 /\ t = at_zone local off.

Definition general_text (b : bytes) (t : datetime) : Prop :=
  exists y mo d hb h mi s unit fb us zb off eb,
    b = four y ++ two mo ++ two d ++ hb ++ fb ++ zb ++ eb /\ 0 <= y < 10000 /\
    day_time hb h mi s unit /\ fraction unit fb us /\ any_zone zb off /\ ending eb /\ instant_of y mo d h mi s us off t.
Definition utc_text (b : bytes) (t : datetime) : Prop :=
  exists y mo d hb h mi s unit zb off eb,
    b = two y ++ two mo ++ two d ++ hb ++ zb ++ eb /\ 0 <= y < 100 /\
    day_time hb h mi s unit /\ unit <> 3600 /\ any_zone zb (Some off) /\ ~ hour_only zb /\ ending eb /\
    instant_of (utc_year y) mo d h mi s 0 (Some off) t.
(** A time, by the name of its alternative. *)
Definition time_text (name : string) (b : bytes) (t : datetime) : Prop :=
  (name = "utc_time" /\ utc_text b t) \/ (name <> "utc_time" /\ general_text b t).
