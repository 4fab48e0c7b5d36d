(** What the contents of primitive values stand for (X.690, RFC 3629, RFC 2781). *)
From Verif Require Import Base.
From Coq Require Import DecimalString.

(** ** INTEGER (X.690, 8.3) *)

Inductive twos_complement : bytes -> Z -> Prop :=
| twos_first x : twos_complement [x] (if Z_of_byte x <? 128 then Z_of_byte x else Z_of_byte x - 256)
| twos_next b z x : twos_complement b z -> twos_complement (b ++ [x]) (256 * z + Z_of_byte x).

(** ** OBJECT IDENTIFIER (X.690, 8.19) *)

(** Groups of seven bits that are followed by more. *)
Inductive groups : bytes -> Z -> Prop :=
| groups_nil : groups [] 0
| groups_next b z x : groups b z -> 0 <= x < 128 -> groups (b ++ [byte_of_Z (128 + x)]) (128 * z + x).
Definition subidentifier (b : bytes) (z : Z) : Prop :=
  exists p y x, groups p y /\ 0 <= x < 128 /\ b = p ++ [byte_of_Z x] /\ z = 128 * y + x.
(** The components of an identifier. *)
Definition components (b : bytes) (arcs : list Z) : Prop :=
  exists x y rest b1 bs, arcs = x :: y :: rest /\ ((0 <= x < 2 /\ 0 <= y < 40) \/ (x = 2 /\ 0 <= y)) /\
  subidentifier b1 (40 * x + y) /\ Forall2 subidentifier bs rest /\ b = b1 ++ concat bs.
(** In decimal, with dots. *)
Definition numeral (z : Z) : string := NilEmpty.string_of_uint (N.to_uint (Z.to_N z)).
Definition dots (arcs : list Z) : string := String.concat "." (map numeral arcs).

(** ** Times *)

(** The day after, in the Gregorian calendar. *)
Definition leap (y : Z) : bool := (y mod 4 =? 0) && (negb (y mod 100 =? 0) || (y mod 400 =? 0)).
Definition month_length (y m : Z) : Z :=
  nth (Z.to_nat (m - 1)) [31; if leap y then 29 else 28; 31; 30; 31; 30; 31; 31; 30; 31; 30; 31] 0.
Definition date (y m d : Z) : Prop := 1 <= m <= 12 /\ 1 <= d <= month_length y m.
Inductive tomorrow : Z * Z * Z -> Z * Z * Z -> Prop :=
| next_day y m d : d < month_length y m -> tomorrow (y, m, d) (y, m, d + 1)
| next_month y m d : d = month_length y m -> m < 12 -> tomorrow (y, m, d) (y, m + 1, 1)
| next_year y d : d = month_length y 12 -> tomorrow (y, 12, d) (y + 1, 1, 1).
(** [n] days after 1601-01-01. *)
Inductive days_after : Z * Z * Z -> Z -> Prop :=
| the_epoch : days_after (1601, 1, 1) 0
| day_later t t' n : days_after t n -> tomorrow t t' -> days_after t' (n + 1)
| day_earlier y m d t' n : days_after t' n -> date y m d -> tomorrow (y, m, d) t' -> days_after (y, m, d) (n - 1).

(** Two and four decimal digits. *)
Definition digit (z : Z) : byte := byte_of_Z (48 + z).
Definition two (z : Z) : bytes := [digit (z / 10); digit (z mod 10)].
Definition four (z : Z) : bytes := two (z / 100) ++ two (z mod 100).
(** Zones, in minutes. *)
Inductive zone : bytes -> Z -> Prop :=
| zulu : zone [byte_of_Z 90] 0
| east h m : 0 <= h < 24 -> 0 <= m < 60 -> zone (byte_of_Z 43 :: two h ++ two m) (60 * h + m)
| west h m : 0 <= h < 24 -> 0 <= m < 60 -> zone (byte_of_Z 45 :: two h ++ two m) (- (60 * h + m)).
(** The year of a UTCTime (RFC 5280, 4.1.2.5.1). *)
Definition utc_year (y : Z) : Z := if y <? 50 then 2000 + y else 1900 + y.
Definition clock (h mi s : Z) : Prop := 0 <= h < 24 /\ 0 <= mi < 60 /\ 0 <= s < 60.
Definition digits2 (z : Z) : Prop := 0 <= z < 100.

(** ** Text *)

(** Code points that are not surrogates. *)
Definition scalar_value (c : N) : Prop := (c < 55296 \/ 57344 <= c < 1114112)%N.
Definition octet (z : Z) : byte := byte_of_Z z.
(** RFC 3629, section 3. *)
Definition utf8_point (c : N) : bytes :=
  let z := Z.of_N c in
  if z <? 128 then [octet z]
  else if z <? 2048 then [octet (192 + z / 64); octet (128 + z mod 64)]
  else if z <? 65536 then [octet (224 + z / 4096); octet (128 + z / 64 mod 64); octet (128 + z mod 64)]
  else [octet (240 + z / 262144); octet (128 + z / 4096 mod 64); octet (128 + z / 64 mod 64); octet (128 + z mod 64)].
(** RFC 2781, section 2.1, big endian. *)
Definition unit_be (z : Z) : bytes := [octet (z / 256); octet (z mod 256)].
Definition utf16_point (c : N) : bytes :=
  let z := Z.of_N c in
  if z <? 65536 then unit_be z
  else unit_be (55296 + (z - 65536) / 1024) ++ unit_be (56320 + (z - 65536) mod 1024).
Definition utf32_point (c : N) : bytes := unit_be (Z.of_N c / 65536) ++ unit_be (Z.of_N c mod 65536).

(** ** Names of identifiers

    RFC 3370, RFC 5754, RFC 5652, RFC 3161, RFC 5280 and the Authenticode specification. *)
Definition digest_names : list (list Z * string) :=
  [([1; 2; 840; 113549; 2; 5], "md5"); ([1; 3; 14; 3; 2; 26], "sha1");
   ([2; 16; 840; 1; 101; 3; 4; 2; 1], "sha256"); ([2; 16; 840; 1; 101; 3; 4; 2; 2], "sha384");
   ([2; 16; 840; 1; 101; 3; 4; 2; 3], "sha512")].
Definition content_names : list (list Z * string) :=
  [([1; 2; 840; 113549; 1; 7; 2], "signed_data"); ([1; 2; 840; 113549; 1; 9; 16; 1; 4], "tst_info");
   ([1; 3; 6; 1; 4; 1; 311; 2; 1; 4], "microsoft_spc_indirect_data_content");
   ([1; 3; 6; 1; 4; 1; 311; 10; 1], "microsoft_ctl")].
Definition attribute_names : list (list Z * string) :=
  [([1; 2; 840; 113549; 1; 9; 3], "content_type"); ([1; 2; 840; 113549; 1; 9; 4], "message_digest");
   ([1; 2; 840; 113549; 1; 9; 5], "signing_time"); ([1; 2; 840; 113549; 1; 9; 6], "counter_signature");
   ([1; 3; 6; 1; 4; 1; 311; 2; 4; 1], "microsoft_nested_signature");
   ([1; 3; 6; 1; 4; 1; 311; 3; 3; 1], "microsoft_time_stamp_token");
   ([1; 3; 6; 1; 4; 1; 311; 2; 1; 12], "microsoft_spc_sp_opus_info")].
Definition purpose_names : list (list Z * string) :=
  [([1; 3; 6; 1; 5; 5; 7; 3; 3], "code_signing"); ([1; 3; 6; 1; 5; 5; 7; 3; 8], "time_stamping");
   ([1; 3; 6; 1; 4; 1; 311; 10; 3; 13], "microsoft_lifetime_signing")].

(** ** The same as functions, also of octets that stand for nothing *)

(** No octets are taken for 0. *)
Definition signed_integer (b : bytes) : Z :=
  match b with
  | [] => 0
  | x :: r => fold_left (fun v y => 256 * v + Z_of_byte y) r (if Z_of_byte x <? 128 then Z_of_byte x else Z_of_byte x - 256)
  end.

(** The groups of octets that end with one below 128; what remains is left out. *)
Fixpoint group_octets (started : bytes) (b : bytes) : list bytes :=
  match b with
  | [] => []
  | x :: r => if Z_of_byte x <? 128 then (started ++ [x]) :: group_octets [] r else group_octets (started ++ [x]) r
  end.
Definition septets_value (b : bytes) : Z := fold_left (fun v x => 128 * v + Z.land (Z_of_byte x) 127) b 0.
Definition oid_text (b : bytes) : string :=
  match map septets_value (group_octets [] b) with
  | [] => ""
  | p :: l => let x := Z.min 2 (p / 40) in dots (x :: p - 40 * x :: l)
  end.
(** The name of an identifier in a table, or the identifier. *)
Definition called (names : list (string * string)) (b : bytes) : string :=
  match find (fun p => String.eqb (fst p) (oid_text b)) names with Some p => snd p | None => oid_text b end.

(** The text of a string type, by its universal tag. *)
Definition code_unit (x : byte) : N := Z.to_N (Z_of_byte x).
Definition string_text (tag : Z) (b : bytes) (u : list N) : Prop :=
  (tag = 12 /\ Forall scalar_value u /\ b = flat_map utf8_point u) \/
  ((tag = 19 \/ tag = 20) /\ u = map code_unit b) \/
  (tag = 22 /\ Forall (fun x => Z_of_byte x < 128) b /\ u = map code_unit b) \/
  (tag = 28 /\ Forall scalar_value u /\ b = flat_map utf32_point u) \/
  (tag = 30 /\ Forall scalar_value u /\ b = flat_map utf16_point u).
