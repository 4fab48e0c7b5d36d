(** Text encodings of octets: RFC 4648 and RFC 7468. *)
From Verif Require Import Base.

(** ** Base 64 (RFC 4648, section 4) *)

Definition alphabet : bytes :=
  list_byte_of_string "ABCDEFGHIJKLMNOPQRSTUVWXYZabcdefghijklmnopqrstuvwxyz0123456789+/".
Definition letter (z : Z) : byte := nth (Z.to_nat z) alphabet x00.
Fixpoint base64 (b : bytes) : bytes :=
  match b with
  | [] => []
  | [x] => let n := Z_of_byte x in [letter (n / 4); letter (n mod 4 * 16); x3d; x3d]
  | [x; y] => let n := Z_of_byte x * 256 + Z_of_byte y in
      [letter (n / 1024); letter (n / 16 mod 64); letter (n mod 16 * 4); x3d]
  | x :: y :: z :: b' => let n := (Z_of_byte x * 256 + Z_of_byte y) * 256 + Z_of_byte z in
      letter (n / 262144) :: letter (n / 4096 mod 64) :: letter (n / 64 mod 64) :: letter (n mod 64) :: base64 b'
  end.

(** ** Lines *)

Definition eol (b : bytes) : Prop := b = [x0a] \/ b = [x0d] \/ b = [x0d; x0a].
Definition one_line (b : bytes) : Prop := ~ In x0a b /\ ~ In x0d b.
(** The text made of these lines; the last end of a line may be missing. *)
Inductive text_of : list bytes -> bytes -> Prop :=
| text_nil : text_of [] []
| text_last l : one_line l -> text_of [l] l
| text_line l e ls b : one_line l -> eol e -> text_of ls b -> text_of (l :: ls) (l ++ e ++ b).

(** ** Bundles (RFC 7468, section 3) *)

Definition lit (s : string) : bytes := list_byte_of_string s.
(** Upper-case letters, digits and blanks. *)
Definition label (l : bytes) : Prop :=
  l <> [] /\ Forall (fun c => 65 <= Z_of_byte c <= 90 \/ 48 <= Z_of_byte c <= 57 \/ Z_of_byte c = 32) l.
Definition pre (l : bytes) : bytes := lit "-----BEGIN " ++ l ++ lit "-----".
Definition post (l : bytes) : bytes := lit "-----END " ++ l ++ lit "-----".
(** Explanatory text: lines that do not look like the beginning of a block. *)
Definition remark (l : bytes) : Prop :=
  forall rest, l <> lit "-----BEGIN " ++ rest /\ l <> lit "---- BEGIN " ++ rest.
(** Lines that hold blocks of octets among explanatory text. *)
Inductive bundle : list bytes -> list bytes -> Prop :=
| bundle_end notes : Forall remark notes -> bundle notes []
| bundle_block notes l l' body der ls ders :
    Forall remark notes -> label l -> label l' -> concat body = base64 der -> bundle ls ders ->
    bundle (notes ++ pre l :: body ++ post l' :: ls) (der :: ders).

(** ** What a reader may find in a text *)

(** The values of the letters in a text, other characters aside. *)
Inductive letters : bytes -> list Z -> Prop :=
| letters_nil : letters [] []
| letters_take v b vs : 0 <= v < 64 -> letters b vs -> letters (letter v :: b) (v :: vs)
| letters_skip c b vs : (forall v, 0 <= v < 64 -> c <> letter v) -> letters b vs -> letters (c :: b) vs.
Definition number (base : Z) (vs : list Z) : Z := fold_left (fun n v => base * n + v) vs 0.
(** The octets have the leading bits of the letters, but for less than one letter; there may be
    more text only after the padding character. *)
Definition carries (text d : bytes) : Prop :=
  exists used rest vs k, text = used ++ rest /\ (rest = [] \/ exists u, used = u ++ [x3d]) /\
    letters used vs /\ (k = 0 \/ k = 2 \/ k = 4) /\ 6 * zlen vs = 8 * zlen d + k /\
    number 256 (map Z_of_byte d) = number 64 vs / 2 ^ k.
Definition blankless (ls : list bytes) : list bytes := filter (fun l => match l with [] => false | _ => true end) ls.
Definition dashed (l : bytes) : Prop := exists rest, l = lit "-----" ++ rest \/ l = lit "---- " ++ rest.
(** The lines hold a block with the octets, between a line that begins a block and the first line
    after it that begins with dashes; lines with colons before the contents are headers. *)
Definition block_of (ls : list bytes) (d : bytes) : Prop :=
  exists before b headers body e after,
    blankless ls = before ++ b :: headers ++ body ++ e :: after /\
    (exists rest, b = lit "-----BEGIN " ++ rest \/ b = lit "---- BEGIN " ++ rest) /\
    Forall (fun l => In x3a l) headers /\ Forall (fun l => ~ dashed l) body /\ dashed e /\
    carries (concat body) d.
