(** The basic encoding rules of X.690: which octets are the encoding of a value, with tag
    numbers of any size and lengths in all three forms; and how declared types are written with
    them.  Nothing here refers to the decoder of ModelDer.v. *)
From Verif Require Import Base ModelDer SpecAsn.

(** ** Values *)

(** A number in groups of seven bits, the most significant first. *)
Fixpoint septets (b : bytes) : Z :=
  match b with
  | [] => 0
  | x :: b' => Z_of_byte x mod 128 * 128 ^ zlen b' + septets b'
  end.
(** The first bit of an octet tells that more follow. *)
Definition more (x : byte) : Prop := 128 <= Z_of_byte x.

(** X.690, 8.1.2: tags up to 30 are in the first octet, others follow it in as few octets as
    possible. *)
Inductive identifier_octets (cls : Z) (con : bool) : Z -> bytes -> Prop :=
| LowTag tag : 0 <= cls <= 3 -> 0 <= tag <= 30 -> identifier_octets cls con tag [identifier cls con tag]
| HighTag h x :
    0 <= cls <= 3 -> Forall more h -> ~ more x -> hd x (h ++ [x]) <> x80 -> 31 <= septets (h ++ [x]) ->
    identifier_octets cls con (septets (h ++ [x])) (identifier cls con 31 :: h ++ [x]).

(** X.690, 8.1.3.2: a definite length. *)
Definition definite (t : tlv) : Prop :=
  exists io lo, t_header t = io ++ lo /\ identifier_octets (t_class t) (t_cons t) (t_tag t) io /\
    length_octets (zlen (t_contents t)) lo /\ t_trailer t = [].
(** X.690, 8.1.3.6: an indefinite length; the contents are values, of which none is the end
    marker, and an end marker follows them. *)
Definition end_marker : bytes := [x00; x00].
Definition indefinite (value : tlv -> Prop) (t : tlv) : Prop :=
  exists io l, t_header t = io ++ [x80] /\ identifier_octets (t_class t) true (t_tag t) io /\ t_cons t = true /\
    t_contents t = concat (map tlv_dump l) /\ Forall (fun u => value u /\ tlv_dump u <> end_marker) l /\
    t_trailer t = end_marker.
(** A value in which indefinite lengths are nested less than [d] deep. *)
Fixpoint ber (d : nat) (t : tlv) : Prop :=
  match d with
  | O => False
  | S d' => definite t \/ indefinite (ber d') t
  end.
(** The library allows ten levels in the first. *)
Definition value (t : tlv) : Prop := ber 11 t.

(** ** Declared types *)

Section Spells.
Context (loose : bool).

(** The value itself, inside an explicit tag if there is one; [loose]: something may follow it
    there. *)
Inductive around : tagging -> tlv -> tlv -> Prop :=
| AroundNone t : around Untagged t t
| AroundImplicit n t : t_class t = 2 -> t_tag t = n -> around (Implicit n) t t
| AroundExplicit n t u rest :
    t_class t = 2 -> t_cons t = true -> t_tag t = n -> value u -> t_contents t = tlv_dump u ++ rest ->
    loose = true \/ rest = [] -> around (Explicit n) t u.
(** With its own tag, or the implicit one in its place. *)
Inductive bears (con : bool) (tag : Z) : tagging -> tlv -> bytes -> Prop :=
| Bears tg t u :
    around tg t u -> t_cons u = con -> (t_class u, t_tag u) = match tg with Implicit n => (2, n) | _ => (0, tag) end ->
    bears con tag tg t (t_contents u).

(** [spells a tg v t]: t is an encoding of the value v of the type a. *)
Inductive spells : asn -> tagging -> aval -> tlv -> Prop :=
| SpellsPrim tag tg t c : bears false tag tg t c -> spells (APrim tag) tg (VPrim c) t
| SpellsSeq fs vs tg t l :
    bears true 16 tg t (concat (map tlv_dump l)) -> Forall value l -> spells_fields fs vs l ->
    spells (ASeq fs) tg (VSeq vs) t
| SpellsSeqOf x vs tg t l :
    bears true 16 tg t (concat (map tlv_dump l)) -> Forall value l -> spells_all x vs l ->
    spells (ASeqOf x) tg (VList vs) t
| SpellsSetOf x vs tg t l :
    bears true 17 tg t (concat (map tlv_dump l)) -> Forall value l -> spells_all x vs l ->
    spells (ASetOf x) tg (VList vs) t
| SpellsChoice alts n x y v tg t u :
    around tg t u -> In (n, (x, y)) alts -> spells x y v u -> spells (AChoice alts) tg (VChoice n v) t
| SpellsAny tg t u : around tg t u -> spells AAny tg (VAny u) t
with spells_fields : list (string * (asn * (tagging * presence))) -> list (option aval) -> list tlv -> Prop :=
| SpellsNil : spells_fields [] [] []
| SpellsAbsent n x tg p fs vs l :
    p <> Required -> spells_fields fs vs l -> spells_fields ((n, (x, (tg, p))) :: fs) (None :: vs) l
| SpellsPresent n x tg p fs v vs t l :
    spells x tg v t -> spells_fields fs vs l -> spells_fields ((n, (x, (tg, p))) :: fs) (Some v :: vs) (t :: l)
with spells_all : asn -> list aval -> list tlv -> Prop :=
| SpellsNone x : spells_all x [] []
| SpellsCons x v vs t l : spells x Untagged v t -> spells_all x vs l -> spells_all x (v :: vs) (t :: l).
End Spells.
Scheme spells_mut := Minimality for spells Sort Prop
  with spells_fields_mut := Minimality for spells_fields Sort Prop
  with spells_all_mut := Minimality for spells_all Sort Prop.
Combined Scheme spells_ind3 from spells_mut, spells_fields_mut, spells_all_mut.

(** The octets begin with an encoding of the value (the library: [loose]). *)
Definition written (loose : bool) (a : asn) (v : aval) (b : bytes) : Prop :=
  exists t rest, b = tlv_dump t ++ rest /\ value t /\ spells loose a Untagged v t.

(** X.680, 31.2.7: a choice or a value of unknown type has no tag that an implicit one could
    replace (where it is optional, it is recognised by the implicit tag). *)
Definition open_type (a : asn) : bool := match a with AChoice _ | AAny => true | _ => false end.
Definition implicit (tg : tagging) : bool := match tg with Implicit _ => true | _ => false end.
Fixpoint taggable (a : asn) : bool :=
  match a with
  | APrim _ | AAny => true
  | ASeq fs =>
      forallb (fun f => match f with
                        | (_, (x, (tg, p))) =>
                            taggable x && match p with Required => negb (open_type x && implicit tg) | _ => true end
                        end) fs
  | ASeqOf x | ASetOf x => taggable x
  | AChoice alts => forallb (fun f => match f with (_, (x, _)) => taggable x end) alts
  end.
