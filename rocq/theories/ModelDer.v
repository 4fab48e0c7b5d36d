(** Model of the part of asn1crypto that decodes the structures declared in
    signify/asn1/spc.py and signify/asn1/ctl.py and those of the library that signify reads.
    asn1crypto is not part of /repo; it is modelled here because the declarations of
    signify/asn1 are data that only mean something to it.  Simplified: strings in the
    indefinite-length form are rejected, as are multi-byte tags beyond any structure used.
    No proofs in this file. *)
From Verif Require Import Base.

(** ** Tag, length, value *)

(** What asn1crypto's [_parse] returns for a value: class, method (constructed or primitive),
    tag, header, contents and trailer. *)
Record tlv := mkTlv {
  t_class : Z;
  t_cons : bool;
  t_tag : Z;
  t_header : bytes;
  t_contents : bytes;
  t_trailer : bytes
}.

(** [dump()] of a value that has not been changed. *)
Definition tlv_dump (t : tlv) : bytes := t_header t ++ t_contents t ++ t_trailer t.

Definition value_error {A} (m : string) : res A := raise ValueError m.
Definition insufficient {A} : res A := value_error "Insufficient data".

(** The octets after the first of a tag number that does not fit in it; [first]: none has been
    read. *)
Fixpoint long_tag (first : bool) (acc : Z) (b : bytes) : res (Z * bytes) :=
  match b with
  | [] => insufficient
  | x :: b' =>
      let n := Z_of_byte x in
      if first && (n =? 128) then value_error "Non-minimal tag encoding"
      else
        let acc' := acc * 128 + n mod 128 in
        if n <? 128 then (if acc' <? 31 then value_error "Non-minimal tag encoding" else Ok (acc', b'))
        else long_tag false acc' b'
  end.

(** The identifier octets: class, method, tag. *)
Definition parse_tag (b : bytes) : res (Z * bool * Z * bytes) :=
  match b with
  | [] => insufficient
  | x :: b' =>
      let n := Z_of_byte x in
      let cls := n / 64 in
      let con := Z.odd (n / 32) in
      if n mod 32 =? 31 then let? (tag, r) := long_tag true 0 b' in Ok (cls, con, tag, r)
      else Ok (cls, con, n mod 32, b')
  end.

(** The number written in big-endian octets. *)
Definition be_to_Z (b : bytes) : Z := fold_left (fun a x => a * 256 + Z_of_byte x) b 0.

(** The length octets; None is the indefinite form. *)
Definition parse_length (b : bytes) : res (option Z * bytes) :=
  match b with
  | [] => insufficient
  | x :: b' =>
      let n := Z_of_byte x in
      if n <? 128 then Ok (Some n, b')
      else if n =? 128 then Ok (None, b')
      else if zlen b' <? n - 128 then insufficient
      else Ok (Some (be_to_Z (ztake (n - 128) b')), zskip (n - 128) b')
  end.

(** What follows two zero octets. *)
Definition end_of_contents (b : bytes) : option bytes :=
  match b with
  | x :: y :: rest => if (Z_of_byte x =? 0) && (Z_of_byte y =? 0) then Some rest else None
  | _ => None
  end.

(** What follows the values up to the two zero octets; [parse] reads one value. *)
Fixpoint scan (parse : bytes -> res (tlv * bytes)) (fuel : nat) (x : bytes) : res bytes :=
  match fuel with
  | O => insufficient
  | S fuel' =>
      match end_of_contents x with
      | Some rest => Ok rest
      | None => let? (_, x') := parse x in scan parse fuel' x'
      end
  end.

(** asn1crypto's [_parse]: the first value and what follows it.  [depth] is the remaining
    nesting of indefinite lengths ([_MAX_DEPTH]).  The values inside one of indefinite length
    are skipped up to the two zero octets. *)
Fixpoint parse_depth (depth : nat) (b : bytes) : res (tlv * bytes) :=
  match depth with
  | O => value_error "Indefinite-length recursion limit exceeded"
  | S d =>
      let? (cls, con, tag, r1) := parse_tag b in
      let? (len, r2) := parse_length r1 in
      let header := ztake (zlen b - zlen r2) b in
      match len with
      | Some n =>
          if zlen r2 <? n then insufficient
          else Ok (mkTlv cls con tag header (ztake n r2) [], zskip n r2)
      | None =>
          if negb con then value_error "Indefinite-length element must be constructed"
          else
            let? rest := scan (parse_depth d) (S (length r2)) r2 in
            Ok (mkTlv cls con tag header (ztake (zlen r2 - zlen rest - 2) r2) [x00; x00], rest)
      end
  end.
Definition parse_tlv (b : bytes) : res (tlv * bytes) := parse_depth 11 b.

(** All values of a contents: the children of a SEQUENCE OF or SET OF, and of a SEQUENCE. *)
Fixpoint parse_many (fuel : nat) (b : bytes) : res (list tlv) :=
  match b with
  | [] => Ok []
  | _ =>
      match fuel with
      | O => insufficient
      | S fuel' =>
          let? (t, r) := parse_tlv b in
          let? l := parse_many fuel' r in
          Ok (t :: l)
      end
  end.
Definition parse_all (b : bytes) : res (list tlv) := parse_many (length b) b.

(** ** Declarations *)

Inductive tagging : Type :=
| Untagged
| Implicit (n : Z)
| Explicit (n : Z).

(** Whether a field may be absent. *)
Inductive presence : Type :=
| Required
| Optional
| Default.

(** A class that derives from one of asn1crypto's: a primitive with its universal tag,
    Sequence with its [_fields], SequenceOf and SetOf with their [_child_spec], Choice with
    its [_alternatives], and Any. *)
Inductive asn : Type :=
| APrim (tag : Z)
| ASeq (fields : list (string * (asn * (tagging * presence))))
| ASeqOf (child : asn)
| ASetOf (child : asn)
| AChoice (alts : list (string * (asn * tagging)))
| AAny.

(** The (class, tag) with which a value of the type can begin; None for Any. *)
Fixpoint first_ids (a : asn) (tg : tagging) : option (list (Z * Z)) :=
  match tg with
  | Implicit n | Explicit n => Some [(2, n)]
  | Untagged =>
      match a with
      | APrim tag => Some [(0, tag)]
      | ASeq _ | ASeqOf _ => Some [(0, 16)]
      | ASetOf _ => Some [(0, 17)]
      | AChoice alts =>
          (fix ids (l : list (string * (asn * tagging))) : option (list (Z * Z)) :=
             match l with
             | [] => Some []
             | (_, (x, y)) :: l' =>
                 match first_ids x y, ids l' with
                 | Some i, Some j => Some (i ++ j)
                 | _, _ => None
                 end
             end) alts
      | AAny => None
      end
  end.

Definition id_eqb (a b : Z * Z) : bool := (fst a =? fst b) && (snd a =? snd b).
Definition id_in (t : tlv) (ids : option (list (Z * Z))) : bool :=
  match ids with
  | None => true
  | Some l => existsb (id_eqb (t_class t, t_tag t)) l
  end.

(** The tag checks of asn1crypto's [_build]: the value itself, without an explicit tag around
    it (what follows the value inside the explicit tag is ignored). *)
Definition unwrap (tg : tagging) (t : tlv) : res tlv :=
  match tg with
  | Explicit n =>
      if negb ((t_class t =? 2) && t_cons t && (t_tag t =? n)) then value_error "explicit tag mismatch"
      else let? (u, _) := parse_tlv (t_contents t) in Ok u
  | _ => Ok t
  end.
Definition expect (tg : tagging) (con : bool) (tag : Z) (t : tlv) : res tlv :=
  let? u := unwrap tg t in
  let (cls, tag') := match tg with Implicit n => (2, n) | _ => (0, tag) end in
  if (t_class u =? cls) && Bool.eqb (t_cons u) con && (t_tag u =? tag') then Ok u
  else value_error "tag mismatch".

(** asn1crypto's [Sequence._parse_children]: which of the values belongs to which field.  An
    optional field is taken to be absent when the next value does not begin like it. *)
Fixpoint match_fields (fs : list (string * (asn * (tagging * presence)))) (l : list tlv)
  : res (dict (option tlv)) :=
  match fs, l with
  | [], [] => Ok []
  | [], _ :: _ => value_error "Extra field encountered in sequence"
  | (n, (_, (_, Required))) :: _, [] => value_error "Field is missing from structure"
  | (n, _) :: fs', [] => let? d := match_fields fs' [] in Ok ((n, None) :: d)
  | (n, (_, (_, Required))) :: fs', t :: l' => let? d := match_fields fs' l' in Ok ((n, Some t) :: d)
  | (n, (a, (tg, _))) :: fs', t :: l' =>
      if id_in t (first_ids a tg) then let? d := match_fields fs' l' in Ok ((n, Some t) :: d)
      else let? d := match_fields fs' l in Ok ((n, None) :: d)
  end.

(** The first alternative of a Choice that begins like the value. *)
Fixpoint find_alt {A} (t : tlv) (alts : list (string * (asn * tagging)))
  (k : string -> asn -> tagging -> res A) : res A :=
  match alts with
  | [] => value_error "Error parsing choice"
  | (n, (a, tg)) :: alts' => if id_in t (first_ids a tg) then k n a tg else find_alt t alts' k
  end.

(** ** Complete decoding of a declared type *)

Inductive aval : Type :=
| VPrim (contents : bytes)
| VSeq (fields : list (option aval))
| VList (l : list aval)
| VChoice (name : string) (v : aval)
| VAny (t : tlv).

Fixpoint decode (a : asn) (tg : tagging) (t : tlv) : res aval :=
  match a with
  | APrim tag => let? u := expect tg false tag t in Ok (VPrim (t_contents u))
  | ASeq fields =>
      let? u := expect tg true 16 t in
      let? l := parse_all (t_contents u) in
      let? vs :=
        (fix go (fs : list (string * (asn * (tagging * presence)))) (l : list tlv)
           : res (list (option aval)) :=
           match fs with
           | [] => match l with [] => Ok [] | _ => value_error "Extra field encountered in sequence" end
           | (_, (x, (y, p))) :: fs' =>
               match l with
               | [] =>
                   match p with
                   | Required => value_error "Field is missing from structure"
                   | _ => let? vs := go fs' [] in Ok (None :: vs)
                   end
               | h :: l' =>
                   if (match p with Required => true | _ => id_in h (first_ids x y) end)
                   then let? v := decode x y h in let? vs := go fs' l' in Ok (Some v :: vs)
                   else let? vs := go fs' l in Ok (None :: vs)
               end
           end) fields l in
      Ok (VSeq vs)
  | ASeqOf c =>
      let? u := expect tg true 16 t in
      let? l := parse_all (t_contents u) in
      let? vs := (fix all (l : list tlv) : res (list aval) :=
                    match l with
                    | [] => Ok []
                    | h :: l' => let? v := decode c Untagged h in let? vs := all l' in Ok (v :: vs)
                    end) l in
      Ok (VList vs)
  | ASetOf c =>
      let? u := expect tg true 17 t in
      let? l := parse_all (t_contents u) in
      let? vs := (fix all (l : list tlv) : res (list aval) :=
                    match l with
                    | [] => Ok []
                    | h :: l' => let? v := decode c Untagged h in let? vs := all l' in Ok (v :: vs)
                    end) l in
      Ok (VList vs)
  | AChoice alts =>
      let? u := unwrap tg t in
      (fix find (alts : list (string * (asn * tagging))) : res aval :=
         match alts with
         | [] => value_error "Error parsing choice"
         | (n, (x, y)) :: alts' =>
             if id_in u (first_ids x y) then let? v := decode x y u in Ok (VChoice n v)
             else find alts'
         end) alts
  | AAny => let? u := unwrap tg t in Ok (VAny u)
  end.

(** [cls.load(b)]: what follows the value is ignored. *)
Definition load (a : asn) (b : bytes) : res aval :=
  let? (t, _) := parse_tlv b in decode a Untagged t.
