(** A concrete [lz_loader]: from the bytes of an envelope to the values that ModelLazy.v reads,
    by the declarations of ModelSpc.v.  This is what asn1crypto (not in /repo) does with them;
    the functions follow the reads of signify/pkcs7, signify/x509/certificates.py and
    signify/authenticode/structures.py.  Simplified: of the extensions of a certificate only
    extended_key_usage is decoded; names of object identifiers are those of ModelSpc.v.
    No proofs in this file. *)
From Coq Require Import DecimalString.
From Verif Require Import Base Monad ModelX509 ModelPkcs7 ModelLazy ModelDer ModelSpc.

(** ** Primitive values: [.native] *)

(** Decimal digits of a non-negative number. *)
Definition decimal (z : Z) : string := NilEmpty.string_of_uint (N.to_uint (Z.to_N z)).

(** The subidentifiers of an object identifier. *)
Fixpoint oid_parts (acc : Z) (b : bytes) : list Z :=
  match b with
  | [] => []
  | x :: b' =>
      let n := Z_of_byte x in
      let acc' := acc * 128 + n mod 128 in
      if n <? 128 then acc' :: oid_parts 0 b' else oid_parts acc' b'
  end.
Fixpoint sjoin (l : list string) : string :=
  match l with [] => "" | [s] => s | s :: l' => (s ++ "." ++ sjoin l')%string end.

(** [ObjectIdentifier.dotted]. *)
Definition dotted (b : bytes) : string :=
  match oid_parts 0 b with
  | [] => ""
  | p :: l =>
      let (x, y) := if 80 <=? p then (2, p - 80) else if 40 <=? p then (1, p - 40) else (0, p) in
      sjoin (map decimal (x :: y :: l))
  end.
(** [ObjectIdentifier.native]. *)
Definition oid_native (names : dict string) (b : bytes) : string :=
  match dict_get (dotted b) names with Some s => s | None => dotted b end.

(** [Integer.native]: two's complement. *)
Definition int_native (b : bytes) : Z :=
  match b with
  | [] => 0
  | x :: _ => if Z_of_byte x <? 128 then be_to_Z b else be_to_Z b - 2 ^ (8 * zlen b)
  end.
(** The names of versions, [_map = {0: "v0", 1: "v1", ...}]. *)
Definition version_native (first : Z) (b : bytes) : string :=
  let v := int_native b + first in
  if (0 <=? v) && (v <=? 5) then ("v" ++ decimal v)%string else decimal (Z.abs v).

(** Decimal digits of a string type. *)
Fixpoint digits (acc : Z) (b : bytes) : option Z :=
  match b with
  | [] => Some acc
  | x :: b' =>
      let n := Z_of_byte x - 48 in
      if (0 <=? n) && (n <=? 9) then digits (acc * 10 + n) b' else None
  end.

(** Days since 1601-01-01 of a date of the proleptic Gregorian calendar. *)
Definition days_from_civil (y m d : Z) : Z :=
  let y' := if m <=? 2 then y - 1 else y in
  let era := y' / 400 in
  let yoe := y' mod 400 in
  let mp := (m + 9) mod 12 in
  let doy := (153 * mp + 2) / 5 + d - 1 in
  let doe := yoe * 365 + yoe / 4 - yoe / 100 + doy in
  era * 146097 + doe - 584694.
Definition month_days (y m : Z) : Z :=
  if m =? 2 then (if (y mod 4 =? 0) && (negb (y mod 100 =? 0) || (y mod 400 =? 0)) then 29 else 28)
  else if (m =? 4) || (m =? 6) || (m =? 9) || (m =? 11) then 30 else 31.

(** [UTCTime.native] and [GeneralizedTime.native] of asn1crypto 1.x as microseconds since
    1601-01-01: the groups of their regular expressions, in order.  A GeneralizedTime
    without a zone is a naive datetime.  Simplified: the year 0 (an [extended_datetime]) is an
    error; a fraction that rounds to the year 10000 is a ValueError, not an OverflowError. *)
Definition number (n : Z) (b : bytes) : option (Z * bytes) :=
  if zlen b <? n then None
  else match digits 0 (ztake n b) with Some v => Some (v, zskip n b) | None => None end.
Definition optional_number (n : Z) (b : bytes) : option Z * bytes :=
  match number n b with Some (v, b') => (Some v, b') | None => (None, b) end.
(** The longest run of digits: its value and its length. *)
Fixpoint digit_run (acc : Z) (n : Z) (b : bytes) : Z * Z * bytes :=
  match b with
  | x :: b' =>
      let d := Z_of_byte x - 48 in
      if (0 <=? d) && (d <=? 9) then digit_run (acc * 10 + d) (n + 1) b' else (acc, n, b)
  | [] => (acc, n, b)
  end.
(** [[.,](\d+)]: microseconds per unit, scaled by the unit's length in seconds.  [Fraction.limit_denominator(1)]
    rounds to the nearest integer, and a half downwards. *)
Definition time_fraction (unit : Z) (b : bytes) : Z * bytes :=
  match b with
  | x :: b' =>
      if (Z_of_byte x =? 46) || (Z_of_byte x =? 44) then
        let '(v, n, rest) := digit_run 0 0 b' in
        if n =? 0 then (0, b) else ((2 * (v * 1000000 * unit) + 10 ^ n - 1) / (2 * 10 ^ n), rest)
      else (0, b)
  | [] => (0, b)
  end.
(** What [$] matches: the end of the string, and the end but for a newline. *)
Definition at_end (b : bytes) : bool :=
  match b with [] => true | [x] => Z_of_byte x =? 10 | _ => false end.
(** [Z], an offset in minutes, or (if [local]) nothing; then the end of the string. *)
Definition time_zone (local : bool) (b : bytes) : option Z :=
  if at_end b then (if local then Some 0 else None)
  else
    match b with
    | [] => None
    | x :: b' =>
        if (Z_of_byte x =? 90) then (if at_end b' then Some 0 else None)
        else if (Z_of_byte x =? 43) || (Z_of_byte x =? 45) then
          match number 2 b' with
          | Some (h, b2) =>
              let (m, b3) := optional_number 2 b2 in
              if at_end b3 && (local || match m with Some _ => true | None => false end) then
                let o := h * 60 + match m with Some v => v | None => 0 end in
                Some (if Z_of_byte x =? 43 then o else - o)
              else None
          | None => None
          end
        else None
    end.
Definition time_error {A} : res A := value_error "Incorrectly formatted string provided".
(** The microsecond after the last of a datetime (10000-01-01). *)
Definition end_of_time : Z := days_from_civil 10000 1 1 * 86400000000.
Definition civil (general : bool) (y : Z) (rest : bytes) : res datetime :=
  match number 2 rest with
  | Some (mo, b1) =>
      match number 2 b1 with
      | Some (d, b2) =>
          match number 2 b2 with
          | Some (h, b3) =>
              let (mi, b4) := optional_number 2 b3 in
              let (s, b5) := match mi with Some _ => optional_number 2 b4 | None => (None, b4) end in
              let (us, b6) :=
                if general then
                  time_fraction (match mi, s with None, _ => 3600 | _, None => 60 | _, _ => 1 end) b5
                else (0, b5) in
              match time_zone general b6 with
              | Some off =>
                  let mi' := match mi with Some v => v | None => 0 end in
                  let s' := match s with Some v => v | None => 0 end in
                  let local := ((days_from_civil y mo d * 24 + h) * 60 + mi') * 60000000 + s' * 1000000 + us in
                  if (general || match mi with Some _ => true | None => false end)
                     && (1 <=? y) && (1 <=? mo) && (mo <=? 12) && (1 <=? d) && (d <=? month_days y mo)
                     && (h <=? 23) && (mi' <=? 59) && (s' <=? 59) && (Z.abs off <? 1440)
                     && (local <? end_of_time)
                  then Ok ((if at_end b6 then Naive else Aware) (local - off * 60000000))
                  else time_error
              | None => time_error
              end
          | None => time_error
          end
      | None => time_error
      end
  | None => time_error
  end.
Definition time_native (name : string) (b : bytes) : res datetime :=
  if String.eqb name "utc_time" then
    match number 2 b with
    | Some (y, rest) => civil false (if y <? 50 then 2000 + y else 1900 + y) rest
    | None => time_error
    end
  else
    match number 4 b with
    | Some (y, rest) => civil true y rest
    | None => time_error
    end.

(** [bytes.decode] for the string types: UnicodeDecodeError is a ValueError. *)
Definition decode_error {A} : res A := value_error "codec can't decode".
Fixpoint latin1 (b : bytes) : ustr :=
  match b with [] => [] | x :: b' => Z.to_N (Z_of_byte x) :: latin1 b' end.
Fixpoint ascii_text (b : bytes) : res ustr :=
  match b with
  | [] => Ok []
  | x :: b' =>
      if 128 <=? Z_of_byte x then decode_error
      else let? l := ascii_text b' in Ok (Z.to_N (Z_of_byte x) :: l)
  end.
(** [n] continuation octets of UTF-8 are still expected for a code point of at least [low]. *)
Fixpoint utf8 (n : nat) (acc low : Z) (b : bytes) : res ustr :=
  match b with
  | [] => match n with O => Ok [] | _ => decode_error end
  | x :: b' =>
      let c := Z_of_byte x in
      match n with
      | S n' =>
          if (128 <=? c) && (c <? 192) then
            let acc' := acc * 64 + (c - 128) in
            match n' with
            | O => if (acc' <? low) || ((55296 <=? acc') && (acc' <? 57344)) || (1114111 <? acc')
                   then decode_error
                   else let? l := utf8 O 0 0 b' in Ok (Z.to_N acc' :: l)
            | _ => utf8 n' acc' low b'
            end
          else decode_error
      | O =>
          if c <? 128 then let? l := utf8 O 0 0 b' in Ok (Z.to_N c :: l)
          else if (192 <=? c) && (c <? 224) then utf8 1 (c - 192) 128 b'
          else if (224 <=? c) && (c <? 240) then utf8 2 (c - 224) 2048 b'
          else if (240 <=? c) && (c <? 248) then utf8 3 (c - 240) 65536 b'
          else decode_error
      end
  end.
(** UTF-16, big endian; [hi] is a pending high surrogate. *)
Fixpoint utf16 (hi : option Z) (b : bytes) : res ustr :=
  match b with
  | [] => match hi with None => Ok [] | Some _ => decode_error end
  | [_] => decode_error
  | x :: y :: b' =>
      let c := Z_of_byte x * 256 + Z_of_byte y in
      match hi with
      | Some h =>
          if (56320 <=? c) && (c <? 57344)
          then let? l := utf16 None b' in Ok (Z.to_N (65536 + (h - 55296) * 1024 + (c - 56320)) :: l)
          else decode_error
      | None =>
          if (55296 <=? c) && (c <? 56320) then utf16 (Some c) b'
          else if (56320 <=? c) && (c <? 57344) then decode_error
          else let? l := utf16 None b' in Ok (Z.to_N c :: l)
      end
  end.
Fixpoint utf32 (b : bytes) : res ustr :=
  match b with
  | [] => Ok []
  | x :: y :: z :: w :: b' =>
      let c := be_to_Z [x; y; z; w] in
      if (1114111 <? c) || ((55296 <=? c) && (c <? 57344)) then decode_error
      else let? l := utf32 b' in Ok (Z.to_N c :: l)
  | _ => decode_error
  end.
(** The text of a value of a string type, by its universal tag.  Simplified: T61 strings are
    read as Latin-1. *)
Definition text (tag : Z) (b : bytes) : res ustr :=
  if tag =? 12 then utf8 O 0 0 b
  else if (tag =? 19) || (tag =? 20) then Ok (latin1 b)
  else if tag =? 22 then ascii_text b
  else if tag =? 28 then utf32 b
  else if tag =? 30 then utf16 None b
  else value_error "Error parsing choice".

(** Whether [.native] of a value of any type is true, hashing.py:23. *)
Definition truthy (t : tlv) : bool :=
  if negb (t_class t =? 0) then true
  else if t_tag t =? 5 then false
  else if (t_tag t =? 1) || (t_tag t =? 2) then negb (be_to_Z (t_contents t) =? 0)
  else negb (zlen (t_contents t) =? 0).

(** ** Structures *)

(** The fields of a Sequence and its values. *)
Definition seq_fields (a : asn) : list (string * (asn * (tagging * presence))) :=
  match a with ASeq f => f | _ => [] end.
Definition children (a : asn) (contents : bytes) : res (dict (option tlv)) :=
  let? l := parse_all contents in match_fields (seq_fields a) l.
(** The declaration of a field, and reading it: None if it is absent. *)
Definition read_field {A} (a : asn) (kids : res (dict (option tlv))) (n : string)
  (k : asn -> tagging -> tlv -> res A) : res (option A) :=
  let? d := kids in
  match dict_get n d, dict_get n (seq_fields a) with
  | Some (Some t), Some (x, (tg, _)) => let? v := k x tg t in Ok (Some v)
  | _, _ => Ok None
  end.
(** A field that cannot be absent. *)
Definition read {A} (a : asn) (kids : res (dict (option tlv))) (n : string)
  (k : asn -> tagging -> tlv -> res A) : res A :=
  let? o := read_field a kids n k in
  match o with Some v => Ok v | None => value_error "Field is missing from structure" end.

(** The contents of a value of a Sequence, SequenceOf, SetOf or primitive type. *)
Definition contents_of (a : asn) (tg : tagging) (t : tlv) : res bytes :=
  match a with
  | APrim tag => let? u := expect tg false tag t in Ok (t_contents u)
  | ASeq _ | ASeqOf _ => let? u := expect tg true 16 t in Ok (t_contents u)
  | ASetOf _ => let? u := expect tg true 17 t in Ok (t_contents u)
  | AChoice _ | AAny => let? u := unwrap tg t in Ok (t_contents u)
  end.
(** The values of a SequenceOf or SetOf. *)
Definition items_of (a : asn) (tg : tagging) (t : tlv) : res (list tlv) :=
  let? b := contents_of a tg t in parse_all b.
(** The chosen alternative of a Choice. *)
Definition choice_of {A} (a : asn) (tg : tagging) (t : tlv)
  (k : string -> asn -> tagging -> tlv -> res A) : res A :=
  match a with
  | AChoice alts => let? u := unwrap tg t in find_alt u alts (fun n x y => k n x y u)
  | _ => value_error "not a choice"
  end.

Definition read_oid (names : dict string) (a : asn) (tg : tagging) (t : tlv) : res string :=
  let? b := contents_of a tg t in Ok (oid_native names b).
Definition read_int (a : asn) (tg : tagging) (t : tlv) : res Z :=
  let? b := contents_of a tg t in Ok (int_native b).
Definition read_time (a : asn) (tg : tagging) (t : tlv) : res datetime :=
  choice_of a tg t (fun n x y u => let? b := contents_of x y u in time_native n b).

(** A distinguished name.  An RDN without attributes is reported when it is decoded (see
    [rdn] in ModelX509.v). *)
Definition read_value (oid : string) (t : tlv) : res nval :=
  if String.eqb oid "2.5.4.45" then
    (let? u := expect Untagged false 3 t in Ok (VBytes (zskip 1 (t_contents u))))
  else if negb ((t_class t =? 0) && negb (t_cons t)) then value_error "Error parsing choice"
  else let? s := text (t_tag t) (t_contents t) in Ok (VStr s).
Definition read_ava (t : tlv) : res ava :=
  let? b := contents_of NameTypeAndValue Untagged t in
  let kids := children NameTypeAndValue b in
  let? oid := read NameTypeAndValue kids "type" (fun a tg t => let? b := contents_of a tg t in Ok (dotted b)) in
  let? v := read NameTypeAndValue kids "value" (fun _ _ t => read_value oid t) in
  Ok (mkAva oid v).
Definition read_rdn (t : tlv) : res rdn :=
  let? l := items_of (ASetOf NameTypeAndValue) Untagged t in
  let? avas := map_res read_ava l in
  match avas with
  | [] => value_error "empty RelativeDistinguishedName"
  | a :: rest => Ok (mkRdn a rest)
  end.
Definition read_name (a : asn) (tg : tagging) (t : tlv) : res name :=
  let? l := items_of a tg t in map_res read_rdn l.

(** hashing.py:20-23. *)
Definition read_algid (names : dict string) (a : asn) (tg : tagging) (t : tlv) : lz_algid :=
  let kids := (let? b := contents_of a tg t in children AlgorithmIdentifier b) in
  mkLzAlgid (read AlgorithmIdentifier kids "algorithm" (read_oid names))
            (let? p := read_field AlgorithmIdentifier kids "parameters" (fun _ _ t => Ok (truthy t)) in
             Ok (match p with Some v => v | None => false end)).
Definition algid_ok (names : dict string) (a : asn) (tg : tagging) (t : tlv) : res lz_algid :=
  Ok (read_algid names a tg t).

(** An identity for a decoded object: a checksum of the encoding. *)
Definition identity (b : bytes) : Z :=
  fold_left (fun a x => (a * 257 + Z_of_byte x) mod 2305843009213693951) b 1.

(** [.native] of the values of the extensions of spc.py:302-330 that are decoded: whether it
    can be read.  A value of another shape cannot be decoded and is reported by a ValueError.
    A SpcString is a BMPString or an IA5String, spc.py:94-97. *)
Definition text_native (v : aval) : res ustr :=
  match v with
  | VChoice n (VPrim b) =>
      if String.eqb n "unicode" then utf16 None b
      else if String.eqb n "ascii" then ascii_text b
      else value_error "Error parsing choice"
  | _ => value_error "Error parsing choice"
  end.
(** A SpcLink, spc.py:113-117. *)
Definition link_native (v : aval) : res unit :=
  match v with
  | VChoice n x =>
      if String.eqb n "url" then
        match x with VPrim b => let? _ := ascii_text b in Ok tt | _ => value_error "Error parsing choice" end
      else if String.eqb n "moniker" then
        match x with
        | VSeq [Some (VPrim _); Some (VPrim _)] => Ok tt
        | _ => value_error "Error parsing choice"
        end
      else if String.eqb n "file" then let? _ := text_native x in Ok tt
      else value_error "Error parsing choice"
  | _ => value_error "Error parsing choice"
  end.
(** A SpcImage, spc.py:127-133; the octets of the pictures can always be read. *)
Definition image_native (v : aval) : res unit :=
  match v with
  | VSeq (Some link :: _) => link_native link
  | VSeq (None :: _) => Ok tt
  | _ => value_error "Error parsing picture"
  end.
(** A field that may be absent. *)
Definition maybe_native {A} (f : aval -> res A) (o : option aval) : res unit :=
  match o with Some v => let? _ := f v in Ok tt | None => Ok tt end.
(** SpcSpAgencyInformation, spc.py:302-316. *)
Definition agency_native (b : bytes) : res unit :=
  let? v := load SpcSpAgencyInformation b in
  match v with
  | VSeq [Some info; text; image; link] =>
      let? _ := link_native info in
      let? _ := maybe_native text_native text in
      let? _ := maybe_native image_native image in
      maybe_native link_native link
  | _ => value_error "Error parsing agency information"
  end.
(** SpcFinancialCriteria, spc.py:319-325. *)
Definition financial_native (b : bytes) : res unit :=
  let? _ := load SpcFinancialCriteria b in Ok tt.

(** [tbs_certificate["extensions"]], certificates.py:127-132; [.native] (line 127) reads
    [critical] as well, and the values of the extensions that have a type: those of spc.py:327-330
    are read, and ExtKeyUsageSyntax.  Simplified: the values of the other types that asn1crypto
    knows are not decoded; here they can always be read. *)
Definition read_extension (t : tlv) : res (string * lz_extension) :=
  let? b := contents_of Extension Untagged t in
  let kids := children Extension b in
  let? id := read Extension kids "extn_id" (read_oid extension_types) in
  let? _ := read_field Extension kids "critical" contents_of in
  let? v := read Extension kids "extn_value" contents_of in
  if String.eqb id "extended_key_usage" then
    let? (u, _) := parse_tlv v in
    let? l := items_of ExtKeyUsageSyntax Untagged u in
    let? names := map_res (read_oid key_purposes aObjectIdentifier Untagged) l in
    Ok (id, XUsages names)
  else if String.eqb id "microsoft_spc_sp_agency_info" then let? _ := agency_native v in Ok (id, XOther)
  else if String.eqb id "microsoft_spc_financial_criteria" then let? _ := financial_native v in Ok (id, XOther)
  else Ok (id, XOther).
(** The text of a [str] as far as it is Latin-1 (only whether it can be read matters). *)
Definition as_string (u : ustr) : string :=
  string_of_list_ascii (map ascii_of_N u).
(** The parameters of the key, certificates.py:115-117.  Simplified: the dict of the parameters
    of other types is represented by their encoding. *)
Definition read_parameters (t : tlv) : res pkparams :=
  if (t_class t =? 0) && (t_tag t =? 5) then Ok PNone
  else if (t_class t =? 0) && (t_tag t =? 6) then Ok (PStr (dotted (t_contents t)))
  else Ok (PDict (as_string (latin1 (tlv_dump t)))).

(** certificates.py:93-132. *)
Definition read_certificate (t : tlv) : lz_cert :=
  let kids := (let? b := contents_of Certificate Untagged t in children Certificate b) in
  let tbs := (let? b := read Certificate kids "tbs_certificate" contents_of in children TbsCertificate b) in
  let validity := (let? b := read TbsCertificate tbs "validity" contents_of in children Validity b) in
  let key := (let? b := read TbsCertificate tbs "subject_public_key_info" contents_of in
              children PublicKeyInfo b) in
  let key_alg := (let? b := read PublicKeyInfo key "algorithm" contents_of in
                  children AlgorithmIdentifier b) in
  mkLzCert (identity (tlv_dump t)) (tlv_dump t)
    (read Certificate kids "signature_algorithm" (fun a tg t => la_name (read_algid signature_algorithms a tg t)))
    (read Certificate kids "signature_value" contents_of)
    (let? _ := read Certificate kids "tbs_certificate" contents_of in Ok tt)
    (let? v := read_field TbsCertificate tbs "version" contents_of in
     Ok (match v with Some b => version_native 1 b | None => "v1" end))
    (read TbsCertificate tbs "serial_number" read_int)
    (read TbsCertificate tbs "issuer" read_name)
    (read Validity validity "not_before" read_time)
    (read Validity validity "not_after" read_time)
    (read TbsCertificate tbs "subject" read_name)
    (read AlgorithmIdentifier key_alg "algorithm" (read_oid key_algorithms))
    (let? p := read_field AlgorithmIdentifier key_alg "parameters" (fun _ _ t => read_parameters t) in
     Ok (match p with Some v => v | None => PNone end))
    (read PublicKeyInfo key "public_key" (fun a tg t => let? _ := contents_of a tg t in Ok (tlv_dump t)))
    (read_field TbsCertificate tbs "extensions" (fun a tg t => let? l := items_of a tg t in map_res read_extension l)).

(** signeddata.py:133-140. *)
Definition read_choice (t : tlv) : res lz_choice :=
  choice_of CertificateChoices Untagged t
    (fun n _ _ u => if String.eqb n "certificate" then Ok (LzCertificate (read_certificate u))
                    else Ok (LzOtherChoice n)).

(** A SpcString as text: BMPString or IA5String, spc.py:94-97. *)
Definition read_spc_string (a : asn) (tg : tagging) (t : tlv) : res ustr :=
  choice_of a tg t
    (fun n x y u => let? b := contents_of x y u in
                    if String.eqb n "unicode" then utf16 None b else ascii_text b).
(** [.native] of a SpcLink, spc.py:113-117; of a moniker the serialized data. *)
Definition read_spc_link (a : asn) (tg : tagging) (t : tlv) : res ustr :=
  choice_of a tg t
    (fun n x y u =>
       if String.eqb n "url" then let? b := contents_of x y u in ascii_text b
       else if String.eqb n "moniker" then
         let? b := contents_of x y u in
         let kids := children SpcSerializedObject b in
         let? _ := read SpcSerializedObject kids "class_id" contents_of in
         let? d := read SpcSerializedObject kids "serialized_data" contents_of in
         Ok (latin1 d)
       else read_spc_string x y u).
(** The bits of a BitString, the first one first; the first octet is the number of unused
    bits.  Simplified: a BitString without contents is reported by a ValueError. *)
Definition octet_bits (x : byte) : list bool := map (Z.testbit (Z_of_byte x)) [7; 6; 5; 4; 3; 2; 1; 0].
Definition bit_string (b : bytes) : res (list bool) :=
  match b with
  | [] => value_error "BitString with no contents"
  | n :: l =>
      let unused := Z_of_byte n in
      if (0 <? unused) && (zlen l =? 0) then value_error "Empty bit string has unused bits"
      else if 7 <? unused then value_error "Bit string has more than 7 unused bits"
      else Ok (ztake (8 * zlen l - unused) (flat_map octet_bits l))
  end.
(** [["flags"].native], spc.py:150-154, without the bits that have no name (see ModelShown.v). *)
Definition read_flags (a : asn) (tg : tagging) (t : tlv) : res (list string) :=
  let? b := contents_of a tg t in
  let? bits := bit_string b in
  Ok (map fst (filter snd (combine pe_image_flags bits))).
(** SpcPeImageData, structures.py:365-367. *)
Definition read_image (t : tlv) : lz_image :=
  let kids := (let? b := contents_of SpcPeImageData Untagged t in children SpcPeImageData b) in
  mkLzImage
    (let? o := read_field SpcPeImageData kids "flags" read_flags in
     Ok (match o with Some l => l | None => ["include_resources"] end))
    (let? o := read_field SpcPeImageData kids "file" read_spc_link in
     Ok (match o with Some u => as_string u | None => "" end)).

(** SpcIndirectDataContent of its contents, structures.py:358-373. *)
Definition read_spc (contents : bytes) : lz_spc :=
  let kids := children SpcIndirectDataContent contents in
  let data := (let? b := read SpcIndirectDataContent kids "data" contents_of in
               children SpcAttributeTypeAndOptionalValue b) in
  let digest := (let? b := read SpcIndirectDataContent kids "message_digest" contents_of in
                 children DigestInfo b) in
  mkLzSpc (read SpcAttributeTypeAndOptionalValue data "type" (read_oid spc_attribute_types))
          (read_field SpcAttributeTypeAndOptionalValue data "value" (fun _ _ t => Ok (read_image t)))
          (read DigestInfo digest "digest_algorithm" (algid_ok digest_algorithms))
          (read DigestInfo digest "digest" contents_of).

(** Accuracy, helpers.py:8-19. *)
Definition read_accuracy (a : asn) (tg : tagging) (t : tlv) : res lz_accuracy :=
  let? b := contents_of a tg t in
  let kids := children Accuracy b in
  Ok (mkLzAccuracy (read_field Accuracy kids "seconds" read_int) (read_field Accuracy kids "millis" read_int)
                   (read_field Accuracy kids "micros" read_int)).
(** TSTInfo of its contents, structures.py:665-680. *)
Definition read_tst (contents : bytes) : lz_tst :=
  let kids := children TSTInfo contents in
  let imprint := (let? b := read TSTInfo kids "message_imprint" contents_of in children MessageImprint b) in
  mkLzTst (read TSTInfo kids "version" (fun a tg t => let? b := contents_of a tg t in Ok (version_native 0 b)))
          (read TSTInfo kids "policy" (read_oid []))
          (read MessageImprint imprint "hash_algorithm" (algid_ok digest_algorithms))
          (read MessageImprint imprint "hashed_message" contents_of)
          (read TSTInfo kids "serial_number" read_int)
          (read TSTInfo kids "gen_time" (fun a tg t => let? b := contents_of a tg t in time_native "general_time" b))
          (read_field TSTInfo kids "accuracy" read_accuracy)
          (let? o := read_field TSTInfo kids "tsa"
                       (fun a tg t => choice_of a tg t
                          (fun n x y u => if String.eqb n "directory_name" then Ok (LzTsaDirectory (read_name x y u))
                                          else Ok (LzTsaOther n))) in
           Ok (match o with Some v => v | None => LzTsaAbsent end)).

(** [encap_content_info] of a SignedData, signeddata.py:117-131: with version v1 the content
    is a value of the type, otherwise an OCTET STRING that contains it. *)
Definition read_content (version : string) (contents : bytes) : res lz_content :=
  if String.eqb version "v1" then
    let kids := children ContentInfo contents in
    let? typ := read ContentInfo kids "content_type" (read_oid content_types) in
    let? o := read_field ContentInfo kids "content" (fun _ tg t => unwrap tg t) in
    match o with
    | None => Ok (mkLzContent [] (Ok LVNone))
    | Some u =>
        if String.eqb typ "microsoft_spc_indirect_data_content" then
          let? b := contents_of SpcIndirectDataContent Untagged u in
          Ok (mkLzContent b (Ok (LVSpc (read_spc b))))
        else Ok (mkLzContent (t_contents u) (Ok LVNone))
    end
  else
    let kids := children EncapsulatedContentInfo contents in
    let? typ := read EncapsulatedContentInfo kids "content_type" (read_oid content_types) in
    let? o := read_field EncapsulatedContentInfo kids "content" contents_of in
    match o with
    | None => Ok (mkLzContent [] (Ok LVNone))
    | Some b =>
        Ok (mkLzContent b
              (let? (u, _) := parse_tlv b in
               if String.eqb typ "microsoft_spc_indirect_data_content" then
                 let? c := contents_of SpcIndirectDataContent Untagged u in Ok (LVSpc (read_spc c))
               else if String.eqb typ "tst_info" then
                 let? c := contents_of TSTInfo Untagged u in Ok (LVTst (read_tst c))
               else Ok LVNone))
    end.

(** SpcSpOpusInfo, structures.py:225-233. *)
Definition read_opus (t : tlv) : res lz_opus :=
  let? b := contents_of SpcSpOpusInfo Untagged t in
  let kids := children SpcSpOpusInfo b in
  let as_str (o : res (option ustr)) := (let? u := o in Ok (option_map as_string u)) in
  Ok (mkLzOpus (as_str (read_field SpcSpOpusInfo kids "program_name" read_spc_string))
               (as_str (read_field SpcSpOpusInfo kids "more_info" read_spc_link))
               (as_str (read_field SpcSpOpusInfo kids "publisher_info" read_spc_link))).

(** A value of a simple type in a SET OF: the tag is checked when the list is built, the value
    decoded when it is read (signerinfo.py:249 and 171-205). *)
Definition simple_item {A} (tag : Z) (f : bytes -> res A) (t : tlv) : res (res A) :=
  let? u := expect Untagged false tag t in Ok (f (t_contents u)).

(** Attributes, signer infos, content infos and signed data.  [fuel] bounds the nesting; it is
    never exhausted because the contents of a value are shorter than the value. *)
Definition too_deep {A} : res A := value_error "nesting".

Fixpoint read_attr (fuel : nat) (t : tlv) : res lz_attr :=
  match fuel with
  | O => too_deep
  | S f =>
      let? b := contents_of CMSAttribute Untagged t in
      let kids := children CMSAttribute b in
      let? typ := read CMSAttribute kids "type" (read_oid attribute_types) in
      let vals {A} (k : tlv -> res A) : res (list A) :=
        (let? l := read CMSAttribute kids "values" items_of in map_res k l) in
      Ok (if String.eqb typ "content_type" then
            LContentType (vals (simple_item 6 (fun b => Ok (oid_native content_types b))))
          else if String.eqb typ "message_digest" then LMessageDigest (vals (simple_item 4 (fun b => Ok b)))
          else if String.eqb typ "signing_time" then
            LSigningTime (vals (fun t => choice_of Time Untagged t
                                  (fun n x y u => let? b := contents_of x y u in Ok (time_native n b))))
          else if String.eqb typ "counter_signature" then
            LCounterSignature (vals (fun t => let? b := contents_of SignerInfo Untagged t in Ok (read_si f b)))
          else if String.eqb typ "microsoft_spc_statement_type" then
            LStatementType (vals (fun t => let? b := contents_of SpcStatementType Untagged t in
                                           Ok (let? l := parse_all b in
                                               map_res (read_oid spc_statement_types aObjectIdentifier Untagged) l)))
          else if String.eqb typ "microsoft_spc_sp_opus_info" then LOpusInfo (vals read_opus)
          else if String.eqb typ "microsoft_nested_signature" then
            LNestedSignature (vals (fun t => let? b := contents_of ContentInfo Untagged t in Ok (read_ci f b)))
          else if String.eqb typ "microsoft_time_stamp_token" then
            LTimeStampToken (vals (fun t => let? b := contents_of ContentInfo Untagged t in Ok (read_ci f b)))
          else LOther typ (let? l := vals (fun t => Ok t) in Ok (length l)))
  end
with read_si (fuel : nat) (contents : bytes) : lz_si :=
  match fuel with
  | O => LzSI too_deep too_deep too_deep [] too_deep too_deep too_deep
  | S f =>
      let kids := children SignerInfo contents in
      let attrs (n : string) : res (list (res lz_attr)) :=
        (let? o := read_field SignerInfo kids n items_of in
         match o with None => Ok [] | Some l => Ok (map (read_attr f) l) end) in
      LzSI
        (read SignerInfo kids "sid"
           (fun a tg t => choice_of a tg t
              (fun n x y u =>
                 if String.eqb n "issuer_and_serial_number" then
                   let is := (let? b := contents_of x y u in children IssuerAndSerialNumber b) in
                   Ok (LzIssuerSerial (read IssuerAndSerialNumber is "issuer" read_name)
                                      (read IssuerAndSerialNumber is "serial_number" read_int))
                 else Ok LzKeyIdentifier)))
        (read SignerInfo kids "digest_algorithm" (algid_ok digest_algorithms))
        (attrs "signed_attrs")
        (match read_field SignerInfo kids "signed_attrs" contents_of with Ok (Some b) => b | _ => [] end)
        (read SignerInfo kids "signature_algorithm" (fun a tg t => la_name (read_algid signature_algorithms a tg t)))
        (read SignerInfo kids "signature" contents_of)
        (attrs "unsigned_attrs")
  end
with read_ci (fuel : nat) (contents : bytes) : lz_ci :=
  match fuel with
  | O => LzCI too_deep too_deep
  | S f =>
      let kids := children ContentInfo contents in
      let typ := read ContentInfo kids "content_type" (read_oid content_types) in
      LzCI typ
        (let? name := typ in
         let? o := read_field ContentInfo kids "content" (fun _ tg t => unwrap tg t) in
         match o with
         | None => Ok (LzOther false)
         | Some u =>
             if String.eqb name "signed_data" then
               let? b := contents_of SignedData Untagged u in Ok (LzSigned (read_sd f b))
             else Ok (LzOther (negb (String.eqb name "data")))
         end)
  end
with read_sd (fuel : nat) (contents : bytes) : lz_sd :=
  match fuel with
  | O => LzSD too_deep too_deep too_deep too_deep too_deep too_deep
  | S f =>
      let kids := children SignedData contents in
      let version := read SignedData kids "version"
                       (fun a tg t => let? b := contents_of a tg t in Ok (version_native 0 b)) in
      let encap := read SignedData kids "encap_content_info" contents_of in
      LzSD
        (let? _ := version in
         let? l := read SignedData kids "digest_algorithms" items_of in
         Ok (map (read_algid digest_algorithms AlgorithmIdentifier Untagged) l))
        (let? b := encap in
         read ContentInfo (children ContentInfo b) "content_type" (read_oid content_types))
        (let? v := version in let? b := encap in read_content v b)
        (let? o := read_field SignedData kids "certificates" items_of in
         match o with None => Ok [] | Some l => Ok (map read_choice l) end)
        (let? o := read_field SignedData kids "crls" items_of in
         Ok (match o with None => O | Some l => length l end))
        (let? l := read SignedData kids "signer_infos" items_of in
         map_res (fun t => let? b := contents_of SignerInfo Untagged t in Ok (read_si f b)) l)
  end.

(** asn1crypto's [ContentInfo.load], signeddata.py:93: what follows the value is ignored. *)
Definition der_loader : lz_loader :=
  fun b =>
    let? (t, _) := parse_tlv b in
    let? c := contents_of ContentInfo Untagged t in
    Ok (read_ci (length b) c).

(** [Certificate.from_der], certificates.py:162-164: asn1crypto.x509.Certificate.load. *)
Definition cert_from_der (b : bytes) : res cert :=
  let? (t, _) := parse_tlv b in
  let? _ := contents_of Certificate Untagged t in
  lz_certificate (read_certificate t).
