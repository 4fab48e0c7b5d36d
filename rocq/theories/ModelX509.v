(** Model of signify/x509/certificates.py, signify/asn1/hashing.py, signify/asn1/helpers.py
    and of the FILETIME type of signify/asn1/ctl.py.  No proofs in this file. *)
From Verif Require Import Base.

(** ** Distinguished names *)

(** Python [str]: a sequence of code points. *)
Definition ustr := list N.

(** Equality of [str] ([==]). *)
Definition ustr_eqb (a b : ustr) : bool :=
  if list_eq_dec N.eq_dec a b then true else false.

(** The [str] with the characters of a (latin) literal. *)
Definition ustr_of (s : string) : ustr := map N_of_ascii (list_ascii_of_string s).

(** [type_value["value"].native], certificates.py:338: a [str] for the string types, and
    [bytes] for attributes that asn1crypto maps to a bit or octet string (such as
    x500UniqueIdentifier).  Simplified: other natives (lists, dicts) are not modelled. *)
Inductive nval : Type :=
| VStr (u : ustr)
| VBytes (b : bytes).

Definition nval_eqb (a b : nval) : bool :=
  match a, b with
  | VStr u, VStr v => ustr_eqb u v
  | VBytes u, VBytes v => bytes_eqb u v
  | _, _ => false
  end.

(** An asn1crypto NameTypeAndValue: [["type"].dotted] and [["value"].native]
    (certificates.py:333-338). *)
Record ava := mkAva { a_oid : string; a_val : nval }.

(** An RDN is a SET OF NameTypeAndValue.  Simplified: it is never empty (an empty SET makes
    [n[0]] at certificates.py:332 raise IndexError). *)
Record rdn := mkRdn { r_first : ava; r_rest : list ava }.

(** [self.data.chosen] of a CertificateName, certificates.py:273-280 and 331. *)
Definition name := list rdn.

(** OID_TO_RDN, certificates.py:261-271. *)
Definition oid_to_rdn : dict string :=
  [("2.5.4.3", "CN"); ("2.5.4.6", "C"); ("2.5.4.7", "L"); ("2.5.4.8", "ST");
   ("2.5.4.9", "STREET"); ("2.5.4.10", "O"); ("2.5.4.11", "OU");
   ("0.9.2342.19200300.100.1.25", "DC"); ("1.2.840.113549.1.9.1", "EMAIL")].

(** [self.OID_TO_RDN.get(dotted, dotted)], certificates.py:334-336. *)
Definition rdn_type (oid : string) : string :=
  match dict_get oid oid_to_rdn with Some s => s | None => oid end.

(** [get_components()] without argument, certificates.py:331-349: reversed, and only the
    first attribute of each RDN. *)
Definition get_components (n : name) : list (string * nval) :=
  map (fun r => (rdn_type (a_oid (r_first r)), a_val (r_first r))) (rev n).

(** [get_components(component_type)], certificates.py:340-346.  [oid_native] is asn1crypto's
    [["type"].native]. *)
Definition get_components_of (oid_native : string -> string) (t : string) (n : name)
  : list nval :=
  map (fun r => a_val (r_first r))
      (filter (fun r => str_mem t [a_oid (r_first r); oid_native (a_oid (r_first r));
                                   rdn_type (a_oid (r_first r))])
              (rev n)).

(** [rdns], certificates.py:311-314. *)
Definition rdns (n : name) : list (string * nval) := get_components n.

Definition comp_eqb (a b : string * nval) : bool :=
  String.eqb (fst a) (fst b) && nval_eqb (snd a) (snd b).

(** [==] on lists (and tuples): same length and element-wise equal. *)
Fixpoint list_eqb {A} (eqb : A -> A -> bool) (a b : list A) : bool :=
  match a, b with
  | [], [] => true
  | x :: a', y :: b' => eqb x y && list_eqb eqb a' b'
  | _, _ => false
  end.

(** [CertificateName.__eq__], certificates.py:282-283. *)
Definition name_eqb (a b : name) : bool := list_eqb comp_eqb (rdns a) (rdns b).

(** The characters escaped by the [re.sub] of certificates.py:303: comma, plus, double
    quote, less-than, greater-than, semicolon and backslash. *)
Definition dn_special : list N := [44; 43; 34; 60; 62; 59; 92]%N.
Definition dn_escape (v : ustr) : ustr :=
  flat_map (fun c => if existsb (N.eqb c) dn_special then [92%N; c] else [c]) v.

(** certificates.py:303-307. *)
Definition dn_value (v : ustr) : ustr :=
  let v1 := dn_escape v in
  let v2 := match v1 with
            | c :: _ => if N.eqb c 35 then 92%N :: v1 else v1
            | [] => v1
            end in
  match rev v2 with
  | c :: r => if N.eqb c 32 then rev r ++ [92; 32]%N else v2
  | [] => v2
  end.

(** [", ".join(...)], certificates.py:309. *)
Fixpoint ujoin (sep : ustr) (l : list ustr) : ustr :=
  match l with
  | [] => []
  | [x] => x
  | x :: l' => x ++ sep ++ ujoin sep l'
  end.

(** The loop of certificates.py:296-308.  A value that is not a [str] makes [re.sub] raise
    TypeError. *)
Fixpoint dn_items (l : list (string * nval)) : res (list ustr) :=
  match l with
  | [] => Ok []
  | (t, VStr v) :: l' =>
      let? items := dn_items l' in
      Ok ((ustr_of t ++ [61%N] ++ dn_value v) :: items)
  | (_, VBytes _) :: _ => raise TypeError "cannot use a string pattern on a bytes-like object"
  end.

(** [CertificateName.dn], certificates.py:291-309. *)
Definition dn (n : name) : res ustr :=
  let? items := dn_items (get_components n) in
  Ok (ujoin [44; 32]%N items).

(** ** Certificates *)

(** [subject_public_algorithm.parameters], certificates.py:115-117: None, a hashable native
    (a curve name) or an unhashable one (an OrderedDict of parameters). *)
Inductive pkparams : Type :=
| PNone
| PStr (s : string)
| PDict (s : string).

Definition pkparams_eqb (a b : pkparams) : bool :=
  match a, b with
  | PNone, PNone => true
  | PStr s, PStr t => String.eqb s t
  | PDict s, PDict t => String.eqb s t
  | _, _ => false
  end.

(** subjectPublicKeyInfo: algorithm name, parameters, key bits (certificates.py:111-121).
    It is what [self.data.public_key] (certificates.py:215) denotes. *)
Record spki := mkSpki { k_alg : string; k_params : pkparams; k_bits : bytes }.

(** A Python datetime, in microseconds since 1601-01-01: timezone aware (the point in time it
    stands for, that is in UTC) or naive (its fields, taken as they are).
    Such are the times of certificates.py:111-112, context.py:219 and signerinfo.py:212. *)
Inductive datetime : Type :=
| Aware (us : Z)
| Naive (us : Z).
Coercion Aware : Z >-> datetime.

(** [a >= b] for datetimes of which [b] is aware: comparing with a naive one raises
    (authroot.py:336, 367). *)
Definition not_earlier (a : datetime) (b : Z) : res bool :=
  match a with
  | Aware us => Ok (b <=? us)
  | Naive _ => raise TypeError "can't compare offset-naive and offset-aware datetimes"
  end.

(** Certificate, certificates.py:91-132.  [c_id] is the identity (dict key) of the underlying
    asn1crypto object [self.data] (used at context.py:327-339), [c_der] its encoding.
    Of [extensions] only extended_key_usage is kept
    (read at structures.py:288); version, signature algorithm and signature value are not
    read by any modelled code. *)
Record cert := mkCert {
  c_id : Z;
  c_der : bytes;
  c_issuer : name;
  c_serial : Z;
  c_subject : name;
  c_key : spki;
  c_valid_from : datetime;
  c_valid_to : datetime;
  c_eku : option (list string)
}.

Definition spki_eqb (a b : spki) : bool :=
  String.eqb (k_alg a) (k_alg b) && pkparams_eqb (k_params a) (k_params b)
  && bytes_eqb (k_bits a) (k_bits b).

(** [Certificate.__eq__], certificates.py:151-159. *)
Definition cert_eqb (a b : cert) : bool :=
  name_eqb (c_issuer a) (c_issuer b)
  && Z.eqb (c_serial a) (c_serial b)
  && name_eqb (c_subject a) (c_subject b)
  && (String.eqb (k_alg (c_key a)) (k_alg (c_key b))
      && pkparams_eqb (k_params (c_key a)) (k_params (c_key b)))
  && bytes_eqb (k_bits (c_key a)) (k_bits (c_key b)).

(** [certificate in l] for a list of certificates. *)
Definition cert_mem (c : cert) (l : list cert) : bool := existsb (cert_eqb c) l.

(** Python values as they are passed to [hash], certificates.py:140-149 and 285-286. *)
Inductive hashable : Type :=
| HStr (s : string)
| HInt (z : Z)
| HBytes (b : bytes)
| HUni (u : ustr)
| HNone
| HTuple (l : list hashable)
| HObj (h : Z)              (* an object whose __hash__ returned h *)
| HUnhashable.

Definition hash_nval (v : nval) : hashable :=
  match v with VStr u => HUni u | VBytes b => HBytes b end.

(** [pyhash] is Python's hash of a builtin value: any function (it depends on the hash seed),
    failing with TypeError on unhashable parts. *)
Fixpoint contains_unhashable (h : hashable) : bool :=
  match h with
  | HUnhashable => true
  | HTuple l => existsb contains_unhashable l
  | _ => false
  end.

Definition hash_call (pyhash : hashable -> Z) (h : hashable) : res Z :=
  if contains_unhashable h then raise TypeError "unhashable type" else Ok (pyhash h).

(** [CertificateName.__hash__], certificates.py:285-286. *)
Definition name_hash (pyhash : hashable -> Z) (n : name) : res Z :=
  hash_call pyhash
    (HTuple (map (fun tv => HTuple [HStr (fst tv); hash_nval (snd tv)]) (rdns n))).

(** [Certificate.__hash__], certificates.py:140-149.  The hash of a tuple calls the hash of
    its members. *)
Definition cert_hash (pyhash : hashable -> Z) (c : cert) : res Z :=
  let? hi := name_hash pyhash (c_issuer c) in
  let? hs := name_hash pyhash (c_subject c) in
  hash_call pyhash
    (HTuple [HObj hi; HInt (c_serial c); HObj hs;
             HTuple [HStr (k_alg (c_key c));
                     match k_params (c_key c) with
                     | PNone => HNone | PStr s => HStr s | PDict _ => HUnhashable
                     end];
             HBytes (k_bits (c_key c))]).

(** [str(certificate)], certificates.py:134-138: it raises when [dn] does.  The text itself
    is not modelled. *)
Definition cert_str (c : cert) : res unit :=
  let? _ := dn (c_subject c) in Ok tt.

(** Raise an exception whose message formats a certificate. *)
Definition raise_fmt {A} (c : cert) (k : exc_class) (m : string) : res A :=
  let? _ := cert_str c in raise k m.

(** ** External libraries *)

(** Options of certvalidator's ValidationContext that are passed through unchanged from the
    context (context.py:343-353): [allow_legacy] selects the weak_hash_algos argument. *)
Record vopts := mkVopts {
  v_allow_legacy : bool;
  v_revocation_mode : string;
  v_allow_fetching : bool;
  v_fetch_timeout : Z;
  v_crls : list bytes;
  v_ocsps : list bytes
}.

(** The behaviour of the libraries and of the clock.  All theorems quantify over it.
    Simplified: the answers are functions of the arguments (no dependence on previous
    calls), and the clock does not advance during a verification. *)
Record env := mkEnv {
  (** hashlib: name, data -> digest *)
  e_hash : string -> bytes -> bytes;
  (** oscrypto.asymmetric.load_public_key(k).algorithm *)
  e_load_key : spki -> res string;
  (** oscrypto.asymmetric.{rsa_pkcs1v15,dsa,ecdsa}_verify(key, signature, data, hash) *)
  e_rsa_verify : spki -> bytes -> bytes -> string -> res unit;
  e_dsa_verify : spki -> bytes -> bytes -> string -> res unit;
  e_ecdsa_verify : spki -> bytes -> bytes -> string -> res unit;
  (** datetime.now(utc), which is aware *)
  e_now : Z;
  (** certvalidator.ValidationContext(trust_roots, moment, options) and
      CertificateValidator(end entity, intermediates, context) *)
  e_mk_validation : list cert -> option datetime -> vopts -> cert -> list cert -> res unit;
  (** validate_usage(key usages, extended key usages, optional) of that CertificateValidator, as
      identities of asn1crypto objects *)
  e_validate : list cert -> option datetime -> vopts -> cert -> list cert ->
               list string -> list string -> bool -> res (list Z);
  (** [hasattr(hashlib, name)] *)
  e_hashlib_has : string -> bool
}.

(** [self.data.sha1_fingerprint ... .lower()], certificates.py:184-190: the hexadecimal
    digest of the encoding. *)
Definition hex_digit (z : Z) : ascii :=
  ascii_of_nat (Z.to_nat (if z <? 10 then 48 + z else 87 + z)).
Fixpoint hex (b : bytes) : string :=
  match b with
  | [] => ""
  | x :: b' => String (hex_digit (Z_of_byte x / 16))
                      (String (hex_digit (Z_of_byte x mod 16)) (hex b'))
  end.
Definition sha1_fingerprint (E : env) (c : cert) : string := hex (e_hash E "sha1" (c_der c)).
Definition sha256_fingerprint (E : env) (c : cert) : string := hex (e_hash E "sha256" (c_der c)).

(** [Certificate.verify_signature], certificates.py:192-245. *)
Definition verify_signature (E : env) (c : cert) (signature data : bytes) (alg : string)
  (allow_legacy : bool) : res unit :=
  let? pk_alg := e_load_key E (c_key c) in
  let? verify_func :=
    (if String.eqb pk_alg "rsa" then Ok (e_rsa_verify E)
     else if String.eqb pk_alg "dsa" then Ok (e_dsa_verify E)
     else if String.eqb pk_alg "ec" then Ok (e_ecdsa_verify E)
     else raise_fmt c CertificateVerificationError "Signature algorithm is unsupported") in
  match verify_func (c_key c) signature data alg with
  | Ok _ => Ok tt
  | Err e =>
      if negb (catches Exception_ e) then Err e
      else if negb allow_legacy || negb (String.eqb pk_alg "rsa")
      then raise_fmt c CertificateVerificationError "Invalid signature"
      else
        match e_rsa_verify E (c_key c) signature (e_hash E alg data) "raw" with
        | Ok _ => Ok tt
        | Err e' =>
            if negb (catches Exception_ e') then Err e'
            else raise_fmt c CertificateVerificationError "Invalid signature (legacy attempted)"
        end
  end.

(** ** Digest algorithms *)

(** ACCEPTED_DIGEST_ALGORITHMS, hashing.py:12. *)
Definition accepted_digest_algorithms : list string :=
  ["md5"; "sha1"; "sha256"; "sha384"; "sha512"].

(** An AlgorithmIdentifier: [["algorithm"].native] and whether [["parameters"].native] is
    truthy. *)
Record algid := mkAlgid { alg_name : string; alg_has_params : bool }.

(** [_get_digest_algorithm], hashing.py:15-25, with the default [acceptable].  The hashlib
    function is represented by its name. *)
Definition get_digest_algorithm (a : algid) : res string :=
  if negb (str_mem (alg_name a) accepted_digest_algorithms) then
    raise ParseError "algorithm must be one of the accepted"
  else if alg_has_params a then raise ParseError "has parameters set, which is unexpected"
  else Ok (alg_name a).

(** [list.index], used for ranking at signed_pe.py:421-426: raises ValueError if absent. *)
Fixpoint str_index (x : string) (l : list string) : option Z :=
  match l with
  | [] => None
  | y :: l' => if String.eqb x y then Some 0 else
                 match str_index x l' with Some i => Some (i + 1) | None => None end
  end.

(** ** Accuracy *)

(** [datetime.timedelta] in microseconds: construction and addition check the range
    (-999999999 days <= t < 10^9 days). *)
Definition us_per_day : Z := 86400000000.
Definition timedelta (us : Z) : res Z :=
  if (- 999999999 * us_per_day <=? us) && (us <? 1000000000 * us_per_day)
  then Ok us else raise OverflowError "days out of range".

(** One [if accuracy[...].native: delta += timedelta(...)], helpers.py:13-18. *)
Definition accuracy_add (delta : Z) (f : option Z) (unit : Z) : res Z :=
  match f with
  | None => Ok delta
  | Some 0 => Ok delta
  | Some v => let? d := timedelta (v * unit) in timedelta (delta + d)
  end.

(** [accuracy_to_python], helpers.py:8-19.  The argument is None when the field is absent;
    seconds, millis and micros are None when absent. *)
Definition accuracy_to_python (a : option (option Z * option Z * option Z)) : res Z :=
  match a with
  | None => Ok 0
  | Some (s, ms, us) =>
      let? d1 := accuracy_add 0 s 1000000 in
      let? d2 := accuracy_add d1 ms 1000 in
      accuracy_add d2 us 1
  end.

(** ** FILETIME *)

(** Nearest integer to a/b (b > 0), ties to even. *)
Definition round_div (a b : Z) : Z :=
  let q := a / b in
  let r := a mod b in
  if 2 * r <? b then q
  else if b <? 2 * r then q + 1
  else if Z.even q then q else q + 1.

(** The IEEE double nearest to a/b (a >= 0, b > 0), as mantissa and exponent: m * 2^k.
    Python's true division of integers is correctly rounded (ties to even); subnormals and
    overflow do not occur for the values used here. *)
Definition double_div (a b : Z) : Z * Z :=
  if a <=? 0 then (0, 0)
  else
    let s := Z.log2 b + 1 in             (* 2^s > b, so that 2^s * a / b >= 1 *)
    let k := Z.log2 (2 ^ s * a / b) - s - 52 in
    if k <? 0 then (round_div (a * 2 ^ (- k)) b, k)
    else (round_div a (b * 2 ^ k), k).

(** A non-negative double to the nearest integer, ties to even: what [timedelta] does with
    a float number of microseconds. *)
Definition double_round (d : Z * Z) : Z :=
  let (m, k) := d in
  if k <? 0 then round_div m (2 ^ (- k)) else m * 2 ^ k.

(** [int(d)] for a non-negative double: truncation. *)
Definition double_trunc (d : Z * Z) : Z :=
  let (m, k) := d in
  if k <? 0 then m / 2 ^ (- k) else m * 2 ^ k.

(** [d * n] for a double d >= 0 and an integer n > 0: correctly rounded product. *)
Definition double_mul (d : Z * Z) (n : Z) : Z * Z :=
  let (m, k) := d in
  if k <? 0 then double_div (m * n) (2 ^ (- k)) else double_div (m * n * 2 ^ k) 1.

(** Last instant of year 9999 in microseconds since 1601-01-01: [datetime] addition beyond
    raises OverflowError. *)
Definition datetime_max_us : Z := 3067671 * us_per_day - 1.

(** [FileTime.native], asn1/ctl.py:117-126. *)
Definition filetime_native (contents : bytes) : res (option Z) :=
  match contents with
  | [] => Ok None
  | _ =>
      if negb (zlen contents =? 8) then raise StructError "unpack requires a buffer of 8 bytes"
      else
        let us := double_round (double_div (le_to_Z contents) 10) in
        let? d := timedelta us in
        if datetime_max_us <? d then raise OverflowError "date value out of range"
        else Ok (Some d)
  end.

(** [FileTime.set] of a datetime, asn1/ctl.py:128-134; the datetime is given as microseconds
    since 1601-01-01 UTC and whether it is timezone aware.  Simplified: negative differences
    are rejected by struct.pack without computing the float. *)
Definition filetime_set (aware : bool) (us : Z) : res bytes :=
  if negb aware then raise ValueError "Must be timezone aware"
  else if us <=? -10000 then raise StructError "argument out of range"
  else
    let v := if us <? 0 then 0 else double_trunc (double_mul (double_div us 1000000) 100) in
    if 2 ^ 64 <=? v then raise StructError "int too large to convert"
    else Ok (Z_to_le 8 v).
