(** Model of CertificateName (signify/x509/certificates.py:260-349) and of the comparisons and
    searches that use it, with the components of a name decoded when they are asked for.
    No proofs in this file. *)
From Verif Require Import Base ModelX509 ModelContext ModelDer ModelSpc ModelDecode.

(** [type_value["type"].dotted] and [type_value["value"].native], certificates.py:334-338. *)
Record lz_ava := mkLzAva { la_oid : res string; la_value : res nval }.
(** An RDN, as its attributes; an error if they cannot be told apart ([n[0]], certificates.py:332). *)
Definition lz_rdn := res (list lz_ava).
(** [self.data.chosen] as a list, certificates.py:331. *)
Definition lz_name := res (list lz_rdn).

(** What a generator yields, and the exception that ends it, if any. *)
Definition yields (A : Type) : Type := list A * option exn.
Definition yield_then {A} (x : A) (r : yields A) : yields A := (x :: fst r, snd r).
(** [tuple(g)] and [list(g)] *)
Definition collect {A} (r : yields A) : res (list A) :=
  match snd r with Some e => Err e | None => Ok (fst r) end.

(** [n[0]], certificates.py:332. *)
Definition first_ava (r : lz_rdn) : res lz_ava :=
  let? l := r in
  match l with a :: _ => Ok a | [] => raise IndexError "list index out of range" end.

(** The loop of certificates.py:331-349 without a component type. *)
Fixpoint component_loop (l : list lz_rdn) : yields (string * nval) :=
  match l with
  | [] => ([], None)
  | r :: l' =>
      match (let? a := first_ava r in
             let? o := la_oid a in
             let? v := la_value a in Ok (rdn_type o, v)) with
      | Ok x => yield_then x (component_loop l')
      | Err e => ([], Some e)
      end
  end.
Definition lz_components (n : lz_name) : yields (string * nval) :=
  match n with Ok l => component_loop (rev l) | Err e => ([], Some e) end.

(** The same loop with a component type, certificates.py:340-346: the value is decoded before the
    types are compared. *)
Fixpoint component_of_loop (oid_native : string -> string) (t : string) (l : list lz_rdn) : yields nval :=
  match l with
  | [] => ([], None)
  | r :: l' =>
      match (let? a := first_ava r in
             let? o := la_oid a in
             let? v := la_value a in Ok (o, v)) with
      | Ok (o, v) =>
          if str_mem t [o; oid_native o; rdn_type o]
          then yield_then v (component_of_loop oid_native t l')
          else component_of_loop oid_native t l'
      | Err e => ([], Some e)
      end
  end.
Definition lz_components_of (oid_native : string -> string) (t : string) (n : lz_name) : yields nval :=
  match n with Ok l => component_of_loop oid_native t (rev l) | Err e => ([], Some e) end.

(** [rdns], certificates.py:311-314. *)
Definition lz_rdns (n : lz_name) : res (list (string * nval)) := collect (lz_components n).

(** [dn], certificates.py:291-309: each component is escaped before the next is decoded. *)
Fixpoint dn_loop (l : list lz_rdn) : res (list ustr) :=
  match l with
  | [] => Ok []
  | r :: l' =>
      let? a := first_ava r in
      let? o := la_oid a in
      let? v := la_value a in
      match v with
      | VStr u => let? items := dn_loop l' in Ok ((ustr_of (rdn_type o) ++ [61%N] ++ dn_value u) :: items)
      | VBytes _ => raise TypeError "cannot use a string pattern on a bytes-like object"
      end
  end.
Definition lz_dn (n : lz_name) : res ustr :=
  let? l := n in
  let? items := dn_loop (rev l) in Ok (ujoin [44; 32]%N items).

(** [__eq__], certificates.py:282-283. *)
Definition lz_name_eq (a b : lz_name) : res bool :=
  let? x := lz_rdns a in
  let? y := lz_rdns b in
  Ok (list_eqb comp_eqb x y).

(** [__hash__], certificates.py:285-286. *)
Definition lz_name_hash (pyhash : hashable -> Z) (n : lz_name) : res Z :=
  let? x := lz_rdns n in
  hash_call pyhash (HTuple (map (fun tv => HTuple [HStr (fst tv); hash_nval (snd tv)]) x)).

(** A Certificate whose names have not been decoded, certificates.py:91-132: the fields that
    comparisons and searches read; [lo_id] is the identity of the object. *)
Record lz_certobj := mkLzObj {
  lo_id : Z;
  lo_issuer : lz_name;
  lo_serial : Z;
  lo_subject : lz_name;
  lo_alg : string;
  lo_params : pkparams;
  lo_bits : bytes;
  lo_sha256 : string
}.

(** [and] of values that may raise. *)
Definition and_then (a : res bool) (b : res bool) : res bool :=
  let? x := a in if x then b else Ok false.

(** [Certificate.__eq__], certificates.py:151-159. *)
Definition lz_cert_eq (a b : lz_certobj) : res bool :=
  and_then (lz_name_eq (lo_issuer a) (lo_issuer b))
  (and_then (Ok (Z.eqb (lo_serial a) (lo_serial b)))
  (and_then (lz_name_eq (lo_subject a) (lo_subject b))
            (Ok (String.eqb (lo_alg a) (lo_alg b) && pkparams_eqb (lo_params a) (lo_params b)
                 && bytes_eqb (lo_bits a) (lo_bits b))))).

(** [certificate in l], context.py:76 and 274: the members in turn, an identical object being a
    member without comparison. *)
Fixpoint lz_cert_in (c : lz_certobj) (l : list lz_certobj) : res bool :=
  match l with
  | [] => Ok false
  | x :: l' => if Z.eqb (lo_id x) (lo_id c) then Ok true
               else let? q := lz_cert_eq x c in if q then Ok true else lz_cert_in c l'
  end.

(** The criteria of [find_certificates], context.py:97-104, with names that have not been decoded. *)
Record lz_query := mkLzQuery {
  lq_subject : option lz_name;
  lq_serial : option Z;
  lq_issuer : option lz_name;
  lq_sha256 : option string
}.
(** The tests of context.py:119-129: true if none of them skips the certificate. *)
Definition lz_matches (q : lz_query) (c : lz_certobj) : res bool :=
  and_then (match lq_subject q with Some n => lz_name_eq (lo_subject c) n | None => Ok true end)
  (and_then (Ok (match lq_serial q with Some z => Z.eqb (lo_serial c) z | None => true end))
  (and_then (match lq_issuer q with Some n => lz_name_eq (lo_issuer c) n | None => Ok true end)
            (Ok (match lq_sha256 q with Some s => String.eqb (fp_norm (lo_sha256 c)) (fp_norm s) | None => true end)))).
(** [CertificateStore.find_certificates], context.py:118-130. *)
Fixpoint lz_find (q : lz_query) (l : list lz_certobj) : yields lz_certobj :=
  match l with
  | [] => ([], None)
  | c :: l' =>
      match lz_matches q c with
      | Ok true => yield_then c (lz_find q l')
      | Ok false => lz_find q l'
      | Err e => ([], Some e)
      end
  end.

(** The parts of a name in octets, as asn1crypto finds them when they are asked for. *)
Definition lz_read_ava (t : tlv) : lz_ava :=
  let kids := (let? b := contents_of NameTypeAndValue Untagged t in children NameTypeAndValue b) in
  let oid := read NameTypeAndValue kids "type" (fun a tg t => let? b := contents_of a tg t in Ok (dotted b)) in
  mkLzAva oid (let? o := oid in read NameTypeAndValue kids "value" (fun _ _ t => read_value o t)).
Definition lz_read_rdn (t : tlv) : lz_rdn :=
  let? l := items_of (ASetOf NameTypeAndValue) Untagged t in Ok (map lz_read_ava l).
Definition lz_read_name (a : asn) (tg : tagging) (t : tlv) : lz_name :=
  let? l := items_of a tg t in Ok (map lz_read_rdn l).
