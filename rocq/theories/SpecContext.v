(** Specification vocabulary for trust lists, stores and contexts; independent of the
    functions of the model (only its data types, the observable [rdns], the boolean
    equality [cert_eqb] characterised by C37 and the parser of a single entry are used). *)
From Verif Require Import Base Monad ModelFile ModelX509 SpecX509 ModelContext.

(** ** Trust list entries *)

Definition aware (t : datetime) : Prop := exists us, t = Aware us.
Definition not_later (a b : datetime) : Prop :=
  a = b \/ exists x y, a = Aware x /\ b = Aware y /\ x <= y.
(** There is no time to compare with, or it can be compared with. *)
Definition comparable (from : option Z) (t : datetime) : Prop := from = None \/ aware t.

(** A ban from a time on (always, if no time is given) for some usages (all, if none are
    given) applies. *)
Definition ban_applies (from : option Z) (us : option (list string)) (t : datetime)
  (requested : list string) : Prop :=
  (from <> None \/ us <> None) /\
  (forall f, from = Some f -> exists us, t = Aware us /\ f <= us) /\
  (forall l, us = Some l -> exists u, In u l /\ In u requested).

Definition covers_usages (s : ctl_subject) (requested : list string) : Prop :=
  forall us, ts_ekus s = Some us -> us <> [] -> incl requested us.
Definition entry_accepts (s : ctl_subject) (issued timestamp : datetime) (requested : list string) : Prop :=
  covers_usages s requested /\
  comparable (ts_not_before_filetime s) issued /\
  ~ ban_applies (ts_not_before_filetime s) (ts_not_before_ekus s) issued requested /\
  comparable (ts_disallowed_filetime s) timestamp /\
  ~ ban_applies (ts_disallowed_filetime s) (ts_disallowed_ekus s) timestamp requested.
(** The decision is made before a naive datetime is compared, if there is one. *)
Definition entry_decides (s : ctl_subject) (issued timestamp : datetime) (requested : list string) : Prop :=
  covers_usages s requested ->
  comparable (ts_not_before_filetime s) issued /\
  (~ ban_applies (ts_not_before_filetime s) (ts_not_before_ekus s) issued requested ->
   comparable (ts_disallowed_filetime s) timestamp).

(** The last element satisfying p. *)
Definition is_last {A} (p : A -> Prop) (l : list A) (a : A) : Prop :=
  exists pre post, l = pre ++ a :: post /\ p a /\ Forall (fun b => ~ p b) post.

(** The digest that identifies a certificate in a list. *)
Definition list_identifier (E : env) (alg : string) (c : cert) : bytes := e_hash E alg (c_der c).

(** [s] is the entry of the raw list [l] that counts for [c]. *)
Definition listed (E : env) (alg : string) (l : list raw_subject) (c : cert) (s : ctl_subject) : Prop :=
  exists r, is_last (fun r => rs_identifier r = list_identifier E alg c) l r /\ parse_subject r = Ok s.

(** ** Queries *)

(** [c] is the hexadecimal digit [d], in either case. *)
Definition hex_value (c : ascii) (d : Z) : Prop :=
  0 <= d /\ (String.get (Z.to_nat d) "0123456789abcdef" = Some c \/ String.get (Z.to_nat d) "0123456789ABCDEF" = Some c).
(** The digits in a string with spaces. *)
Inductive spells : string -> list Z -> Prop :=
| spells_nil : spells "" []
| spells_space s l : spells s l -> spells (String " " s) l
| spells_digit c d s l : hex_value c d -> spells s l -> spells (String c s) (d :: l).
Definition digits (b : bytes) : list Z := flat_map (fun x => [Z_of_byte x / 16; Z_of_byte x mod 16]) b.

Definition satisfies (E : env) (q : query) (c : cert) : Prop :=
  (forall n, q_subject q = Some n -> rdns (c_subject c) = rdns n) /\
  (forall z, q_serial q = Some z -> c_serial c = z) /\
  (forall n, q_issuer q = Some n -> rdns (c_issuer c) = rdns n) /\
  (forall s, q_sha256 q = Some s -> spells s (digits (e_hash E "sha256" (c_der c)))).

(** The members of a list that satisfy [P], in order and with repetitions. *)
Inductive selected {A} (P : A -> Prop) : list A -> list A -> Prop :=
| selected_nil : selected P [] []
| selected_take c l out : P c -> selected P l out -> selected P (c :: l) (c :: out)
| selected_skip c l out : ~ P c -> selected P l out -> selected P (c :: l) out.

(** [c] is the first certificate of its equality class in [l]. *)
Definition first_of (l : list cert) (c : cert) : Prop :=
  exists pre post, l = pre ++ c :: post /\ Forall (fun d => cert_eqb d c = false) pre.

Inductive subseq {A} : list A -> list A -> Prop :=
| subseq_nil l : subseq [] l
| subseq_take a l m : subseq l m -> subseq (a :: l) (a :: m)
| subseq_skip a l m : subseq l m -> subseq l (a :: m).

(** No two members are equal. *)
Definition all_different (l : list cert) : Prop := ForallOrdPairs (fun a b => cert_eqb a b = false) l.

(** The members of a list that satisfy [P] and equal no earlier one that does, in order;
    [earlier] are the members before the list. *)
Inductive firsts (P : cert -> Prop) : list cert -> list cert -> list cert -> Prop :=
| firsts_nil earlier : firsts P earlier [] []
| firsts_take earlier c l out :
    P c -> (forall d, In d earlier -> P d -> cert_eqb d c = false) -> firsts P (c :: earlier) l out ->
    firsts P earlier (c :: l) (c :: out)
| firsts_skip earlier c l out :
    (P c -> exists d, In d earlier /\ P d /\ cert_eqb d c = true) -> firsts P (c :: earlier) l out ->
    firsts P earlier (c :: l) out.

(** ** Stores and contexts *)

(** The certificates of a location, up to the first failure. *)
Fixpoint location_certs (l : location) : list cert :=
  match l with
  | [] => []
  | (cs, None) :: l' => cs ++ location_certs l'
  | (cs, Some _) :: _ => cs
  end.
Fixpoint location_error (l : location) : option exn :=
  match l with
  | [] => None
  | (_, None) :: l' => location_error l'
  | (_, Some e) :: _ => Some e
  end.

(** What a store holds when it is read. *)
Definition contents (s : store) : list cert :=
  match s_location s with
  | Some l => if s_loaded s then s_items s else s_items s ++ location_certs l
  | None => s_items s
  end.
(** Reading it does not fail. *)
Definition readable (s : store) : Prop :=
  forall l, s_location s = Some l -> s_loaded s = false -> location_error l = None.
(** There is nothing left to load. *)
Definition ready (s : store) : Prop := s_location s = None \/ s_loaded s = true.

(** The stores of the context [x] of a world. *)
Definition context_stores (w : world) (x : nat) (l : list store) : Prop :=
  exists c, nth_error (w_contexts w) x = Some c /\
  Forall2 (fun r s => nth_error (w_stores w) r = Some s) (x_stores c) l.

(** [c] is trusted by one of the stores. *)
Definition trusted_by (l : list store) (c : cert) : Prop :=
  exists s d, In s l /\ s_trusted s = true /\ In d (s_items s) /\ cert_eqb c d = true.

(** Paths from a trusted certificate down to [c]. *)
Definition issued (a b : cert) : Prop := rdns (c_subject a) = rdns (c_issuer b).
Definition linked (l : list cert) : Prop :=
  forall pre a b post, l = pre ++ a :: b :: post -> issued a b.
Definition path_to (l : list store) (c : cert) (depth : nat) (ch : list cert) : Prop :=
  exists above,
    ch = above ++ [c] /\
    Forall (first_of (concat (map contents l))) above /\
    linked ch /\ all_different ch /\ (length ch <= S depth)%nat /\
    (exists root rest, ch = root :: rest /\ trusted_by l root /\
                       Forall (fun d => ~ trusted_by l d) rest).

(** The usages of a context can be read more than once. *)
Definition reusable (c : context) : Prop :=
  forall u, x_ekus c = Some u -> u_oneshot u = false.

(** The time and usages a trust list is asked about. *)
Definition asked_time (E : env) (c : context) : datetime :=
  match x_timestamp c with Some t => t | None => Aware (e_now E) end.
Definition asked_usages (c : context) : list string :=
  match x_ekus c with Some u => u_items u | None => [] end.

(** The trust list [t] accepts the chain: the entry for its first certificate does. *)
Definition ctl_accepts (E : env) (t : ctl) (chain : list cert) (timestamp : datetime)
  (requested : list string) : Prop :=
  exists root rest pre ee s,
    chain = root :: rest /\ chain = pre ++ [ee] /\
    In (ctl_algorithm t) ["sha1"; "sha256"] /\
    dict_get (hex (list_identifier E (ctl_algorithm t) root)) (ctl_subjects t) = Some s /\
    entry_accepts s (c_valid_from ee) timestamp requested.

(** The store vouches for the chain. *)
Definition store_accepts (E : env) (s : store) (items : list cert) (chain : list cert) (timestamp : datetime)
  (requested : list string) : Prop :=
  s_trusted s = true /\
  (exists root rest d, chain = root :: rest /\ In d items /\ cert_eqb root d = true) /\
  (forall t, s_ctl s = Some t -> ctl_accepts E t chain timestamp requested).

Definition supported (s : store) : Prop :=
  forall t, s_ctl s = Some t -> In (ctl_algorithm t) ["sha1"; "sha256"].

(** The datetimes that are compared with those of trust lists are aware. *)
Definition datable (E : env) (c : context) (chain : list cert) : Prop :=
  aware (asked_time E c) /\ forall pre ee, chain = pre ++ [ee] -> aware (c_valid_from ee).

(** The subject of the certificate has a textual form. *)
Definition printable (c : cert) : Prop :=
  Forall (fun r => exists u, a_val (r_first r) = VStr u) (c_subject c).

(** The store is trusted and has the certificate. *)
Definition holds (s : store) (items : list cert) (c : cert) : Prop :=
  s_trusted s = true /\ exists d, In d items /\ cert_eqb c d = true.

(** ** Histories of operations on one store *)

Inductive op : Type :=
| OIter | OLen | OFind (q : query) | OFindOne (q : query) | OTrusted (c : cert) | OAppend (c : cert).
Inductive answer : Type :=
| ACerts (r : res (list cert)) | ANumber (r : res Z) | ACert (r : res cert) | ABool (r : res bool)
| ANone (r : res unit).

Definition perform (E : env) (r : nat) (o : op) (w : world) : world * answer :=
  match o with
  | OIter => let (w', a) := store_iter r w in (w', ACerts a)
  | OLen => let (w', a) := store_len r w in (w', ANumber a)
  | OFind q => let (w', a) := store_find_certificates E r q w in (w', ACerts a)
  | OFindOne q => let (w', a) := store_find_certificate E r q w in (w', ACert a)
  | OTrusted c => let (w', a) := store_is_trusted r c w in (w', ABool a)
  | OAppend c => let (w', a) := store_append r c w in (w', ANone a)
  end.
(** A caller that goes on after exceptions. *)
Fixpoint perform_all (E : env) (r : nat) (h : list op) (w : world) : world * list answer :=
  match h with
  | [] => (w, [])
  | o :: h' => let (w1, a) := perform E r o w in
               let (w2, l) := perform_all E r h' w1 in (w2, a :: l)
  end.

Definition reads (o : op) : Prop :=
  match o with OIter | OLen | OFind _ | OFindOne _ => True | OTrusted _ | OAppend _ => False end.
Fixpoint appended (h : list op) : list cert :=
  match h with
  | [] => []
  | OAppend c :: h' => c :: appended h'
  | _ :: h' => appended h'
  end.

(** The plain store with given certificates. *)
Definition plain (items : list cert) (s : store) : store :=
  mkStore items (s_trusted s) (s_ctl s) None false.
