(** What the functions of SignedPEFile must establish, over the certificate table and the
    verification of one signature. *)
From Verif Require Import Base Monad ModelFile ModelFingerprint ModelPE SpecFingerprint SpecPE
  ModelX509 SpecX509 ModelContext SpecContext ModelPkcs7 ModelAuthenticode SpecAuthenticode.

(** ** The tree of signatures *)

(** The signature reached from [a] by following the indices of nested ones. *)
Fixpoint at_path (a : asd) (p : list nat) : option asd :=
  match p with
  | [] => Some a
  | i :: p' =>
      match nth_error (asi_nested (asd_signer a)) i with
      | Some b => at_path b p'
      | None => None
      end
  end.

(** The same from a certificate table: the first index is that of an entry of type 2. *)
Definition in_table (load : loader) (depth : nat) (es : list cert_entry) (p : list nat) : option asd :=
  match p with
  | [] => None
  | i :: p' =>
      match nth_error es i with
      | Some c =>
          if ce_type c =? 2 then
            match from_envelope load depth true (ce_certificate c) with
            | Ok a => at_path a p'
            | Err _ => None
            end
          else None
      | None => None
      end
  end.

(** Parents come first, and siblings in their order. *)
Inductive earlier : list nat -> list nat -> Prop :=
| earlier_parent p i q : earlier p (p ++ i :: q)
| earlier_sibling p i j q r : (i < j)%nat -> earlier (p ++ i :: q) (p ++ j :: r).

(** [l] has what is found at the wanted paths, in this order, each once. *)
Definition enumerates (look : list nat -> option asd) (wanted : list nat -> Prop) (l : list asd) : Prop :=
  exists ps, ForallOrdPairs earlier ps /\ (forall p, In p ps <-> wanted p) /\
    Forall2 (fun p a => look p = Some a) ps l.

(** ** The iteration *)

(** [list(pe.iter_signed_datas(...))] for [SignedPEFile(f)]: the objects before the end and
    the exception that ended it. *)
Definition iterate (load : loader) (depth : nat) (include_nested ignore_parse_errors : bool) (fuel : nat) (f : file)
  : option (list asd * option exn) :=
  let (f', flen) := signed_pe_init f in
  option_map snd (iter_signed_datas load depth include_nested ignore_parse_errors fuel flen f').

(** An entry that does not end the iteration. *)
Definition readable_entry (load : loader) (depth : nat) (c : cert_entry) : Prop :=
  ce_revision c = 0x200 /\
  (ce_type c = 2 -> exists a, from_envelope load depth true (ce_certificate c) = Ok a).

(** The iteration over a table with the entries [es], that itself ends with [tail], ends
    before the entry [n], with [x]. *)
Inductive ends (load : loader) (depth : nat) (es : list cert_entry) (tail : option exn) : nat -> option exn -> Prop :=
| ends_revision n c e :
    nth_error es n = Some c -> ce_revision c <> 0x200 -> e_class e = SignedPEParseError ->
    ends load depth es tail n (Some e)
| ends_parse n c e :
    nth_error es n = Some c -> ce_revision c = 0x200 -> ce_type c = 2 ->
    from_envelope load depth true (ce_certificate c) = Err e ->
    ends load depth es tail n (Some e)
| ends_table e : tail = Some e -> ends load depth es tail (length es) (Some e)
| ends_found c : tail = None -> In c es -> ce_type c = 2 -> ends load depth es tail (length es) None
| ends_not_found e :
    tail = None -> (forall c, In c es -> ce_type c <> 2) -> e_class e = SignedPEParseError ->
    ends load depth es tail (length es) (Some e).

(** The signatures of the entries before [n], or only the outermost ones. *)
Definition wanted_paths (load : loader) (depth : nat) (es : list cert_entry) (n : nat) (include_nested : bool)
  (p : list nat) : Prop :=
  in_table load depth es p <> None /\
  (exists i q, p = i :: q /\ (i < n)%nat) /\
  (include_nested = false -> length p = 1%nat).

(** ** Several verdicts *)

(** The verdicts of verifying one after the other. *)
Fixpoint verdicts {A B} (one : A -> M world B) (l : list A) (w : world) : list (A * res B) :=
  match l with
  | [] => []
  | a :: l' => (a, snd (one a w)) :: verdicts one l' (fst (one a w))
  end.

Definition succeeds {A B} (v : A * res B) : Prop := exists b, snd v = Ok b.
(** An error that [except Exception] does not handle. *)
Definition interrupts {A B} (v : A * res B) : Prop :=
  exists e, snd v = Err e /\ issubclass (e_class e) Exception_ = false.
(** An error that it handles. *)
Definition fails {A B} (v : A * res B) : Prop :=
  exists e, snd v = Err e /\ issubclass (e_class e) Exception_ = true.

(** All must hold. *)
Definition conjunctive (mode : string) : Prop := mode = "all" \/ mode = "first".

(** What the list of verdicts [vs] means: *)
Inductive outcome {A B} (vs : list (A * res B)) : bool -> res (list (A * B)) -> Prop :=
(** all hold: all of them, in order *)
| all_hold out : map (fun ab => (fst ab, Ok (snd ab))) out = vs -> outcome vs true (Ok out)
(** the first one that does not hold *)
| one_fails pre a e post : vs = pre ++ (a, Err e) :: post -> Forall succeeds pre -> outcome vs true (Err e)
(** the first one that holds *)
| one_holds pre a b post : vs = pre ++ (a, Ok b) :: post -> Forall fails pre -> outcome vs false (Ok [(a, b)])
(** none holds: the last one *)
| none_holds pre a e : vs = pre ++ [(a, Err e)] -> Forall fails vs -> outcome vs false (Err e)
(** an interruption before any holds *)
| interrupted_by pre a e post :
    vs = pre ++ (a, Err e) :: post -> Forall fails pre -> issubclass (e_class e) Exception_ = false ->
    outcome vs false (Err e).

(** ** The choice of signatures *)

(** From the weakest to the strongest. *)
Definition strength (alg : string) : Z :=
  if String.eqb alg "md5" then 1 else if String.eqb alg "sha1" then 2 else if String.eqb alg "sha256" then 3
  else if String.eqb alg "sha384" then 4 else if String.eqb alg "sha512" then 5 else 0.
Definition digest_of (a : asd) : string := sd_digest_alg (asd_data a).

Definition chosen (mode : string) (l sel : list asd) : Prop :=
  (mode = "first" -> exists a l', l = a :: l' /\ sel = [a]) /\
  (mode = "best" ->
     sel = filter (fun a => forallb (fun b => strength (digest_of b) <=? strength (digest_of a)) l) l) /\
  (mode <> "first" -> mode <> "best" -> sel = l).

(** ** Expected hashes *)

Definition supplied (expected : option (dict bytes)) (alg : string) : option bytes :=
  match expected with Some d => dict_get alg d | None => None end.

(** The hash to compare with: the supplied one, otherwise that of the file. *)
Definition due (E : env) (data : bytes) (expected : option (dict bytes)) (alg : string) (h : bytes) : Prop :=
  match supplied expected alg with
  | Some h' => h = h'
  | None => authentihash_of E data alg h
  end.

(** All names of supplied hashes are names of hash functions. *)
Definition known_names (E : env) (expected : option (dict bytes)) : Prop :=
  forall d k h, expected = Some d -> In (k, h) d -> e_hashlib_has E k = true.

(** The world with another position in the file. *)
Definition at_position (p : Z) (w : world) : world :=
  mkWorld (w_stores w) (w_contexts w) (mkFile (f_bytes (w_file w)) p).

(** ** End to end *)

(** [chains] are chains of a certificate that the signature [a] names, that verifies its signer
    info, and whose root is in the trusted store [ts] and accepted by its trust list. *)
Definition vouched (E : env) (w : world) (v : vargs) (ts : store) (a : asd) (chains : list (list cert)) : Prop :=
  let i := asi_info (asd_signer a) in
  let cx := default_context [va_trusted v; length (w_stores w)] "code_signing" (va_kwargs v) in
  let timely := fun t => t = x_timestamp cx \/ exists c, considered a v c /\ t = counter_stated_time c in
  chains <> [] /\
  Forall (fun chain =>
    signed_chain E i cx [ts; shipped (asd_data a)] (fun _ => timely) chain /\
    exists t, timely t /\
      store_accepts E ts (contents ts) chain (match t with Some t => t | None => e_now E end) ["code_signing"]) chains.

(** What a successful verification with default arguments means for one pair of the result. *)
Definition sound_pair (load : loader) (E : env) (depth : nat) (w : world) (v : vargs) (ts : store)
  (es : list cert_entry) (ac : asd * list (list cert)) : Prop :=
  let (a, chains) := ac in
  (* it is in the certificate table, or nested in a signature there *)
  (exists i q c, nth_error es i = Some c /\ ce_revision c = 0x200 /\ ce_type c = 2 /\
     in_table load depth es (i :: q) = Some a) /\
  (* it has the hash of the file *)
  algorithms_agree a /\ authentihash_of E (f_bytes (w_file w)) (digest_of a) (sp_digest (asd_spc a)) /\
  (* its content is signed, and its signer is trusted *)
  content_matches E (asd_data a) (asi_info (asd_signer a)) /\ vouched E w v ts a chains /\
  (* so is its countersignature *)
  (va_mode v = "strict" -> forall c cy ly, asi_cs (asd_signer a) = Some c -> counter_context w a c v cy ly ->
     counter_holds E a c cy ly).

(** ** The explanation of an outcome *)

(** The documentation of the statuses: the classes of exceptions they stand for. *)
Definition documented_statuses : list (exc_class * status) :=
  [(SignedPEParseError, NOT_SIGNED); (AuthenticodeNotSignedError, NOT_SIGNED);
   (AuthenticodeInconsistentDigestAlgorithmError, INCONSISTENT_DIGEST_ALGORITHM);
   (AuthenticodeInvalidDigestError, INVALID_DIGEST); (AuthenticodeCounterSignerError, COUNTERSIGNER_ERROR);
   (CertificateVerificationError, CERTIFICATE_ERROR); (ParseError, PARSE_ERROR);
   (VerificationError, VERIFY_ERROR); (Exception_, UNKNOWN_ERROR)].

(** The status of the most specific documented class that [k] belongs to. *)
Definition documented (k : exc_class) (s : status) : Prop :=
  exists c, In (c, s) documented_statuses /\ issubclass k c = true /\
    forall c' s', In (c', s') documented_statuses -> issubclass k c' = true -> issubclass c c' = true.

(** What explain_verify must return for the outcome [r]. *)
Inductive explains {A} : res A -> res (status * option exn) -> Prop :=
| explains_ok a : explains (Ok a) (Ok (OK, None))
| explains_error e s : documented (e_class e) s -> explains (Err e) (Ok (s, Some e))
| explains_interruption e : issubclass (e_class e) Exception_ = false -> explains (Err e) (Err e).

(** ** Verifying the chosen signatures *)

(** The verdicts on the signatures [sel], each compared with [hash] of its algorithm.  (With a
    given hash the verification of a signature does not depend on the fuel.) *)
Definition tried (E : env) (v : vargs) (hash : string -> bytes) (sel : list asd) (w : world)
  : list (asd * res (list (list cert))) :=
  verdicts (fun a => asd_verify E 0 a (Some (hash (digest_of a))) v) sel w.

(** The verdict on each of them, verified alone. *)
Definition alone (E : env) (v : vargs) (hash : string -> bytes) (sel : list asd) (w : world)
  : list (asd * res (list (list cert))) :=
  map (fun a => (a, snd (asd_verify E 0 a (Some (hash (digest_of a))) v w))) sel.

(** [hash] gives the hashes that the signatures [sel] are to be compared with. *)
Definition due_hashes (E : env) (data : bytes) (expected : option (dict bytes)) (sel : list asd)
  (hash : string -> bytes) : Prop :=
  forall a, In a sel -> due E data expected (digest_of a) (hash (digest_of a)).

(** The result of SignedPEFile(f).verify(...), and the dict that was passed, afterwards. *)
Definition verify_result (load : loader) (E : env) (depth fuel : nat) (mode : string)
  (expected : option (dict bytes)) (ign : bool) (v : vargs) (w : world) : res (list (asd * list (list cert))) :=
  snd (pe_open_verify load E depth fuel mode expected ign v w).
Definition dict_after (load : loader) (E : env) (depth fuel : nat) (mode : string)
  (expected : option (dict bytes)) (ign : bool) (v : vargs) (w : world) : option (dict bytes) :=
  snd (fst (pe_open_verify load E depth fuel mode expected ign v w)).
