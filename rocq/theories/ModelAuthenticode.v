(** Model of the verification in signify/pkcs7/signerinfo.py,
    signify/authenticode/structures.py and signify/authenticode/signed_pe.py.
    No proofs in this file. *)
From Verif Require Import Base Monad ModelFile ModelFingerprint ModelPE ModelX509 ModelContext
  ModelPkcs7.

(** ** SignerInfo.verify *)

(** [_verify_issuer_signature], signerinfo.py:271-293. *)
Definition verify_issuer_signature (E : env) (i : sinfo) (c : cert) (allow_legacy : bool) : res unit :=
  match verify_signature E c (si_signature i) (si_encoded i) (si_digest_alg i) allow_legacy with
  | Ok _ => Ok tt
  | Err e =>
      if catches VerificationError e
      then raise_fmt c SignerInfoVerificationError "Could not verify the signer of the authenticated attributes"
      else Err e
  end.

(** ["microsoft_lifetime_signing" in issuer.extensions.get("extended_key_usage", [])],
    structures.py:288-290. *)
Definition lifetime_signing (c : cert) : bool :=
  match c_eku c with Some l => str_mem "microsoft_lifetime_signing" l | None => false end.

(** [_verify_issuer], signerinfo.py:295-313, and its override in AuthenticodeSignerInfo,
    structures.py:278-292 ([authenticode]). *)
Definition verify_issuer (E : env) (authenticode : bool) (i : sinfo) (x : nat)
  (signing_time : option datetime) (c : cert) : M world (list cert) :=
  let signing_time := if authenticode && lifetime_signing c then None else signing_time in
  do cx <- get_context x ;
  mres (verify_issuer_signature E i c (v_allow_legacy (x_opts cx))) ;;
  match signing_time with
  | Some t => set_timestamp x (Some t)
  | None => mret tt
  end ;;
  context_verify E x c.

(** The variable [first_error] of signerinfo.py:341-359. *)
Inductive first_error : Type :=
| FNone
| FErr (e : exn)
| FFalse.

Definition by_issuer_serial (i : sinfo) : query :=
  mkQuery None (Some (si_serial i)) (Some (si_issuer i)) None.

(** The body of the loop of [_build_chain], signerinfo.py:345-356; the chains yielded so
    far are collected. *)
Definition build_chain_body (E : env) (authenticode : bool) (i : sinfo) (x : nat)
  (signing_time : option datetime) (c : cert) (acc : list (list cert) * first_error)
  : M world (list (list cert) * first_error) :=
  fun w =>
    match verify_issuer E authenticode i x signing_time c w with
    | (w', Ok chain) => (w', Ok (fst acc ++ [chain], FFalse))
    | (w', Err e) =>
        if catches VerificationError e
        then (w', Ok (fst acc, match snd acc with FNone => FErr e | f => f end))
        else (w', Err e)
    end.

(** [list(self._build_chain(context, signing_time))], signerinfo.py:315-359. *)
Definition build_chain (E : env) (authenticode : bool) (i : sinfo) (x : nat)
  (signing_time : option datetime) : M world (list (list cert)) :=
  do p <- for_certificates E x (by_issuer_serial i)
            (build_chain_body E authenticode i x signing_time) ([], FNone) ;
  match snd p with
  | FErr e => merr e
  | _ => mret (fst p)
  end.

(** [SignerInfo.verify], signerinfo.py:361-385. *)
Definition signer_verify (E : env) (authenticode : bool) (i : sinfo) (x : nat)
  (signing_time : option datetime) : M world (list (list cert)) :=
  do chains <- build_chain E authenticode i x signing_time ;
  match chains with
  | [] => mraise SignerInfoVerificationError "No valid certificate chain found to a trust anchor"
  | _ => mret chains
  end.

(** [SignerInfo.potential_chains], signerinfo.py:387-400, run to its end, with the default of
    [depth] at context.py:280. *)
Definition signer_potential_chains (E : env) (i : sinfo) (x : nat) : M world (list (list cert)) :=
  for_certificates E x (by_issuer_serial i)
    (fun c acc => do chains <- potential_chains E x 10 c ; mret (acc ++ chains)) [].

(** ** Countersigners *)

(** [check_message_digest], signerinfo.py:230-237 and structures.py:723-730. *)
Definition option_bytes_eqb (a : bytes) (b : option bytes) : bool :=
  match b with Some b => bytes_eqb a b | None => false end.
Definition check_message_digest (E : env) (c : countersigner) (data : bytes) : bool :=
  match c with
  | CSPlain i => option_bytes_eqb (e_hash E (si_digest_alg i) data) (si_message_digest i)
  | CSToken t => bytes_eqb (e_hash E (ti_hash_alg (r_tst t)) data) (ti_message_digest (r_tst t))
  end.

(** [countersigner.signing_time], signerinfo.py:202-210 and structures.py:716-721. *)
Definition cs_signing_time (c : countersigner) : option datetime :=
  match c with
  | CSPlain i => si_signing_time i
  | CSToken t => Some (ti_signing_time (r_tst t))
  end.

(** Creating objects. *)
Definition alloc_store (s : store) : M world nat :=
  fun w => (mkWorld (w_stores w ++ [s]) (w_contexts w) (w_file w), Ok (length (w_stores w))).
Definition alloc_context (c : context) : M world nat :=
  fun w => (mkWorld (w_stores w) (w_contexts w ++ [c]) (w_file w), Ok (length (w_contexts w))).

(** [self.certificates], signeddata.py:133-140: CertificateStore([...]) is not trusted.
    Simplified: the store is created when it is used instead of when the SignedData is
    parsed, that is, nobody changes it in between. *)
Definition embedded_store (d : sdata) : store := mkStore (sd_certificates d) false None None false.

(** The keyword arguments of VerificationContext() other than extended_key_usages
    (context.py:169-182).  [kw_valid] is false when there is a keyword that the constructor
    does not accept (such as extended_key_usages, which is passed explicitly), so that it
    raises TypeError. *)
Record ctx_kwargs := mkKwargs {
  kw_timestamp : option datetime;
  kw_key_usages : option (list string);
  kw_optional_eku : bool;
  kw_opts : vopts;
  kw_valid : bool
}.

(** VerificationContext() with the given stores, extended_key_usages and kwargs, structures.py:490-496
    and 502-508. *)
Definition new_context (stores : list nat) (eku : string) (k : ctx_kwargs) : M world nat :=
  if kw_valid k then
    alloc_context (mkContext stores (kw_timestamp k) (option_map (mkUsages false) (kw_key_usages k))
                     (Some (mkUsages false [eku])) (kw_optional_eku k) (kw_opts k))
  else mraise TypeError "__init__() got an unexpected keyword argument".

(** The defaults of VerificationContext(), context.py:172-181. *)
Definition default_opts : vopts := mkVopts true "soft-fail" false 30 [] [].
Definition no_kwargs : ctx_kwargs := mkKwargs None None true default_opts true.

(** [RFC3161SignedData.verify(context)], structures.py:732-764; [None] stands for no
    context, then [trusted] is the trusted_certificate_store. *)
Definition rsd_verify (E : env) (t : rsd) (context : option nat) (trusted : nat)
  : M world (list (list cert)) :=
  if negb (option_bytes_eqb (content_digest E (r_data t)) (si_message_digest (r_signer t))) then
    mraise AuthenticodeCounterSignerError "The expected hash of the TstInfo does not match SignerInfo"
  else
    do x <- match context with
            | Some x => mret x
            | None =>
                do certs <- alloc_store (embedded_store (r_data t)) ;
                new_context [trusted; certs] "time_stamping" no_kwargs
            end ;
    signer_verify E false (r_signer t) x None.

(** [countersigner.verify(cs_verification_context)], structures.py:563. *)
Definition cs_verify (E : env) (c : countersigner) (x : nat) (trusted : nat) : M world (list (list cert)) :=
  match c with
  | CSPlain i => signer_verify E false i x None
  | CSToken t => rsd_verify E t (Some x) trusted
  end.

(** ** AuthenticodeSignedData.verify *)

(** The arguments of [AuthenticodeSignedData.verify] except expected_hash,
    structures.py:427-436. *)
Record vargs := mkVargs {
  va_context : option nat;
  va_cs_context : option nat;
  va_trusted : nat;
  va_kwargs : ctx_kwargs;
  va_mode : string
}.

(** Running out of fuel is not a Python behaviour: an explicit error that nothing catches. *)
Definition out_of_fuel : exn := mkExn (ExtBaseException "out of fuel") "".

Definition default_block : Z := 1000000.

(** [fingerprinter.hash()[self.digest_algorithm().name]] with a new fingerprinter,
    structures.py:533-536. *)
Definition compute_hash (E : env) (fuel : nat) (alg : string) : M world bytes :=
  fun w =>
    match add_authenticode_hashers (fp_new [] (w_file w) default_block) [alg] with
    | (st, Err e) => (mkWorld (w_stores w) (w_contexts w) (fp_file st), Err e)
    | (st, Ok _) =>
        match hash (e_hash E) fuel st with
        | None => (w, Err out_of_fuel)
        | Some (st', r) =>
            (mkWorld (w_stores w) (w_contexts w) (fp_file st'),
             let? d := r in
             match dict_get alg d with Some h => Ok h | None => raise KeyError alg end)
        end
    end.

(** The contexts of structures.py:486-514: the context of the signer, and the context of the
    countersigner if there is one to be checked. *)
Definition prepare_contexts (a : asd) (v : vargs) : M world (nat * option nat) :=
  do certs <- alloc_store (embedded_store (asd_data a)) ;
  do x <- match va_context v with
          | Some x => mret x
          | None => new_context [va_trusted v; certs] "code_signing" (va_kwargs v)
          end ;
  match va_cs_context v, asi_cs (asd_signer a) with
  | None, Some c =>
      if String.eqb (va_mode v) "ignore" then mret (x, None)
      else
        do y <- new_context [va_trusted v; certs] "time_stamping" (va_kwargs v) ;
        match c with
        | CSToken t =>
            do more <- alloc_store (embedded_store (r_data t)) ;
            add_store y more ;;
            mret (x, Some y)
        | CSPlain _ => mret (x, Some y)
        end
  | y, _ => mret (x, y)
  end.

(** The digest checks, structures.py:516-547. *)
Definition check_digests (E : env) (fuel : nat) (a : asd) (expected : option bytes) : M world unit :=
  let d := asd_data a in
  let i := asi_info (asd_signer a) in
  if negb (String.eqb (sd_digest_alg d) (sp_digest_alg (asd_spc a))) then
    mraise AuthenticodeInconsistentDigestAlgorithmError
      "SignedData.digestAlgorithm must equal SpcInfo.digestAlgorithm" else
  if negb (String.eqb (sd_digest_alg d) (si_digest_alg i)) then
    mraise AuthenticodeInconsistentDigestAlgorithmError
      "SignedData.digestAlgorithm must equal SignerInfo.digestAlgorithm" else
  do expected_hash <- match expected with
                      | Some h => mret h
                      | None => if asd_pe a then compute_hash E fuel (sd_digest_alg d)
                                else mraise AssertionError ""
                      end ;
  if negb (bytes_eqb expected_hash (sp_digest (asd_spc a))) then
    mraise AuthenticodeInvalidDigestError "The expected hash does not match the digest in SpcInfo" else
  if negb (option_bytes_eqb (content_digest E d) (si_message_digest i)) then
    mraise AuthenticodeInvalidDigestError "The expected hash of the SpcInfo does not match SignerInfo"
  else mret tt.

(** The body of the try statement, structures.py:558-575. *)
Definition check_countersigner (E : env) (a : asd) (c : countersigner) (y : nat) (trusted : nat)
  : M world unit :=
  if negb (check_message_digest E c (si_signature (asi_info (asd_signer a)))) then
    mraise AuthenticodeCounterSignerError "The expected hash of the encryptedDigest does not match"
  else
    set_timestamp y (cs_signing_time c) ;;
    cs_verify E c y trusted ;;
    mret tt.

(** The countersignature, structures.py:552-585: the signing time for the chain of the
    signer.  A missing context fails the assertion of structures.py:554. *)
Definition countersignature_time (E : env) (a : asd) (v : vargs) (y : option nat) : M world (option datetime) :=
  match asi_cs (asd_signer a) with
  | None => mret None
  | Some c =>
      if String.eqb (va_mode v) "ignore" then mret None
      else
        match y with
        | None => mraise AssertionError ""
        | Some y => fun w =>
            match check_countersigner E a c y (va_trusted v) w with
            | (w', Ok _) => (w', Ok (cs_signing_time c))
            | (w', Err e) =>
                if catches Exception_ e then
                  if String.eqb (va_mode v) "strict"
                  then (w', raise AuthenticodeCounterSignerError
                              "An error occurred while validating the countersignature")
                  else (w', Ok None)
                else (w', Err e)
            end
        end
  end.

(** [AuthenticodeSignedData.verify], structures.py:427-587. *)
Definition asd_verify (E : env) (fuel : nat) (a : asd) (expected : option bytes) (v : vargs)
  : M world (list (list cert)) :=
  do p <- prepare_contexts a v ;
  check_digests E fuel a expected ;;
  do signing_time <- countersignature_time E a v (snd p) ;
  signer_verify E true (asi_info (asd_signer a)) (fst p) signing_time.

(** ** SignedPEFile *)

(** [recursive_nested], signed_pe.py:294-301. *)
Fixpoint recursive_nested (include_nested : bool) (a : asd) : list asd :=
  a :: (if include_nested then
          match a with
          | ASD _ _ (ASI _ _ nested) _ => flat_map (recursive_nested include_nested) nested
          end
        else []).

Definition not_found : exn :=
  mkExn SignedPEParseError "A SignedData structure was not found in the PE file's Certificate Table".

(** The loop of [iter_signed_datas], signed_pe.py:303-322, over the generator [g]: the
    objects yielded and the exception that ended it, if any; None = not finished after
    [fuel] steps. *)
Fixpoint iter_loop (load : loader) (depth : nat) (include_nested : bool) (fuel : nat) (flen : Z)
  (g : cert_gen) (found : bool) (f : file) : option (file * (list asd * option exn)) :=
  match fuel with
  | O => None
  | S fuel' =>
      match cert_table_next flen g f with
      | (f', Err e) => Some (f', ([], Some e))
      | (f', Ok (_, None)) => Some (f', ([], if found then None else Some not_found))
      | (f', Ok (g', Some c)) =>
          if negb (ce_revision c =? 0x200) then
            Some (f', ([], Some (mkExn SignedPEParseError "Unknown certificate revision")))
          else if ce_type c =? 2 then
            match from_envelope load depth true (ce_certificate c) with
            | Err e => Some (f', ([], Some e))
            | Ok a =>
                match iter_loop load depth include_nested fuel' flen g' true f' with
                | None => None
                | Some (f'', (l, x)) => Some (f'', (recursive_nested include_nested a ++ l, x))
                end
            end
          else iter_loop load depth include_nested fuel' flen g' found f'
      end
  end.

(** [iter_signed_datas], signed_pe.py:266-325, exhausted; [flen] is [_filelength]. *)
Definition iter_signed_datas (load : loader) (depth : nat) (include_nested ignore_parse_errors : bool)
  (fuel : nat) (flen : Z) (f : file) : option (file * (list asd * option exn)) :=
  match iter_loop load depth include_nested fuel flen GStart false f with
  | Some (f', (l, Some e)) =>
      if catches SignedPEParseError e && ignore_parse_errors then Some (f', (l, None))
      else Some (f', (l, Some e))
  | r => r
  end.

(** [list(self.iter_signed_datas(ignore_parse_errors=...))], signed_pe.py:405-407. *)
Definition signed_datas (load : loader) (depth : nat) (ignore_parse_errors : bool) (fuel : nat) (flen : Z)
  : M world (list asd) :=
  fun w =>
    match iter_signed_datas load depth true ignore_parse_errors fuel flen (w_file w) with
    | None => (w, Err out_of_fuel)
    | Some (f', (l, x)) =>
        (mkWorld (w_stores w) (w_contexts w) f', match x with Some e => Err e | None => Ok l end)
    end.

(** A set as a list without repetitions, in the order of insertion. *)
Fixpoint str_add (x : string) (l : list string) : list string :=
  match l with
  | [] => [x]
  | y :: l' => if String.eqb x y then l else y :: str_add x l'
  end.
Definition str_set (l : list string) : list string := fold_left (fun s x => str_add x s) l [].

(** [{getattr(hashlib, t) for t in expected_hashes}], signed_pe.py:351.  The functions are
    identified with their names. *)
Fixpoint provided_hashes (E : env) (keys : list string) : res (list string) :=
  match keys with
  | [] => Ok []
  | k :: keys' =>
      if e_hashlib_has E k then let? l := provided_hashes E keys' in Ok (k :: l)
      else raise AttributeError "module 'hashlib' has no such attribute"
  end.

(** [_calculate_expected_hashes], signed_pe.py:327-360.  The dict is updated in place, so
    the result is also what the caller of [verify] finds in the dict it passed.  The order
    of the set of needed hashes is that of the signatures. *)
Definition calculate_expected_hashes (E : env) (fuel : nat) (l : list asd) (expected : dict bytes)
  : M world (dict bytes) :=
  let digest_algorithms := str_set (map (fun a => sd_digest_alg (asd_data a)) l) in
  do provided <- mres (provided_hashes E (map fst expected)) ;
  let needed := filter (fun x => negb (str_mem x provided)) digest_algorithms in
  match needed with
  | [] => mret expected
  | _ => fun w =>
      match add_authenticode_hashers (fp_new [] (w_file w) default_block) needed with
      | (st, Err e) => (mkWorld (w_stores w) (w_contexts w) (fp_file st), Err e)
      | (st, Ok _) =>
          match hashes (e_hash E) fuel st with
          | None => (w, Err out_of_fuel)
          | Some (st', r) =>
              (mkWorld (w_stores w) (w_contexts w) (fp_file st'),
               let? d := r in
               match dict_get "authentihash" d with
               | Some h => Ok (dict_update expected h)
               | None => raise KeyError "authentihash"
               end)
          end
      end
  end.

(** [max(..., key=...)], signed_pe.py:420-426: the first algorithm of the highest rank;
    [index] of an unknown one raises ValueError. *)
Definition rank (alg : string) : res Z :=
  match str_index alg accepted_digest_algorithms with
  | Some i => Ok i
  | None => raise ValueError "is not in list"
  end.
Fixpoint max_by_rank (best : string) (best_rank : Z) (l : list string) : res string :=
  match l with
  | [] => Ok best
  | a :: l' =>
      let? r := rank a in
      if best_rank <? r then max_by_rank a r l' else max_by_rank best best_rank l'
  end.
Definition best_algorithm (l : list string) : res string :=
  match l with
  | [] => raise ValueError "max() arg is an empty sequence"
  | a :: l' => let? r := rank a in max_by_rank a r l'
  end.

(** The selection of signed_pe.py:413-430. *)
Definition select_signed_datas (mode : string) (l : list asd) : res (list asd) :=
  if String.eqb mode "first" then
    match l with [] => raise IndexError "list index out of range" | a :: _ => Ok [a] end
  else if String.eqb mode "best" then
    let? b := best_algorithm (map (fun a => sd_digest_alg (asd_data a)) l) in
    Ok (filter (fun a => String.eqb (sd_digest_alg (asd_data a)) b) l)
  else Ok l.

(** [multi_verify_mode in ("all", "first")] *)
Definition every (mode : string) : bool := String.eqb mode "all" || String.eqb mode "first".

(** One iteration, signed_pe.py:440-450: the lookup of the hash is inside the try. *)
Definition verify_one (E : env) (fuel : nat) (hashes : dict bytes) (v : vargs) (a : asd)
  : M world (list (list cert)) :=
  match dict_get (sd_digest_alg (asd_data a)) hashes with
  | None => mraise KeyError (sd_digest_alg (asd_data a))
  | Some h => asd_verify E fuel a (Some h) v
  end.

(** The loop of signed_pe.py:434-464, over any verdicts: [one] is the call in the try. *)
Fixpoint verify_loop {A B} (mode : string) (one : A -> M world B) (l : list A)
  (chains : list (A * B)) (last_error : option exn) : M world (list (A * B)) :=
  match l with
  | [] => match last_error with None => mret chains | Some e => merr e end
  | a :: l' => fun w =>
      match one a w with
      | (w', Ok ch) =>
          if every mode then verify_loop mode one l' (chains ++ [(a, ch)]) last_error w'
          else (w', Ok [(a, ch)])
      | (w', Err e) =>
          if catches Exception_ e then
            if every mode then (w', Err e)
            else verify_loop mode one l' chains (Some e) w'
          else (w', Err e)
      end
  end.

(** [SignedPEFile.verify], signed_pe.py:362-464.  [expected] is the expected_hashes
    argument; the second component of the result is that dict after the call (None if no
    dict was passed).  [flen] is [_filelength]. *)
Definition pe_verify (load : loader) (E : env) (depth fuel : nat) (flen : Z) (mode : string)
  (expected : option (dict bytes)) (ignore_parse_errors : bool) (v : vargs) (w : world)
  : world * option (dict bytes) * res (list (asd * list (list cert))) :=
  match (do l <- signed_datas load depth ignore_parse_errors fuel flen ;
         match l with
         | [] => mraise AuthenticodeNotSignedError "No valid SignedData structure was found."
         | _ => mres (select_signed_datas mode l)
         end) w with
  | (w1, Err e) => (w1, expected, Err e)
  | (w1, Ok l) =>
      match calculate_expected_hashes E fuel l (match expected with Some d => d | None => [] end) w1 with
      | (w2, Err e) => (w2, expected, Err e)
      | (w2, Ok hashes) =>
          let (w3, r) := verify_loop mode (verify_one E fuel hashes v) l [] None w2 in
          (w3, option_map (fun _ => hashes) expected, r)
      end
  end.

(** [SignedPEFile(f).verify(...)]: the constructor, signed_pe.py:62-72, and the call. *)
Definition pe_open_verify (load : loader) (E : env) (depth fuel : nat) (mode : string)
  (expected : option (dict bytes)) (ignore_parse_errors : bool) (v : vargs) (w : world)
  : world * option (dict bytes) * res (list (asd * list (list cert))) :=
  let (f', flen) := signed_pe_init (w_file w) in
  pe_verify load E depth fuel flen mode expected ignore_parse_errors v
    (mkWorld (w_stores w) (w_contexts w) f').

(** ** explain_verify *)

(** AuthenticodeVerificationResult, structures.py:82-114. *)
Inductive status : Type :=
| OK | NOT_SIGNED | PARSE_ERROR | VERIFY_ERROR | UNKNOWN_ERROR | CERTIFICATE_ERROR
| INCONSISTENT_DIGEST_ALGORITHM | INVALID_DIGEST | COUNTERSIGNER_ERROR.

(** [AuthenticodeVerificationResult.call], structures.py:116-139. *)
Definition result_call {A} (r : res A) : res (status * option exn) :=
  match r with
  | Ok _ => Ok (OK, None)
  | Err e =>
      if catches SignedPEParseError e || catches AuthenticodeNotSignedError e then Ok (NOT_SIGNED, Some e)
      else if catches AuthenticodeInconsistentDigestAlgorithmError e then Ok (INCONSISTENT_DIGEST_ALGORITHM, Some e)
      else if catches AuthenticodeInvalidDigestError e then Ok (INVALID_DIGEST, Some e)
      else if catches AuthenticodeCounterSignerError e then Ok (COUNTERSIGNER_ERROR, Some e)
      else if catches CertificateVerificationError e then Ok (CERTIFICATE_ERROR, Some e)
      else if catches ParseError e then Ok (PARSE_ERROR, Some e)
      else if catches VerificationError e then Ok (VERIFY_ERROR, Some e)
      else if catches Exception_ e then Ok (UNKNOWN_ERROR, Some e)
      else Err e
  end.

(** [SignedPEFile.explain_verify], signed_pe.py:466-480. *)
Definition pe_explain_verify (load : loader) (E : env) (depth fuel : nat) (flen : Z) (mode : string)
  (expected : option (dict bytes)) (ignore_parse_errors : bool) (v : vargs) (w : world)
  : world * option (dict bytes) * res (status * option exn) :=
  let '(w', d, r) := pe_verify load E depth fuel flen mode expected ignore_parse_errors v w in
  (w', d, result_call r).

(** [AuthenticodeSignedData.explain_verify], structures.py:589-601. *)
Definition asd_explain_verify (E : env) (fuel : nat) (a : asd) (expected : option bytes) (v : vargs)
  : M world (status * option exn) :=
  fun w => let (w', r) := asd_verify E fuel a expected v w in (w', result_call r).
