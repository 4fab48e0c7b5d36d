(** Model of verification with names that are decoded when they are compared or shown:
    signify/x509/certificates.py, signify/x509/context.py, signify/authenticode/authroot.py,
    signify/pkcs7/signerinfo.py, signify/authenticode/structures.py and
    signify/authenticode/signed_pe.py.  It is the model of ModelX509.v, ModelContext.v and
    ModelAuthenticode.v, where every name has been decoded, with the names of ModelName.v in
    the places that read one.  No proofs in this file. *)
From Verif Require Import Base Monad ModelFile ModelFingerprint ModelPE ModelX509 ModelContext
  ModelPkcs7 ModelAuthenticode ModelName.

(** The names of certificates, [issuer] and [subject] of certificates.py:109-112, and the name of
    the issuer in a SignerInfo, signerinfo.py:149, as they have been parsed (for names that cannot
    be decoded, the names in [cert] and [sinfo] mean nothing); the identity of Certificate objects. *)
Record names := mkNames {
  n_issuer : cert -> lz_name;
  n_subject : cert -> lz_name;
  n_signer : sinfo -> lz_name;
  n_object : cert -> Z
}.

(** A Certificate with names that have not been decoded, certificates.py:91-132. *)
Definition nd_cert (E : env) (U : names) (c : cert) : lz_certobj :=
  mkLzObj (n_object U c) (n_issuer U c) (c_serial c) (n_subject U c)
    (k_alg (c_key c)) (k_params (c_key c)) (k_bits (c_key c)) (sha256_fingerprint E c).

(** [certificate in l], context.py:76 and 274. *)
Definition nd_in (E : env) (U : names) (c : cert) (l : list cert) : res bool :=
  lz_cert_in (nd_cert E U c) (map (nd_cert E U) l).

(** Raise an exception whose message formats a certificate, certificates.py:134-138. *)
Definition nd_raise {A} (U : names) (c : cert) (k : exc_class) (m : string) : res A :=
  let? _ := lz_dn (n_subject U c) in raise k m.

(** [Certificate.verify_signature], certificates.py:192-245. *)
Definition nd_verify_signature (E : env) (U : names) (c : cert) (signature data : bytes) (alg : string)
  (allow_legacy : bool) : res unit :=
  let? pk_alg := e_load_key E (c_key c) in
  let? verify_func :=
    (if String.eqb pk_alg "rsa" then Ok (e_rsa_verify E)
     else if String.eqb pk_alg "dsa" then Ok (e_dsa_verify E)
     else if String.eqb pk_alg "ec" then Ok (e_ecdsa_verify E)
     else nd_raise U c CertificateVerificationError "Signature algorithm is unsupported") in
  match verify_func (c_key c) signature data alg with
  | Ok _ => Ok tt
  | Err e =>
      if negb (catches Exception_ e) then Err e
      else if negb allow_legacy || negb (String.eqb pk_alg "rsa")
      then nd_raise U c CertificateVerificationError "Invalid signature"
      else
        match e_rsa_verify E (c_key c) signature (e_hash E alg data) "raw" with
        | Ok _ => Ok tt
        | Err e' =>
            if negb (catches Exception_ e') then Err e'
            else nd_raise U c CertificateVerificationError "Invalid signature (legacy attempted)"
        end
  end.

(** ** Stores and contexts *)

(** [CertificateStore.is_trusted], context.py:64-76. *)
Definition nd_store_is_trusted (E : env) (U : names) (r : nat) (c : cert) : M world bool :=
  do s <- get_store r ;
  if s_trusted s then mres (nd_in E U c (s_items s)) else mret false.

(** [CertificateTrustList.verify_trust], authroot.py:119-134. *)
Definition nd_ctl_verify_trust (E : env) (U : names) (t : ctl) (chain : list cert) (x : nat) : M world bool :=
  match chain with
  | [] => mraise IndexError "list index out of range"
  | root :: _ =>
      do s <- mres (find_subject E t root) ;
      match s with
      | None => mres (nd_raise U root CTLCertificateVerificationError
                        "The root is not in the certificate trust list")
      | Some s =>
          do c <- get_context x ;
          let timestamp := match x_timestamp c with Some t => t | None => Aware (e_now E) end in
          do requested <- read_ekus x ;
          mres (subject_verify_trust s chain timestamp requested)
      end
  end.

(** [CertificateStore.verify_trust], context.py:46-62. *)
Definition nd_store_verify_trust (E : env) (U : names) (r : nat) (chain : list cert) (x : nat) : M world bool :=
  match chain with
  | [] => mraise IndexError "list index out of range"
  | root :: _ =>
      do t <- nd_store_is_trusted E U r root ;
      if negb t then
        mres (nd_raise U root CertificateNotTrustedVerificationError
                "The certificate is not trusted by the store")
      else
        do s <- get_store r ;
        match s_ctl s with
        | Some ct => nd_ctl_verify_trust E U ct chain x ;; mret true
        | None => mret true
        end
  end.

(** The inner loop of [find_certificates], context.py:272-277. *)
Fixpoint nd_find_items {A} (E : env) (U : names) (q : lz_query) (body : cert -> A -> M world A)
  (l : list cert) (seen : list cert) (acc : A) : M world (list cert * A) :=
  match l with
  | [] => mret (seen, acc)
  | c :: l' =>
      do m <- mres (lz_matches q (nd_cert E U c)) ;
      if m then
        do k <- mres (nd_in E U c seen) ;
        if k then nd_find_items E U q body l' seen acc
        else
          do acc' <- body c acc ;
          nd_find_items E U q body l' (seen ++ [c]) acc'
      else nd_find_items E U q body l' seen acc
  end.
(** The outer loop, context.py:271. *)
Fixpoint nd_find_stores {A} (E : env) (U : names) (q : lz_query) (body : cert -> A -> M world A)
  (rs : list nat) (seen : list cert) (acc : A) : M world A :=
  match rs with
  | [] => mret acc
  | r :: rs' =>
      do l <- store_iter r ;
      do p <- nd_find_items E U q body l seen acc ;
      nd_find_stores E U q body rs' (fst p) (snd p)
  end.
(** [for certificate in context.find_certificates(q): body], context.py:262-277. *)
Definition nd_for_certificates {A} (E : env) (U : names) (x : nat) (q : lz_query)
  (body : cert -> A -> M world A) (acc : A) : M world A :=
  do c <- get_context x ;
  nd_find_stores E U q body (x_stores c) [] acc.

(** The loop of [verify_trust], context.py:401-411. *)
Fixpoint nd_verify_trust_loop (E : env) (U : names) (x : nat) (chain : list cert) (rs : list nat)
  (last : option exn) : M world (bool * option exn) :=
  match rs with
  | [] => mret (false, last)
  | r :: rs' =>
      fun w =>
        match nd_store_verify_trust E U r chain x w with
        | (w', Ok b) => if b then (w', Ok (true, last)) else nd_verify_trust_loop E U x chain rs' last w'
        | (w', Err e) =>
            if catches CertificateNotTrustedVerificationError e
            then nd_verify_trust_loop E U x chain rs' last w'
            else if catches VerificationError e
            then nd_verify_trust_loop E U x chain rs' (Some e) w'
            else (w', Err e)
        end
  end.
(** [verify_trust], context.py:393-418. *)
Definition nd_verify_trust (E : env) (U : names) (x : nat) (chain : list cert) : M world bool :=
  do c <- get_context x ;
  do p <- nd_verify_trust_loop E U x chain (x_stores c) None ;
  if fst p then mret true
  else
    match snd p with
    | Some e => merr e
    | None => mraise CertificateVerificationError "The trust could not be verified"
    end.

(** [VerificationContext.verify], context.py:313-374. *)
Definition nd_context_verify (E : env) (U : names) (x : nat) (c : cert) : M world (list cert) :=
  do cx <- get_context x ;
  do pairs <- iter_stores (x_stores cx) ;
  fun w0 =>
  (let trust_roots := pick_by (store_trusted w0) pairs in
   let intermediates := pick_by (fun r => negb (store_trusted w0 r)) pairs in
   let moment := x_timestamp cx in
   do _ <- mres (e_mk_validation E trust_roots moment (x_opts cx) c intermediates) ;
   do ids <-
     mtry (do ku <- read_key_usages x ;
           do eku <- read_ekus x ;
           mres (e_validate E trust_roots moment (x_opts cx) c intermediates ku eku
                            (x_optional_eku cx)))
          (catches Exception_)
          (fun e => mres (nd_raise U c CertificateVerificationError "Chain verification failed")) ;
   do chain <- mres (map_ids (c :: map snd pairs) ids) ;
   do _ <- nd_verify_trust E U x chain ;
   mret chain) w0.

(** ** Signers *)

(** [_verify_issuer_signature], signerinfo.py:271-293. *)
Definition nd_verify_issuer_signature (E : env) (U : names) (i : sinfo) (c : cert) (allow_legacy : bool) : res unit :=
  match nd_verify_signature E U c (si_signature i) (si_encoded i) (si_digest_alg i) allow_legacy with
  | Ok _ => Ok tt
  | Err e =>
      if catches VerificationError e
      then nd_raise U c SignerInfoVerificationError "Could not verify the signer of the authenticated attributes"
      else Err e
  end.

(** [_verify_issuer], signerinfo.py:295-313 and structures.py:278-292. *)
Definition nd_verify_issuer (E : env) (U : names) (authenticode : bool) (i : sinfo) (x : nat)
  (signing_time : option datetime) (c : cert) : M world (list cert) :=
  let signing_time := if authenticode && lifetime_signing c then None else signing_time in
  do cx <- get_context x ;
  mres (nd_verify_issuer_signature E U i c (v_allow_legacy (x_opts cx))) ;;
  match signing_time with
  | Some t => set_timestamp x (Some t)
  | None => mret tt
  end ;;
  nd_context_verify E U x c.

(** The query of signerinfo.py:345-347. *)
Definition nd_by_issuer_serial (U : names) (i : sinfo) : lz_query :=
  mkLzQuery None (Some (si_serial i)) (Some (n_signer U i)) None.

(** The body of the loop of [_build_chain], signerinfo.py:345-356. *)
Definition nd_build_chain_body (E : env) (U : names) (authenticode : bool) (i : sinfo) (x : nat)
  (signing_time : option datetime) (c : cert) (acc : list (list cert) * first_error)
  : M world (list (list cert) * first_error) :=
  fun w =>
    match nd_verify_issuer E U authenticode i x signing_time c w with
    | (w', Ok chain) => (w', Ok (fst acc ++ [chain], FFalse))
    | (w', Err e) =>
        if catches VerificationError e
        then (w', Ok (fst acc, match snd acc with FNone => FErr e | f => f end))
        else (w', Err e)
    end.

(** [list(self._build_chain(context, signing_time))], signerinfo.py:315-359. *)
Definition nd_build_chain (E : env) (U : names) (authenticode : bool) (i : sinfo) (x : nat)
  (signing_time : option datetime) : M world (list (list cert)) :=
  do p <- nd_for_certificates E U x (nd_by_issuer_serial U i)
            (nd_build_chain_body E U authenticode i x signing_time) ([], FNone) ;
  match snd p with
  | FErr e => merr e
  | _ => mret (fst p)
  end.

(** [SignerInfo.verify], signerinfo.py:361-385. *)
Definition nd_signer_verify (E : env) (U : names) (authenticode : bool) (i : sinfo) (x : nat)
  (signing_time : option datetime) : M world (list (list cert)) :=
  do chains <- nd_build_chain E U authenticode i x signing_time ;
  match chains with
  | [] => mraise SignerInfoVerificationError "No valid certificate chain found to a trust anchor"
  | _ => mret chains
  end.

(** [RFC3161SignedData.verify(context)], structures.py:732-764, with a context. *)
Definition nd_rsd_verify (E : env) (U : names) (t : rsd) (x : nat) : M world (list (list cert)) :=
  if negb (option_bytes_eqb (content_digest E (r_data t)) (si_message_digest (r_signer t))) then
    mraise AuthenticodeCounterSignerError "The expected hash of the TstInfo does not match SignerInfo"
  else nd_signer_verify E U false (r_signer t) x None.

(** [countersigner.verify(cs_verification_context)], structures.py:563. *)
Definition nd_cs_verify (E : env) (U : names) (c : countersigner) (x : nat) : M world (list (list cert)) :=
  match c with
  | CSPlain i => nd_signer_verify E U false i x None
  | CSToken t => nd_rsd_verify E U t x
  end.

(** The body of the try statement, structures.py:558-575. *)
Definition nd_check_countersigner (E : env) (U : names) (a : asd) (c : countersigner) (y : nat) : M world unit :=
  if negb (check_message_digest E c (si_signature (asi_info (asd_signer a)))) then
    mraise AuthenticodeCounterSignerError "The expected hash of the encryptedDigest does not match"
  else
    set_timestamp y (cs_signing_time c) ;;
    nd_cs_verify E U c y ;;
    mret tt.

(** The countersignature, structures.py:552-585. *)
Definition nd_countersignature_time (E : env) (U : names) (a : asd) (v : vargs) (y : option nat)
  : M world (option datetime) :=
  match asi_cs (asd_signer a) with
  | None => mret None
  | Some c =>
      if String.eqb (va_mode v) "ignore" then mret None
      else
        match y with
        | None => mraise AssertionError ""
        | Some y => fun w =>
            match nd_check_countersigner E U a c y w with
            | (w', Ok _) => (w', Ok (cs_signing_time c))
            | (w', Err e) =>
                if catches Exception_ e then
                  if String.eqb (va_mode v) "strict"
                  then (w', raise AuthenticodeCounterSignerError
                              "An error occurred while validating the countersignature")
                  else (w', Ok None)
                else (w', Err e)
            end
        end
  end.

(** [AuthenticodeSignedData.verify], structures.py:427-587. *)
Definition nd_asd_verify (E : env) (U : names) (fuel : nat) (a : asd) (expected : option bytes) (v : vargs)
  : M world (list (list cert)) :=
  do p <- prepare_contexts a v ;
  check_digests E fuel a expected ;;
  do signing_time <- nd_countersignature_time E U a v (snd p) ;
  nd_signer_verify E U true (asi_info (asd_signer a)) (fst p) signing_time.

(** One iteration, signed_pe.py:440-450. *)
Definition nd_verify_one (E : env) (U : names) (fuel : nat) (hashes : dict bytes) (v : vargs) (a : asd)
  : M world (list (list cert)) :=
  match dict_get (sd_digest_alg (asd_data a)) hashes with
  | None => mraise KeyError (sd_digest_alg (asd_data a))
  | Some h => nd_asd_verify E U fuel a (Some h) v
  end.

(** [SignedPEFile.verify], signed_pe.py:362-464. *)
Definition nd_pe_verify (load : loader) (E : env) (U : names) (depth fuel : nat) (flen : Z) (mode : string)
  (expected : option (dict bytes)) (ignore_parse_errors : bool) (v : vargs) (w : world)
  : world * option (dict bytes) * res (list (asd * list (list cert))) :=
  match (do l <- signed_datas load depth ignore_parse_errors fuel flen ;
         match l with
         | [] => mraise AuthenticodeNotSignedError "No valid SignedData structure was found."
         | _ => mres (select_signed_datas mode l)
         end) w with
  | (w1, Err e) => (w1, expected, Err e)
  | (w1, Ok l) =>
      match calculate_expected_hashes E fuel l (match expected with Some d => d | None => [] end) w1 with
      | (w2, Err e) => (w2, expected, Err e)
      | (w2, Ok hashes) =>
          let (w3, r) := verify_loop mode (nd_verify_one E U fuel hashes v) l [] None w2 in
          (w3, option_map (fun _ => hashes) expected, r)
      end
  end.

(** [SignedPEFile(f).verify(...)], signed_pe.py:62-72 and 362-464. *)
Definition nd_pe_open_verify (load : loader) (E : env) (U : names) (depth fuel : nat) (mode : string)
  (expected : option (dict bytes)) (ignore_parse_errors : bool) (v : vargs) (w : world)
  : world * option (dict bytes) * res (list (asd * list (list cert))) :=
  let (f', flen) := signed_pe_init (w_file w) in
  nd_pe_verify load E U depth fuel flen mode expected ignore_parse_errors v
    (mkWorld (w_stores w) (w_contexts w) f').
