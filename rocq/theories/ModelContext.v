(** Model of signify/authenticode/authroot.py (certificate trust lists) and
    signify/x509/context.py (certificate stores, verification contexts).
    No proofs in this file. *)
From Verif Require Import Base Monad ModelFile ModelX509.

(** ** Certificate trust lists *)

(** SubjectAttribute, asn1/ctl.py:137-170: the attribute type determines the type of its
    values (a SET OF).  FILETIME values are kept as contents octets.  [AtOther] stands for
    every other attribute type, with the number of its values. *)
Inductive ctl_attr : Type :=
| AtEnhkeyUsage (vals : list (list string))
| AtFriendlyName (vals : list ustr)
| AtKeyIdentifier (vals : list bytes)
| AtSubjectNameMd5 (vals : list bytes)
| AtAuthRootSha256 (vals : list bytes)
| AtDisallowedFiletime (vals : list bytes)
| AtChainPolicies (vals : list (list string))
| AtDisallowedEnhkeyUsage (vals : list (list string))
| AtNotBeforeFiletime (vals : list bytes)
| AtNotBeforeEnhkeyUsage (vals : list (list string))
| AtOther (typ : string) (count : nat).

(** TrustedSubject, asn1/ctl.py:183-197. *)
Record raw_subject := mkRawSubject { rs_identifier : bytes; rs_attributes : list ctl_attr }.

(** CertificateTrustSubject, authroot.py:246-257. *)
Record ctl_subject := mkSubject {
  ts_identifier : bytes;
  ts_ekus : option (list string);
  ts_friendly_name : option ustr;
  ts_key_identifier : bytes;
  ts_subject_name_md5 : bytes;
  ts_auth_root_sha256 : bytes;
  ts_disallowed_filetime : option Z;
  ts_chain_policies : option (list string);
  ts_disallowed_ekus : option (list string);
  ts_not_before_filetime : option Z;
  ts_not_before_ekus : option (list string)
}.

(** [attr["values"].native[0]], authroot.py:266. *)
Definition first_value {A} (l : list A) : res A :=
  match l with x :: _ => Ok x | [] => raise IndexError "list index out of range" end.

(** [.native] of all values of a SET OF FILETIME: every value is converted. *)
Fixpoint filetime_natives (l : list bytes) : res (list (option Z)) :=
  match l with
  | [] => Ok []
  | x :: l' => let? v := filetime_native x in
               let? vs := filetime_natives l' in Ok (v :: vs)
  end.

(** One step of the dict comprehension of authroot.py:265-268 together with the [.get]s of
    authroot.py:270-296: a later attribute of the same type replaces an earlier one. *)
Definition subject_attr (s : ctl_subject) (a : ctl_attr) : res ctl_subject :=
  match a with
  | AtEnhkeyUsage v => let? x := first_value v in
      Ok (mkSubject (ts_identifier s) (Some x) (ts_friendly_name s) (ts_key_identifier s)
            (ts_subject_name_md5 s) (ts_auth_root_sha256 s) (ts_disallowed_filetime s)
            (ts_chain_policies s) (ts_disallowed_ekus s) (ts_not_before_filetime s)
            (ts_not_before_ekus s))
  | AtFriendlyName v => let? x := first_value v in
      Ok (mkSubject (ts_identifier s) (ts_ekus s) (Some x) (ts_key_identifier s)
            (ts_subject_name_md5 s) (ts_auth_root_sha256 s) (ts_disallowed_filetime s)
            (ts_chain_policies s) (ts_disallowed_ekus s) (ts_not_before_filetime s)
            (ts_not_before_ekus s))
  | AtKeyIdentifier v => let? x := first_value v in
      Ok (mkSubject (ts_identifier s) (ts_ekus s) (ts_friendly_name s) x
            (ts_subject_name_md5 s) (ts_auth_root_sha256 s) (ts_disallowed_filetime s)
            (ts_chain_policies s) (ts_disallowed_ekus s) (ts_not_before_filetime s)
            (ts_not_before_ekus s))
  | AtSubjectNameMd5 v => let? x := first_value v in
      Ok (mkSubject (ts_identifier s) (ts_ekus s) (ts_friendly_name s) (ts_key_identifier s)
            x (ts_auth_root_sha256 s) (ts_disallowed_filetime s)
            (ts_chain_policies s) (ts_disallowed_ekus s) (ts_not_before_filetime s)
            (ts_not_before_ekus s))
  | AtAuthRootSha256 v => let? x := first_value v in
      Ok (mkSubject (ts_identifier s) (ts_ekus s) (ts_friendly_name s) (ts_key_identifier s)
            (ts_subject_name_md5 s) x (ts_disallowed_filetime s)
            (ts_chain_policies s) (ts_disallowed_ekus s) (ts_not_before_filetime s)
            (ts_not_before_ekus s))
  | AtDisallowedFiletime v => let? n := filetime_natives v in let? x := first_value n in
      Ok (mkSubject (ts_identifier s) (ts_ekus s) (ts_friendly_name s) (ts_key_identifier s)
            (ts_subject_name_md5 s) (ts_auth_root_sha256 s) x
            (ts_chain_policies s) (ts_disallowed_ekus s) (ts_not_before_filetime s)
            (ts_not_before_ekus s))
  | AtChainPolicies v => let? x := first_value v in
      Ok (mkSubject (ts_identifier s) (ts_ekus s) (ts_friendly_name s) (ts_key_identifier s)
            (ts_subject_name_md5 s) (ts_auth_root_sha256 s) (ts_disallowed_filetime s)
            (Some x) (ts_disallowed_ekus s) (ts_not_before_filetime s)
            (ts_not_before_ekus s))
  | AtDisallowedEnhkeyUsage v => let? x := first_value v in
      Ok (mkSubject (ts_identifier s) (ts_ekus s) (ts_friendly_name s) (ts_key_identifier s)
            (ts_subject_name_md5 s) (ts_auth_root_sha256 s) (ts_disallowed_filetime s)
            (ts_chain_policies s) (Some x) (ts_not_before_filetime s)
            (ts_not_before_ekus s))
  | AtNotBeforeFiletime v => let? n := filetime_natives v in let? x := first_value n in
      Ok (mkSubject (ts_identifier s) (ts_ekus s) (ts_friendly_name s) (ts_key_identifier s)
            (ts_subject_name_md5 s) (ts_auth_root_sha256 s) (ts_disallowed_filetime s)
            (ts_chain_policies s) (ts_disallowed_ekus s) x
            (ts_not_before_ekus s))
  | AtNotBeforeEnhkeyUsage v => let? x := first_value v in
      Ok (mkSubject (ts_identifier s) (ts_ekus s) (ts_friendly_name s) (ts_key_identifier s)
            (ts_subject_name_md5 s) (ts_auth_root_sha256 s) (ts_disallowed_filetime s)
            (ts_chain_policies s) (ts_disallowed_ekus s) (ts_not_before_filetime s)
            (Some x))
  | AtOther _ n => match n with
                   | O => raise IndexError "list index out of range"
                   | S _ => Ok s
                   end
  end.

Fixpoint subject_attrs (s : ctl_subject) (l : list ctl_attr) : res ctl_subject :=
  match l with
  | [] => Ok s
  | a :: l' => let? s' := subject_attr s a in subject_attrs s' l'
  end.

(** [CertificateTrustSubject._parse], authroot.py:263-296. *)
Definition parse_subject (r : raw_subject) : res ctl_subject :=
  subject_attrs (mkSubject (rs_identifier r) None None [] [] [] None None None None None)
                (rs_attributes r).

(** The part of CertificateTrustList used by verification, authroot.py:93-110: the subject
    algorithm and [_subjects], keyed by hexadecimal identifier. *)
Record ctl := mkCtl { ctl_algorithm : string; ctl_subjects : dict ctl_subject }.

(** The loop of authroot.py:104-109. *)
Fixpoint parse_subjects (d : dict ctl_subject) (l : list raw_subject) : res (dict ctl_subject) :=
  match l with
  | [] => Ok d
  | r :: l' => let? s := parse_subject r in
               parse_subjects (dict_set (hex (ts_identifier s)) s d) l'
  end.

(** [CertificateTrustList._parse], authroot.py:93-110, after the SignedData part: subject
    algorithm and subjects. *)
Definition parse_ctl (alg : algid) (l : list raw_subject) : res ctl :=
  let? a := get_digest_algorithm alg in
  let? d := parse_subjects [] l in
  Ok (mkCtl a d).

(** [CertificateTrustList.find_subject], authroot.py:136-155. *)
Definition find_subject (E : env) (t : ctl) (c : cert) : res (option ctl_subject) :=
  if String.eqb (ctl_algorithm t) "sha1" then
    Ok (dict_get (sha1_fingerprint E c) (ctl_subjects t))
  else if String.eqb (ctl_algorithm t) "sha256" then
    Ok (dict_get (sha256_fingerprint E c) (ctl_subjects t))
  else raise CertificateTrustListParseError "The specified subject algorithm is not yet supported".

(** [any(eku in l for eku in requested)] *)
Definition any_in (l requested : list string) : bool := existsb (fun u => str_mem u l) requested.

(** [CertificateTrustSubject.verify_trust], authroot.py:298-395, given the timestamp and the
    requested usages that it computes at authroot.py:311-319.  [chain[-1]] of an empty chain
    raises IndexError.  The messages are abbreviated; formatting them cannot fail. *)
Definition subject_verify_trust (s : ctl_subject) (chain : list cert) (timestamp : datetime)
  (requested : list string) : res bool :=
  let? _ :=
    match ts_ekus s with
    | Some (u :: us) =>
        if existsb (fun r => negb (str_mem r (u :: us))) requested
        then raise CTLCertificateVerificationError "lists its extended key usages" else Ok tt
    | _ => Ok tt
    end in
  let? _ :=
    match ts_not_before_filetime s with
    | Some nb =>
        match rev chain with
        | [] => raise IndexError "list index out of range"
        | c :: _ =>
            let? late := not_earlier (c_valid_from c) nb in
            if late then
              match ts_not_before_ekus s with
              | None => raise CTLCertificateVerificationError "disallowed for certificate issued after"
              | Some us => if any_in us requested
                           then raise CTLCertificateVerificationError "disallows requested EKU's to certificates issued after"
                           else Ok tt
              end
            else Ok tt
        end
    | None =>
        match ts_not_before_ekus s with
        | Some us => if any_in us requested
                     then raise CTLCertificateVerificationError "disallows requested EKU's (not before)"
                     else Ok tt
        | None => Ok tt
        end
    end in
  let? _ :=
    match ts_disallowed_filetime s with
    | Some dis =>
        let? late := not_earlier timestamp dis in
        if late then
          match ts_disallowed_ekus s with
          | None => raise CTLCertificateVerificationError "is disallowed since"
          | Some us => if any_in us requested
                       then raise CTLCertificateVerificationError "is disallowed for EKU's since"
                       else Ok tt
          end
        else Ok tt
    | None =>
        match ts_disallowed_ekus s with
        | Some us => if any_in us requested
                     then raise CTLCertificateVerificationError "disallows requested EKU's"
                     else Ok tt
        | None => Ok tt
        end
    end in
  Ok true.

(** ** The world: stores, contexts and the file being verified *)

(** What loading a location meets, file by file: the certificates that from_pems yields
    before it ends, and the exception that ends it, if any (context.py:159-167; a failing
    open or glob is a file with no certificate and an exception).  Simplified: the
    location does not change while the process runs. *)
Definition location := list (list cert * option exn).

(** CertificateStore, context.py:24-41, and FileSystemCertificateStore, context.py:133-147:
    [s_location] is None for the former. *)
Record store := mkStore {
  s_items : list cert;
  s_trusted : bool;
  s_ctl : option ctl;
  s_location : option location;
  s_loaded : bool
}.

(** [key_usages] and [extended_key_usages] may be any iterable (context.py:176-177); a
    one-shot iterator (a generator) is empty after it has been read once. *)
Record usages := mkUsages { u_oneshot : bool; u_items : list string }.

(** VerificationContext, context.py:218-228; stores are references. *)
Record context := mkContext {
  x_stores : list nat;
  x_timestamp : option datetime;
  x_key_usages : option usages;
  x_ekus : option usages;
  x_optional_eku : bool;
  x_opts : vopts
}.

(** Objects that are shared and mutated: stores and contexts, by reference, and the file
    object of the SignedPEFile. *)
Record world := mkWorld {
  w_stores : list store;
  w_contexts : list context;
  w_file : file
}.

Fixpoint list_set {A} (n : nat) (a : A) (l : list A) : list A :=
  match l, n with
  | [], _ => []
  | _ :: l', O => a :: l'
  | x :: l', S n' => x :: list_set n' a l'
  end.

(** Following a reference.  Python references never dangle; a dangling one is an explicit
    error in the model. *)
Definition dangling : exn := mkExn (ExtBaseException "dangling reference") "".

Definition get_store (r : nat) : M world store :=
  fun w => match nth_error (w_stores w) r with
           | Some s => (w, Ok s)
           | None => (w, Err dangling)
           end.
Definition put_store (r : nat) (s : store) : M world unit :=
  fun w => (mkWorld (list_set r s (w_stores w)) (w_contexts w) (w_file w), Ok tt).
Definition get_context (x : nat) : M world context :=
  fun w => match nth_error (w_contexts w) x with
           | Some c => (w, Ok c)
           | None => (w, Err dangling)
           end.
Definition put_context (x : nat) (c : context) : M world unit :=
  fun w => (mkWorld (w_stores w) (list_set x c (w_contexts w)) (w_file w), Ok tt).

(** ** CertificateStore *)

(** The loop of [_load], context.py:159-167.  [list.extend] of a generator appends the
    elements yielded before an exception. *)
Fixpoint load_files (items : list cert) (l : location) : list cert * option exn :=
  match l with
  | [] => (items, None)
  | (cs, None) :: l' => load_files (items ++ cs) l'
  | (cs, Some e) :: _ => (items ++ cs, Some e)
  end.

(** [_load], context.py:153-167; for a CertificateStore there is nothing to do. *)
Definition store_load (r : nat) : M world unit :=
  do s <- get_store r ;
  match s_location s with
  | None => mret tt
  | Some l =>
      if s_loaded s then mret tt
      else
        let (items, e) := load_files (s_items s) l in
        put_store r (mkStore items (s_trusted s) (s_ctl s) (s_location s) true) ;;
        match e with None => mret tt | Some e => merr e end
  end.

(** [iter(store)], context.py:145-147. *)
Definition store_iter (r : nat) : M world (list cert) :=
  store_load r ;;
  do s <- get_store r ;
  mret (s_items s).

(** [len(store)], context.py:149-151. *)
Definition store_len (r : nat) : M world Z :=
  store_load r ;;
  do s <- get_store r ;
  mret (zlen (s_items s)).

(** [append], context.py:43-44. *)
Definition store_append (r : nat) (c : cert) : M world unit :=
  do s <- get_store r ;
  put_store r (mkStore (s_items s ++ [c]) (s_trusted s) (s_ctl s) (s_location s) (s_loaded s)).

(** [is_trusted], context.py:64-76.  [in] on a list does not call [__iter__]: it looks at the
    items loaded so far. *)
Definition store_is_trusted (r : nat) (c : cert) : M world bool :=
  do s <- get_store r ;
  mret (s_trusted s && cert_mem c (s_items s)).

(** The criteria of [find_certificates], context.py:97-104. *)
Record query := mkQuery {
  q_subject : option name;
  q_serial : option Z;
  q_issuer : option name;
  q_sha256 : option string
}.

(** [s.replace(" ", "").lower()], for ASCII strings. *)
Definition lower_char (c : ascii) : ascii :=
  let n := nat_of_ascii c in
  if (65 <=? n)%nat && (n <=? 90)%nat then ascii_of_nat (n + 32) else c.
Fixpoint fp_norm (s : string) : string :=
  match s with
  | EmptyString => ""
  | String c s' => if Ascii.eqb c " " then fp_norm s' else String (lower_char c) (fp_norm s')
  end.

(** The filter of context.py:118-130. *)
Definition query_matches (E : env) (q : query) (c : cert) : bool :=
  match q_subject q with Some n => name_eqb (c_subject c) n | None => true end
  && match q_serial q with Some n => Z.eqb (c_serial c) n | None => true end
  && match q_issuer q with Some n => name_eqb (c_issuer c) n | None => true end
  && match q_sha256 q with
     | Some s => String.eqb (fp_norm (sha256_fingerprint E c)) (fp_norm s)
     | None => true
     end.

(** [CertificateStore.find_certificates], context.py:97-130, run to its end. *)
Definition store_find_certificates (E : env) (r : nat) (q : query) : M world (list cert) :=
  do l <- store_iter r ;
  mret (filter (query_matches E q) l).

(** [find_certificate], context.py:78-95 and 243-260: the only element. *)
Definition the_only (l : list cert) : res cert :=
  match l with
  | [] => raise KeyError "the specified certificate does not exist"
  | [c] => Ok c
  | _ => raise KeyError "there are multiple certificates matching the query"
  end.
Definition store_find_certificate (E : env) (r : nat) (q : query) : M world cert :=
  do l <- store_find_certificates E r q ;
  mres (the_only l).

(** ** VerificationContext *)

(** Reading an iterable of usages: a one-shot iterator is exhausted. *)
Definition exhaust (u : option usages) : option usages :=
  match u with
  | Some u => Some (mkUsages (u_oneshot u) (if u_oneshot u then [] else u_items u))
  | None => None
  end.
Definition usage_list (u : option usages) : list string :=
  match u with Some u => u_items u | None => [] end.

(** [context.extended_key_usages] read as a set, authroot.py:314-319 and context.py:365-367
    ([set()] for None and for the empty list). *)
Definition read_ekus (x : nat) : M world (list string) :=
  do c <- get_context x ;
  put_context x (mkContext (x_stores c) (x_timestamp c) (x_key_usages c) (exhaust (x_ekus c))
                           (x_optional_eku c) (x_opts c)) ;;
  mret (usage_list (x_ekus c)).
(** [self.key_usages] read as a set, context.py:364. *)
Definition read_key_usages (x : nat) : M world (list string) :=
  do c <- get_context x ;
  put_context x (mkContext (x_stores c) (x_timestamp c) (exhaust (x_key_usages c)) (x_ekus c)
                           (x_optional_eku c) (x_opts c)) ;;
  mret (usage_list (x_key_usages c)).
(** [context.timestamp = t] *)
Definition set_timestamp (x : nat) (t : option datetime) : M world unit :=
  do c <- get_context x ;
  put_context x (mkContext (x_stores c) t (x_key_usages c) (x_ekus c) (x_optional_eku c) (x_opts c)).
(** [add_store], context.py:230-232. *)
Definition add_store (x : nat) (r : nat) : M world unit :=
  do c <- get_context x ;
  put_context x (mkContext (x_stores c ++ [r]) (x_timestamp c) (x_key_usages c) (x_ekus c)
                           (x_optional_eku c) (x_opts c)).

(** [CertificateTrustList.verify_trust], authroot.py:119-134, with the reads of the context
    of authroot.py:311-319. *)
Definition ctl_verify_trust (E : env) (t : ctl) (chain : list cert) (x : nat) : M world bool :=
  match chain with
  | [] => mraise IndexError "list index out of range"
  | root :: _ =>
      do s <- mres (find_subject E t root) ;
      match s with
      | None => mres (raise_fmt root CTLCertificateVerificationError
                        "The root is not in the certificate trust list")
      | Some s =>
          do c <- get_context x ;
          let timestamp := match x_timestamp c with Some t => t | None => Aware (e_now E) end in
          do requested <- read_ekus x ;
          mres (subject_verify_trust s chain timestamp requested)
      end
  end.

(** [CertificateStore.verify_trust], context.py:46-62. *)
Definition store_verify_trust (E : env) (r : nat) (chain : list cert) (x : nat) : M world bool :=
  match chain with
  | [] => mraise IndexError "list index out of range"
  | root :: _ =>
      do t <- store_is_trusted r root ;
      if negb t then
        mres (raise_fmt root CertificateNotTrustedVerificationError
                "The certificate is not trusted by the store")
      else
        do s <- get_store r ;
        match s_ctl s with
        | Some ct => ctl_verify_trust E ct chain x ;; mret true
        | None => mret true
        end
  end.

(** [certificates], context.py:234-241, run to its end. *)
Fixpoint iter_stores (rs : list nat) : M world (list (nat * cert)) :=
  match rs with
  | [] => mret []
  | r :: rs' =>
      do l <- store_iter r ;
      do l' <- iter_stores rs' ;
      mret (map (fun c => (r, c)) l ++ l')
  end.
Definition context_certificates (x : nat) : M world (list cert) :=
  do c <- get_context x ;
  do l <- iter_stores (x_stores c) ;
  mret (map snd l).

(** The inner loop of [find_certificates], context.py:272-277.  [find_certificates] is a
    generator: [body] is what its consumer does with a certificate before asking for the
    next one, [acc] its accumulated result. *)
Fixpoint find_items {A} (E : env) (q : query) (body : cert -> A -> M world A)
  (l : list cert) (seen : list cert) (acc : A) : M world (list cert * A) :=
  match l with
  | [] => mret (seen, acc)
  | c :: l' =>
      if query_matches E q c then
        if cert_mem c seen then find_items E q body l' seen acc
        else
          do acc' <- body c acc ;
          find_items E q body l' (seen ++ [c]) acc'
      else find_items E q body l' seen acc
  end.
(** The outer loop of [find_certificates], context.py:271. *)
Fixpoint find_stores {A} (E : env) (q : query) (body : cert -> A -> M world A)
  (rs : list nat) (seen : list cert) (acc : A) : M world A :=
  match rs with
  | [] => mret acc
  | r :: rs' =>
      do l <- store_iter r ;
      do p <- find_items E q body l seen acc ;
      find_stores E q body rs' (fst p) (snd p)
  end.
(** [for certificate in context.find_certificates(q): body], context.py:262-277. *)
Definition for_certificates {A} (E : env) (x : nat) (q : query) (body : cert -> A -> M world A)
  (acc : A) : M world A :=
  do c <- get_context x ;
  find_stores E q body (x_stores c) [] acc.
(** [list(context.find_certificates(q))] *)
Definition find_certificates (E : env) (x : nat) (q : query) : M world (list cert) :=
  for_certificates E x q (fun c acc => mret (acc ++ [c])) [].
(** [find_certificate], context.py:243-260. *)
Definition find_certificate (E : env) (x : nat) (q : query) : M world cert :=
  do l <- find_certificates E x q ;
  mres (the_only l).

(** [is_trusted], context.py:376-391. *)
Fixpoint any_trusted (rs : list nat) (c : cert) : M world bool :=
  match rs with
  | [] => mret false
  | r :: rs' =>
      do t <- store_is_trusted r c ;
      if t then mret true else any_trusted rs' c
  end.
Definition is_trusted (x : nat) (c : cert) : M world bool :=
  do cx <- get_context x ;
  any_trusted (x_stores cx) c.

Definition by_subject (n : name) : query := mkQuery (Some n) None None None.

(** [potential_chains], context.py:279-311, run to its end.  Simplified: [depth] is a
    natural number (a negative depth behaves as 0), and chains yielded before an exception
    are dropped. *)
Fixpoint potential_chains (E : env) (x : nat) (depth : nat) (c : cert)
  : M world (list (list cert)) :=
  do t <- is_trusted x c ;
  if t then mret [[c]]
  else
    match depth with
    | O => mret []
    | S d =>
        for_certificates E x (by_subject (c_issuer c))
          (fun candidate acc =>
             do chains <- potential_chains E x d candidate ;
             mret (acc ++ map (fun ch => ch ++ [c])
                            (filter (fun ch => negb (cert_mem c ch)) chains)))
          []
    end.

(** The loop of [verify_trust], context.py:401-411: [last] is the variable [exc]. *)
Fixpoint verify_trust_loop (E : env) (x : nat) (chain : list cert) (rs : list nat)
  (last : option exn) : M world (bool * option exn) :=
  match rs with
  | [] => mret (false, last)
  | r :: rs' =>
      fun w =>
        match store_verify_trust E r chain x w with
        | (w', Ok b) => if b then (w', Ok (true, last)) else verify_trust_loop E x chain rs' last w'
        | (w', Err e) =>
            if catches CertificateNotTrustedVerificationError e
            then verify_trust_loop E x chain rs' last w'
            else if catches VerificationError e
            then verify_trust_loop E x chain rs' (Some e) w'
            else (w', Err e)
        end
  end.
(** [verify_trust], context.py:393-418. *)
Definition verify_trust (E : env) (x : nat) (chain : list cert) : M world bool :=
  do c <- get_context x ;
  do p <- verify_trust_loop E x chain (x_stores c) None ;
  if fst p then mret true
  else
    match snd p with
    | Some e => merr e
    | None => mraise CertificateVerificationError "The trust could not be verified"
    end.

(** [all_certs[x]], context.py:327-339 and 372: the last certificate registered for an
    asn1crypto object. *)
Fixpoint by_id (l : list cert) (i : Z) : option cert :=
  match l with
  | [] => None
  | c :: l' => match by_id l' i with
               | Some d => Some d
               | None => if Z.eqb (c_id c) i then Some c else None
               end
  end.
Fixpoint map_ids (l : list cert) (ids : list Z) : res (list cert) :=
  match ids with
  | [] => Ok []
  | i :: ids' =>
      match by_id l i with
      | None => raise KeyError "certificate"
      | Some c => let? cs := map_ids l ids' in Ok (c :: cs)
      end
  end.

(** The trust roots and intermediates collected by context.py:330-339. *)
Fixpoint pick_by (trusted : nat -> bool) (l : list (nat * cert)) : list cert :=
  match l with
  | [] => []
  | (r, c) :: l' => if trusted r then c :: pick_by trusted l' else pick_by trusted l'
  end.
Definition store_trusted (w : world) (r : nat) : bool :=
  match nth_error (w_stores w) r with Some s => s_trusted s | None => false end.

(** [VerificationContext.verify], context.py:313-374.  The constructors of
    ValidationContext and CertificateValidator are one call, [e_mk_validation]. *)
Definition context_verify (E : env) (x : nat) (c : cert) : M world (list cert) :=
  do cx <- get_context x ;
  do pairs <- iter_stores (x_stores cx) ;
  fun w0 =>
  (let trust_roots := pick_by (store_trusted w0) pairs in
   let intermediates := pick_by (fun r => negb (store_trusted w0 r)) pairs in
   let moment := x_timestamp cx in
   do _ <- mres (e_mk_validation E trust_roots moment (x_opts cx) c intermediates) ;
   do ids <-
     mtry (do ku <- read_key_usages x ;
           do eku <- read_ekus x ;
           mres (e_validate E trust_roots moment (x_opts cx) c intermediates ku eku
                            (x_optional_eku cx)))
          (catches Exception_)
          (fun e => mres (raise_fmt c CertificateVerificationError "Chain verification failed")) ;
   do chain <- mres (map_ids (c :: map snd pairs) ids) ;
   do _ <- verify_trust E x chain ;
   mret chain) w0.
