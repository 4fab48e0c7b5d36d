(** What verification must establish, stated with the data types of the model and the
    vocabulary of the other specifications. *)
From Verif Require Import Base Monad ModelFile ModelFingerprint ModelPE SpecPE ModelX509 SpecX509
  ModelContext SpecContext ModelPkcs7 ModelAuthenticode.

(** ** Chains *)

(** The certificates of the trusted stores and those of the others. *)
Definition roots (l : list store) : list cert := concat (map contents (filter (fun s => s_trusted s) l)).
Definition intermediates (l : list store) : list cert :=
  concat (map contents (filter (fun s => negb (s_trusted s)) l)).

(** The usages that can still be read after they were read once. *)
Definition left_usages (cx : context) : list string :=
  match x_ekus cx with
  | Some u => if u_oneshot u then [] else u_items u
  | None => []
  end.

(** The validator can be set up and accepts [chain] for [c], and a store vouches for it, under
    the settings of [cx] with the stores [l]. *)
Definition chain_accepted (E : env) (cx : context) (l : list store) (c : cert) (chain : list cert) : Prop :=
  (e_validate E (roots l) (x_timestamp cx) (x_opts cx) c (intermediates l)
     (usage_list (x_key_usages cx)) (asked_usages cx) (x_optional_eku cx) = Ok (map c_id chain)) /\
  (forall d, In d chain -> d = c \/ In d (concat (map contents l))) /\
  (exists s, In s l /\ store_accepts E s (contents s) chain (asked_time E cx) (left_usages cx)) /\
  e_mk_validation E (roots l) (x_timestamp cx) (x_opts cx) c (intermediates l) = Ok tt.

(** The certificates that a signer names. *)
Definition named (i : sinfo) (c : cert) : Prop :=
  rdns (c_issuer c) = rdns (si_issuer i) /\ c_serial c = si_serial i.

(** The key of [c] verifies the encrypted digest over the re-encoded attributes. *)
Definition signs (E : env) (legacy : bool) (i : sinfo) (c : cert) : Prop :=
  scheme_accepts E (c_key c) (si_signature i) (si_encoded i) (si_digest_alg i) \/
  (legacy = true /\ legacy_accepts E (c_key c) (si_signature i) (si_encoded i) (si_digest_alg i)).

(** The context with another timestamp. *)
Definition at_time (t : option datetime) (cx : context) : context :=
  mkContext (x_stores cx) t (x_key_usages cx) (x_ekus cx) (x_optional_eku cx) (x_opts cx).

(** The same context after its usages may have been read, at a timestamp that is its own or
    satisfies [T]. *)
Definition used_usages (u : option usages) : option usages :=
  option_map (fun u => mkUsages (u_oneshot u) (if u_oneshot u then [] else u_items u)) u.
Definition evolved (T : option datetime -> Prop) (cx cx' : context) : Prop :=
  x_stores cx' = x_stores cx /\ x_optional_eku cx' = x_optional_eku cx /\ x_opts cx' = x_opts cx /\
  (x_key_usages cx' = x_key_usages cx \/ x_key_usages cx' = used_usages (x_key_usages cx)) /\
  (x_ekus cx' = x_ekus cx \/ x_ekus cx' = used_usages (x_ekus cx)) /\
  (x_timestamp cx' = x_timestamp cx \/ T (x_timestamp cx')).

(** [chain] was built for a certificate of the stores [l] that the signer names and whose key
    verifies the signature, and accepted under the settings of [cx], at a timestamp that
    satisfies [T]. *)
Definition signed_chain (E : env) (i : sinfo) (cx : context) (l : list store)
  (T : cert -> option datetime -> Prop) (chain : list cert) : Prop :=
  exists c cx', In c (concat (map contents l)) /\ named i c /\
    signs E (v_allow_legacy (x_opts cx)) i c /\
    evolved (fun _ => True) cx cx' /\ T c (x_timestamp cx') /\ chain_accepted E cx' l c chain.

(** ** Verdicts *)

Definition oks {A} (vs : list (res A)) : list A :=
  flat_map (fun v => match v with Ok a => [a] | Err _ => [] end) vs.
(** The error, if it is one, belongs to the verification. *)
Definition harmless {A} (v : res A) : Prop :=
  forall e, v = Err e -> issubclass (e_class e) VerificationError = true.

(** No usages of the context are lost by reading them. *)
Definition repeatable (cx : context) : Prop :=
  (forall u, x_key_usages cx = Some u -> u_oneshot u = false) /\
  (forall u, x_ekus cx = Some u -> u_oneshot u = false).

(** The certificate has the lifetime signing usage. *)
Definition lifetime (c : cert) : Prop :=
  exists us, c_eku c = Some us /\ In "microsoft_lifetime_signing" us.

(** The signing time applies to all certificates that the signer names, or to none. *)
Definition same_time (auth : bool) (st : option datetime) (i : sinfo) (certs : list cert) : Prop :=
  auth = false \/ st = None \/
  (forall c, In c certs -> named i c -> lifetime c) \/
  (forall c, In c certs -> named i c -> ~ lifetime c).

(** The candidates of a signer: the certificates of the stores that it names, in order,
    without equal ones. *)
Definition candidate_list (i : sinfo) (certs out : list cert) : Prop := firsts (named i) [] certs out.

(** ** The contexts of AuthenticodeSignedData.verify *)

Definition stores_at (w : world) (rs : list nat) (l : list store) : Prop :=
  Forall2 (fun r s => nth_error (w_stores w) r = Some s) rs l.

(** The certificates shipped with a signature, in a store that is not trusted. *)
Definition shipped (d : sdata) : store := mkStore (sd_certificates d) false None None false.

(** The documented default: the given usage, everything else from the keyword arguments. *)
Definition default_context (stores : list nat) (eku : string) (k : ctx_kwargs) : context :=
  mkContext stores (kw_timestamp k) (option_map (mkUsages false) (kw_key_usages k))
    (Some (mkUsages false [eku])) (kw_optional_eku k) (kw_opts k).

(** The context of the signer and its stores, found in [w] or to be created. *)
Definition signer_context (w : world) (a : asd) (v : vargs) (cx : context) (l : list store) : Prop :=
  match va_context v with
  | Some x => nth_error (w_contexts w) x = Some cx /\ stores_at w (x_stores cx) l
  | None => exists ts, nth_error (w_stores w) (va_trusted v) = Some ts /\
              l = [ts; shipped (asd_data a)] /\
              cx = default_context [va_trusted v; length (w_stores w)] "code_signing" (va_kwargs v)
  end.

(** The same for the countersigner. *)
Definition counter_context (w : world) (a : asd) (c : countersigner) (v : vargs) (cy : context)
  (l : list store) : Prop :=
  match va_cs_context v with
  | Some y => nth_error (w_contexts w) y = Some cy /\ stores_at w (x_stores cy) l
  | None => exists ts, nth_error (w_stores w) (va_trusted v) = Some ts /\
      match c with
      | CSPlain _ =>
          l = [ts; shipped (asd_data a)] /\
          cy = default_context [va_trusted v; length (w_stores w)] "time_stamping" (va_kwargs v)
      | CSToken t =>
          l = [ts; shipped (asd_data a); shipped (r_data t)] /\
          cy = default_context [va_trusted v; length (w_stores w); S (length (w_stores w))]
                 "time_stamping" (va_kwargs v)
      end
  end.

(** The countersignature is to be checked. *)
Definition considered (a : asd) (v : vargs) (c : countersigner) : Prop :=
  asi_cs (asd_signer a) = Some c /\ va_mode v <> "ignore".

(** The keyword arguments are not used, or accepted. *)
Definition kwargs_ok (a : asd) (v : vargs) : Prop :=
  kw_valid (va_kwargs v) = true \/
  (va_context v <> None /\ (va_cs_context v <> None \/ forall c, ~ considered a v c)).

(** ** Digests *)

(** The authentihash of a file: the digest of what is outside the omitted sections. *)
Definition authentihash_of (E : env) (data : bytes) (alg : string) (h : bytes) : Prop :=
  exists secs, snd (omit_sections (mkFile data 0)) = Ok (Some secs) /\
    h = e_hash E alg (kept (map snd secs) data).

Definition algorithms_agree (a : asd) : Prop :=
  sd_digest_alg (asd_data a) = sp_digest_alg (asd_spc a) /\
  sd_digest_alg (asd_data a) = si_digest_alg (asi_info (asd_signer a)).

(** The hash that the digest of the SpcInfo is compared with. *)
Definition expected_hash (E : env) (data : bytes) (a : asd) (expected : option bytes) (h : bytes) : Prop :=
  match expected with
  | Some h' => h = h'
  | None => asd_pe a = true /\ authentihash_of E data (sd_digest_alg (asd_data a)) h
  end.

(** The message digest is that of the signed content. *)
Definition content_matches (E : env) (d : sdata) (i : sinfo) : Prop :=
  si_message_digest i = Some (e_hash E (sd_digest_alg d) (sd_octets d)).

(** ** Countersignatures *)

(** The two contexts are not one object. *)
Definition distinct_contexts (v : vargs) : Prop :=
  forall x y, va_context v = Some x -> va_cs_context v = Some y -> x <> y.

(** The countersignature is of the encrypted digest [data]. *)
Definition covers (E : env) (c : countersigner) (data : bytes) : Prop :=
  match c with
  | CSPlain i => si_message_digest i = Some (e_hash E (si_digest_alg i) data)
  | CSToken t => ti_message_digest (r_tst t) = e_hash E (ti_hash_alg (r_tst t)) data
  end.
(** The signer of the countersignature. *)
Definition counter_signer (c : countersigner) : sinfo :=
  match c with CSPlain i => i | CSToken t => r_signer t end.
(** The time it states. *)
Definition counter_stated_time (c : countersigner) : option datetime :=
  match c with
  | CSPlain i => si_signing_time i
  | CSToken t => Some (ti_signing_time (r_tst t))
  end.

(** Some chain of the signer [i] is accepted under the settings of [cx] at its timestamp. *)
Definition signer_accepted (E : env) (i : sinfo) (cx : context) (l : list store) : Prop :=
  exists chain, signed_chain E i cx l (fun _ t => t = x_timestamp cx) chain.

(** The countersignature holds: it covers the encrypted digest, its own chain is accepted at
    the time it states, and the signed TSTInfo is the one shown. *)
Definition counter_holds (E : env) (a : asd) (c : countersigner) (cy : context) (l : list store) : Prop :=
  covers E c (si_signature (asi_info (asd_signer a))) /\
  signer_accepted E (counter_signer c) (at_time (counter_stated_time c) cy) l /\
  (forall t, c = CSToken t -> content_matches E (r_data t) (r_signer t)).

(** The same SignedData with another countersigner, or none. *)
Definition with_cs (o : option countersigner) (a : asd) : asd :=
  match a with ASD d spc (ASI i _ n) pe => ASD d spc (ASI i o n) pe end.

(** The same arguments with another countersignature_mode. *)
Definition with_mode (m : string) (v : vargs) : vargs :=
  mkVargs (va_context v) (va_cs_context v) (va_trusted v) (va_kwargs v) m.

(** A mode in which a countersignature is checked, and allowed to fail. *)
Definition permissive (m : string) : Prop := m <> "strict" /\ m <> "ignore".

(** The timestamp at which the chain of [c] is to be validated when the signing time is [st]:
    the lifetime of a certificate with the lifetime signing usage is not extended. *)
Definition validated_at (cx : context) (st : option datetime) (c : cert) (t : option datetime) : Prop :=
  match st with
  | None => t = x_timestamp cx
  | Some s => (~ lifetime c -> t = Some s) /\ (lifetime c -> t = x_timestamp cx \/ t = Some s)
  end.

(** ** Several verifications *)

(** What is left after verifying with the same arguments one after the other. *)
Fixpoint after_verifying (E : env) (fuel : nat) (v : vargs) (jobs : list (asd * option bytes)) (w : world) : world :=
  match jobs with
  | [] => w
  | (a, expected) :: jobs' => after_verifying E fuel v jobs' (fst (asd_verify E fuel a expected v w))
  end.

(** The contexts passed to all of them can be shared: their usages can be read repeatedly, and
    that of the signer is not passed together with a countersignature to be checked. *)
Definition shareable (w : world) (v : vargs) (l : list asd) : Prop :=
  (forall x, va_context v = Some x -> exists cx, nth_error (w_contexts w) x = Some cx /\ repeatable cx /\
     forall a c, In a l -> ~ considered a v c) /\
  (forall y, va_cs_context v = Some y -> exists cy, nth_error (w_contexts w) y = Some cy /\ repeatable cy).

(** The contexts used by a verification exist and their stores can be read. *)
Definition usable (w : world) (v : vargs) (a : asd) : Prop :=
  (exists cx l, signer_context w a v cx l /\ Forall readable l) /\
  (forall c, considered a v c -> exists cy l, counter_context w a c v cy l /\ Forall readable l).

(** ** Trust anchors *)

(** The same libraries with another validator. *)
Definition with_validator (mk : list cert -> option datetime -> vopts -> cert -> list cert -> res unit)
  (validate : list cert -> option datetime -> vopts -> cert -> list cert -> list string -> list string -> bool -> res (list Z))
  (E : env) : env :=
  mkEnv (e_hash E) (e_load_key E) (e_rsa_verify E) (e_dsa_verify E) (e_ecdsa_verify E) (e_now E)
    mk validate (e_hashlib_has E).
