(** When exactly a signature and a file are accepted, for any number of candidates and in all
    modes, stated with the vocabulary of the other specifications. *)
From Verif Require Import Base ModelFile ModelX509 SpecX509 ModelContext SpecContext ModelPkcs7 ModelAuthenticode
  SpecAuthenticode SpecSignedPE SpecComplete.

(** ** Libraries *)

(** An ordinary exception that is none of signify's verification errors. *)
Definition foreign (e : exn) : Prop := ordinary e /\ issubclass (e_class e) VerificationError = false.

(** The libraries raise ordinary exceptions, those outside the reach of a handler of signify
    no verification errors of signify. *)
Definition lawful (E : env) : Prop :=
  (forall k e, e_load_key E k = Err e -> foreign e) /\
  (forall k s d a e, e_rsa_verify E k s d a = Err e -> ordinary e) /\
  (forall k s d a e, e_dsa_verify E k s d a = Err e -> ordinary e) /\
  (forall k s d a e, e_ecdsa_verify E k s d a = Err e -> ordinary e) /\
  (forall r t o c i e, e_mk_validation E r t o c i = Err e -> foreign e) /\
  (forall r t o c i ku eku b e, e_validate E r t o c i ku eku b = Err e -> ordinary e).

(** ** Candidates *)

(** The key of [c] is not the one that signed, and this can be reported. *)
Definition declines (E : env) (legacy : bool) (i : sinfo) (c : cert) : Prop :=
  ~ signs E legacy i c /\ (exists k, e_load_key E (c_key c) = Ok k) /\ printable c.

(** The context after its usages were read. *)
Definition spent (cx : context) : context :=
  mkContext (x_stores cx) (x_timestamp cx) (used_usages (x_key_usages cx)) (used_usages (x_ekus cx))
            (x_optional_eku cx) (x_opts cx).

(** The validator is asked for a chain for [c]. *)
Definition answer (E : env) (cx : context) (l : list store) (c : cert) : res (list Z) :=
  e_validate E (roots l) (x_timestamp cx) (x_opts cx) c (intermediates l)
    (usage_list (x_key_usages cx)) (asked_usages cx) (x_optional_eku cx).

(** The validator finds [chain] for [c], which is made of certificates of the stores, and a
    store vouches for it, for the usages that can still be read. *)
Definition valid_chain (E : env) (cx : context) (l : list store) (c : cert) (chain : list cert) : Prop :=
  e_mk_validation E (roots l) (x_timestamp cx) (x_opts cx) c (intermediates l) = Ok tt /\
  answer E cx l c = Ok (map c_id chain) /\
  incl chain (c :: concat (map contents l)) /\
  vouches E contents l chain (asked_time E cx) (left_usages cx).

(** No chain is accepted for [c], and this can be reported: the validator finds none, or no
    store vouches for the one it finds and none fails at it. *)
Definition refuses (E : env) (cx : context) (l : list store) (c : cert) : Prop :=
  e_mk_validation E (roots l) (x_timestamp cx) (x_opts cx) c (intermediates l) = Ok tt /\
  (((exists e, answer E cx l c = Err e) /\ printable c) \/
   (exists root rest, answer E cx l c = Ok (map c_id (root :: rest)) /\
      incl (root :: rest) (c :: concat (map contents l)) /\
      ~ vouches E contents l (root :: rest) (asked_time E cx) (left_usages cx) /\
      Forall (fun s => passes_over E s (contents s) (root :: rest) (asked_time E cx) (left_usages cx)) l)).

(** The timestamp for [c] if the one before it was [t] and the signature was made at [st]; this
    time is of no avail to the certificates that satisfy [exempt]. *)
Definition next_time (exempt : cert -> Prop) (st t : option datetime) (c : cert) (t' : option datetime) : Prop :=
  (st = None \/ exempt c -> t' = t) /\ (st <> None -> ~ exempt c -> t' = st).
Definition none_exempt (c : cert) : Prop := False.

(** The candidates, tried in order, yield these chains. The context keeps the time at which it
    was used last, and loses usages that can be read once only. *)
Inductive search (E : env) (i : sinfo) (l : list store) (exempt : cert -> Prop) (st : option datetime)
  : context -> list cert -> list (list cert) -> Prop :=
| search_end cx : search E i l exempt st cx [] []
| search_accepts cx t c cs chain chains :
    signs E (v_allow_legacy (x_opts cx)) i c -> next_time exempt st (x_timestamp cx) c t ->
    valid_chain E (at_time t cx) l c chain ->
    search E i l exempt st (spent (at_time t cx)) cs chains -> search E i l exempt st cx (c :: cs) (chain :: chains)
| search_refuses cx t c cs chains :
    signs E (v_allow_legacy (x_opts cx)) i c -> next_time exempt st (x_timestamp cx) c t ->
    refuses E (at_time t cx) l c ->
    search E i l exempt st (spent (at_time t cx)) cs chains -> search E i l exempt st cx (c :: cs) chains
| search_declines cx c cs chains :
    declines E (v_allow_legacy (x_opts cx)) i c ->
    search E i l exempt st cx cs chains -> search E i l exempt st cx (c :: cs) chains.

(** The chains of the signer [i]: there is one, from the candidates in the stores. *)
Definition chains_of (E : env) (i : sinfo) (cx : context) (l : list store)
  (exempt : cert -> Prop) (st : option datetime) (chains : list (list cert)) : Prop :=
  chains <> [] /\ exists cs, candidate_list i (concat (map contents l)) cs /\ search E i l exempt st cx cs chains.

(** ** SignedData *)

Definition countersigned (E : env) (a : asd) (c : countersigner) (cy : context) (l : list store) : Prop :=
  covers E c (si_signature (asi_info (asd_signer a))) /\
  (forall t, c = CSToken t -> content_matches E (r_data t) (r_signer t)) /\
  exists chains, chains_of E (counter_signer c) (at_time (counter_stated_time c) cy) l none_exempt None chains.

(** The time at which the signature is taken to have been made: that of a valid
    countersignature; an invalid one is passed over unless the mode is "strict". *)
Definition made_at (E : env) (w : world) (v : vargs) (a : asd) (st : option datetime) : Prop :=
  (forall c, considered a v c -> exists cy ly, counter_context w a c v cy ly /\
     ((countersigned E a c cy ly /\ st = counter_stated_time c) \/
      (~ countersigned E a c cy ly /\ va_mode v <> "strict" /\ st = None))) /\
  ((forall c, ~ considered a v c) -> st = None).

Definition authentic (E : env) (w : world) (v : vargs) (a : asd) (h : bytes) (chains : list (list cert)) : Prop :=
  kwargs_ok a v /\
  algorithms_agree a /\ sp_digest (asd_spc a) = h /\ content_matches E (asd_data a) (asi_info (asd_signer a)) /\
  exists cx l st, signer_context w a v cx l /\ made_at E w v a st /\
    chains_of E (asi_info (asd_signer a)) cx l lifetime st chains.

(** The stores can be read and have no two certificates of one identity. *)
Definition sound (l : list store) : Prop := Forall readable l /\ identified (concat (map contents l)).
(** The contexts exist and have such stores. *)
Definition tidy (w : world) (v : vargs) (a : asd) : Prop :=
  distinct_contexts v /\
  (exists cx l, signer_context w a v cx l /\ sound l) /\
  (forall c, considered a v c -> exists cy ly, counter_context w a c v cy ly /\ sound ly).

(** ** Files *)

Definition authentic_for (E : env) (w : world) (v : vargs) (expected : option (dict bytes)) (a : asd)
  (chains : list (list cert)) : Prop :=
  exists h, due E (f_bytes (w_file w)) expected (digest_of a) h /\ authentic E w v a h chains.

(** The signatures [l] of a file are accepted as [out]. *)
Definition accepted_as (E : env) (w : world) (v : vargs) (expected : option (dict bytes)) (mode : string)
  (l : list asd) (out : list (asd * list (list cert))) : Prop :=
  exists sel, chosen mode l sel /\
  (conjunctive mode -> Forall2 (fun a ac => fst ac = a /\ authentic_for E w v expected a (snd ac)) sel out) /\
  (~ conjunctive mode -> exists pre a post chains, sel = pre ++ a :: post /\ out = [(a, chains)] /\
     authentic_for E w v expected a chains /\
     forall b, In b pre -> forall chains, ~ authentic_for E w v expected b chains).

(** ** Time-stamp tokens on their own *)

(** The context of the verification of a token: the one given, or one with the trusted store,
    the certificates of the token, no timestamp, the one usage "time_stamping", which need not be
    present, weak digests allowed, soft-fail revocation, nothing fetched and no CRLs or OCSP
    responses. *)
Definition token_context (w : world) (t : rsd) (given : option nat) (trusted : nat) (cx : context) (l : list store)
  : Prop :=
  match given with
  | Some x => nth_error (w_contexts w) x = Some cx /\ stores_at w (x_stores cx) l
  | None => exists ts, nth_error (w_stores w) trusted = Some ts /\ l = [ts; shipped (r_data t)] /\
      cx = mkContext [trusted; length (w_stores w)] None None (Some (mkUsages false ["time_stamping"])) true
             (mkVopts true "soft-fail" false 30 [] [])
  end.

Definition token_authentic (E : env) (w : world) (t : rsd) (given : option nat) (trusted : nat)
  (chains : list (list cert)) : Prop :=
  content_matches E (r_data t) (r_signer t) /\
  exists cx l, token_context w t given trusted cx l /\ chains_of E (r_signer t) cx l none_exempt None chains.
