(** Property C78: datetimes without a timezone. *)
From Verif Require Import Base Bytes Monad ModelFile ModelFingerprint ModelPE SpecPE ModelX509 SpecX509
  ModelContext SpecContext ModelPkcs7 ModelAuthenticode SpecAuthenticode SpecNaive ProofsNaive
  PropertiesX509 PropertiesContext PropertiesAuthenticode.

(** No certificate is verified at such a time; the error is ValueError, which is none of those
    that the library announces. *)
Theorem C78_context :
  forall E x c w cx l, needs_zone E -> nth_error (w_contexts w) x = Some cx ->
  stores_at w (x_stores cx) l -> zoneless (x_timestamp cx) ->
  (forall chain, snd (context_verify E x c w) <> Ok chain) /\
  (Forall readable l -> exists m, snd (context_verify E x c w) = raise ValueError m).
Proof.
  intros E x c w cx l Z Hc Hr N. split; [intros chain; now apply (context_never E x c w cx l)|].
  intros R. now apply (context_zoneless E x c w cx l).
Qed.
Print Assumptions C78_context.

(** Every chain that a verification returns was validated at the current time or at one with a
    timezone, whatever the signature, the countersignature and the caller say. *)
Theorem C78_chains :
  forall E fuel a expected v w w' chains cx l,
  needs_zone E -> asd_verify E fuel a expected v w = (w', Ok chains) -> signer_context w a v cx l ->
  distinct_contexts v -> (forall c, considered a v c -> exists cy ly, counter_context w a c v cy ly) ->
  Forall (signed_chain E (asi_info (asd_signer a)) cx l (fun _ t => ~ zoneless t)) chains.
Proof. exact c78_chains. Qed.
Print Assumptions C78_chains.

(** A countersignature that states such a time never counts. *)
Theorem C78_countersignature :
  forall E fuel a expected v w w' chains cx l c cy ly,
  needs_zone E -> asd_verify E fuel a expected v w = (w', Ok chains) -> signer_context w a v cx l ->
  distinct_contexts v -> considered a v c -> counter_context w a c v cy ly ->
  zoneless (counter_stated_time c) ->
  va_mode v <> "strict" /\
  (exists e, snd (asd_verify E fuel a expected (with_mode "strict" v) w) = Err e /\
             e_class e = AuthenticodeCounterSignerError) /\
  Forall (signed_chain E (asi_info (asd_signer a)) cx l (fun _ t => t = x_timestamp cx)) chains.
Proof. exact c78_counter. Qed.
Print Assumptions C78_countersignature.

Theorem C78_permitted :
  forall E fuel a expected v w c cx l cy ly,
  needs_zone E -> permissive (va_mode v) -> asi_cs (asd_signer a) = Some c -> zoneless (counter_stated_time c) ->
  distinct_contexts v -> kwargs_ok a v ->
  signer_context w a v cx l -> counter_context w a c v cy ly -> Forall readable l -> Forall readable ly ->
  snd (asd_verify E fuel a expected v w) = snd (asd_verify E fuel (with_cs None a) expected v w) \/
  exists e, snd (asd_verify E fuel a expected v w) = Err e /\ issubclass (e_class e) Exception_ = false.
Proof. exact c78_permit. Qed.
Print Assumptions C78_permitted.

(** A validator that is as strict about the moment as the libraries, for certificates that
    have not expired. *)
Definition ex_zenv : env :=
  with_validator (fun _ t _ _ _ => match t with Some (Naive _) => raise ValueError "moment is a naive datetime object" | _ => Ok tt end)
    (e_validate ex_venv) ex_venv.
Definition ex_zoneless : countersigner :=
  CSToken (mkRsd (mkSdata "sha256" "tst_info" [x0c] [ex_tsa])
    (mkTst "" "sha256" (x06 :: ex_encrypted) 5 (Naive 700) 0)
    (mkSinfo ex_int_name 5 (encode_attributes [x02]) "rsa" (encode_attributes [x02]) "sha256" (Some [x06; x0c])
       (Some "tst_info") None)).
Definition ex_zrun (cs : option countersigner) (v : vargs) : res (list (list cert)) :=
  snd (asd_verify ex_zenv 0 (ex_asd cs ex_certs) (Some [x07]) v ex_w).

Lemma ex_zenv_needs : needs_zone ex_zenv.
Proof. intros r us o. eexists. reflexivity. Qed.

(** The full statement for callers: verify raises errors of the verification, and
    explain_verify tells which.  It is false for a timestamp without a timezone, although the
    signature is good (the documentation, context.py:190-191, asks for one with a timezone;
    nothing checks it). *)
Theorem C78_refuted :
  exists E a expected v w us m,
    needs_zone E /\ kw_timestamp (va_kwargs v) = Some (Naive us) /\ usable w v a /\
    snd (asd_verify E 0 a expected v w) = raise ValueError m /\
    snd (asd_explain_verify E 0 a expected v w) = Ok (UNKNOWN_ERROR, Some (mkExn ValueError m)) /\
    issubclass ValueError VerificationError = false /\
    is_ok (snd (asd_verify E 0 a expected
      (mkVargs (va_context v) (va_cs_context v) (va_trusted v)
         (mkKwargs (Some (Aware us)) (kw_key_usages (va_kwargs v)) (kw_optional_eku (va_kwargs v))
            (kw_opts (va_kwargs v)) (kw_valid (va_kwargs v))) (va_mode v)) w)) = true.
Proof.
  exists ex_zenv, (ex_asd None ex_certs), (Some [x07]), (ex_kw (Some (Naive 700)) "strict"), ex_w. do 2 eexists.
  split; [exact ex_zenv_needs|]. split; [reflexivity|]. split.
  { split; [|intros c [[=] _]]. do 2 eexists. split; [exists ex_trusted; repeat split|].
    repeat constructor; discriminate. }
  vm_compute. repeat split.
Qed.
Print Assumptions C78_refuted.

(** The moment of a countersignature replaces that of the caller; one without a timezone is
    reported or ignored. *)
Example C78_run :
  zoneless (counter_stated_time ex_zoneless) /\ needs_zone ex_zenv /\
  usable ex_w (ex_v None None "permit") (ex_asd (Some ex_zoneless) ex_certs) /\
  ex_zrun (Some ex_token) (ex_v None None "strict") = Ok [[ex_root; ex_int; ex_leaf]] /\
  ex_zrun (Some ex_token) (ex_kw (Some (Naive 700)) "strict") = Ok [[ex_root; ex_int; ex_leaf]] /\
  ex_zrun (Some ex_zoneless) (ex_v None None "strict")
  = raise AuthenticodeCounterSignerError "An error occurred while validating the countersignature" /\
  ex_zrun (Some ex_zoneless) (ex_v None None "permit") = Ok [[ex_root; ex_int; ex_leaf]] /\
  ex_zrun (Some ex_zoneless) (ex_v None None "permit") = ex_zrun None (ex_v None None "permit") /\
  ex_zrun (Some ex_zoneless) (ex_v None None "ignore") = Ok [[ex_root; ex_int; ex_leaf]].
Proof.
  split; [now eexists|]. split; [exact ex_zenv_needs|]. split.
  { split.
    - do 2 eexists. split; [exists ex_trusted; repeat split|]. repeat constructor; discriminate.
    - intros c [[= <-] _]. do 2 eexists. split; [exists ex_trusted; repeat split|]. repeat constructor; discriminate. }
  vm_compute. repeat split.
Qed.

(** The same holds for the search over stores (C42): comparing such a time with one of a trust
    list raises TypeError, and a store that accepts the chain is not asked any more. *)
Theorem C42_naive_refuted :
  exists E w x c l root rest,
    nth_error (w_contexts w) x = Some c /\
    Forall2 (fun r s => nth_error (w_stores w) r = Some s) (x_stores c) l /\ reusable c /\ printable root /\
    Forall supported l /\
    (exists s, In s l /\ store_accepts E s (s_items s) (root :: rest) (asked_time E c) (asked_usages c)) /\
    exists m, verify_trust E x (root :: rest) w = (w, raise TypeError m).
Proof.
  set (s2 := mkStore [ex_root] true None None false).
  set (c := mkContext [0; 1]%nat (Some (Naive 1500)) None (Some (mkUsages false ["code_signing"])) false ex_opts).
  exists ex_zenv, (mkWorld [ex_trusted; s2] [c] ex_file), 0%nat, c, [ex_trusted; s2], ex_root, [ex_leaf].
  split; [reflexivity|]. split; [repeat constructor|]. split; [intros ? [= <-]; reflexivity|].
  split; [repeat constructor; eexists; reflexivity|]. split.
  - constructor; [intros t [= <-]; now left|]. constructor; [intros t [=]|constructor].
  - split.
    + exists s2. split; [now right; left|]. split; [reflexivity|]. split; [|intros t H; discriminate H].
      exists ex_root, [ex_leaf], ex_root. split; [reflexivity|]. split; [now left|reflexivity].
    + eexists. vm_compute. reflexivity.
Qed.
Print Assumptions C42_naive_refuted.
