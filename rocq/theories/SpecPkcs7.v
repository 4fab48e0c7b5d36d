(** What a signature structure must look like, stated on the decoded ASN.1 values; only the
    data types of the model and the encoder [encode_attributes] (characterised by C51) are
    used. *)
From Verif Require Import Base ModelX509 ModelPkcs7.

(** ** DER lengths (X.690, 8.1.3 and 10.1) *)

Definition be_value (b : bytes) : Z := fold_left (fun v x => 256 * v + Z_of_byte x) b 0.

Inductive der_len : Z -> bytes -> Prop :=
| der_short n b : 0 <= n < 128 -> Z_of_byte b = n -> der_len n [b]
| der_long n b x l :
    128 <= n -> be_value (x :: l) = n -> Z_of_byte x <> 0 ->
    Z_of_byte b = 128 + zlen (x :: l) -> zlen (x :: l) <= 126 ->
    der_len n (b :: x :: l).

(** ** Attributes *)

(** The attribute selected by [f] that counts: the last one. *)
Definition has_attr {A} (f : raw_attr -> option A) (l : list raw_attr) (v : A) : Prop :=
  exists pre a post, l = pre ++ a :: post /\ f a = Some v /\ Forall (fun b => f b = None) post.
Definition no_attr {A} (f : raw_attr -> option A) (l : list raw_attr) : Prop :=
  Forall (fun b => f b = None) l.

(** Exactly one value, or no attribute at all. *)
Definition optional_attr {A} (f : raw_attr -> option (list A)) (l : list raw_attr) (o : option A) : Prop :=
  match o with Some v => has_attr f l [v] | None => no_attr f l end.

(** [n] is the name of an acceptable digest algorithm. *)
Definition accepted (a : algid) (n : string) : Prop :=
  alg_name a = n /\ In n ["md5"; "sha1"; "sha256"; "sha384"; "sha512"] /\ alg_has_params a = false.

(** ** Signer infos *)

Inductive signer_reads (need_time : bool) (expected : option string) : raw_si -> sinfo -> Prop :=
| signer_reads_intro issuer serial dalg signed contents salg sg unsigned alg md ct t :
    accepted dalg alg ->
    has_attr as_message_digest signed [md] ->
    has_attr as_content_type signed [ct] ->
    (forall e, expected = Some e -> ct = e) ->
    optional_attr as_signing_time signed t ->
    (need_time = true -> t <> None) ->
    signer_reads need_time expected
      (RawSI (SidIssuerSerial issuer serial) dalg signed contents salg sg unsigned)
      (mkSinfo issuer serial (encode_attributes contents) salg sg alg (Some md) (Some ct) t).

(** Countersigners, which may carry countersigners in turn. *)
Inductive counter_reads : raw_si -> sinfo -> Prop :=
| counter_reads_last r i :
    signer_reads true None r i -> no_attr as_counter_signature (unsigned_attrs r) -> counter_reads r i
| counter_reads_next r i c k :
    signer_reads true None r i -> has_attr as_counter_signature (unsigned_attrs r) [c] ->
    counter_reads c k -> counter_reads r i.

(** ** RFC 3161 tokens *)

(** Seconds, milliseconds and microseconds add up to a representable duration: less than
    10^9 days, also before the last summand is added. *)
Definition duration (us : Z) : Prop :=
  - (999999999 * 86400000000) <= us < 1000000000 * 86400000000.
Definition accuracy_fits (a : option (option Z * option Z * option Z)) (us : Z) : Prop :=
  match a with
  | None => us = 0
  | Some (s, ms, mu) =>
      let value o := match o with Some v => v | None => 0 end in
      us = value s * 1000000 + value ms * 1000 + value mu /\
      duration (value s * 1000000) /\ duration (value ms * 1000) /\ duration (value mu) /\
      duration (value s * 1000000 + value ms * 1000) /\ duration us
  end.

Definition tst_reads (t : raw_tst) (i : tst_info) : Prop :=
  rt_version t = "v1" /\ accepted (rt_hash_alg t) (ti_hash_alg i) /\
  accuracy_fits (rt_accuracy t) (ti_accuracy i) /\
  (forall k, rt_tsa t <> TsaOther k) /\
  ti_policy i = rt_policy t /\ ti_message_digest i = rt_hashed_message t /\
  ti_serial i = rt_serial t /\ ti_signing_time i = rt_gen_time t.

(** The certificates among the embedded ones, in their order. *)
Inductive certificates_of : list raw_choice -> list cert -> Prop :=
| certificates_nil : certificates_of [] []
| certificates_take c l m : certificates_of l m -> certificates_of (ChoiceCertificate c :: l) (c :: m)
| certificates_skip k l m : certificates_of l m -> certificates_of (ChoiceOther k :: l) m.

(** The common part of signed data: exactly one digest algorithm and the right type. *)
Definition data_reads (expected : string) (r : raw_sd) (d : sdata) : Prop :=
  match r with
  | RawSD algs ct content certs _ _ =>
      (exists a, algs = [a] /\ accepted a (sd_digest_alg d)) /\
      ct = expected /\ sd_content_type d = ct /\ sd_octets d = rc_octets content /\
      certificates_of certs (sd_certificates d)
  end.

Definition token_reads (r : raw_sd) (t : rsd) : Prop :=
  data_reads "tst_info" r (r_data t) /\
  (exists v, raw_value_of r = RVTst v /\ tst_reads v (r_tst t)) /\
  (exists s, raw_signers r = [s] /\ signer_reads false (Some "tst_info") s (r_signer t) /\
             no_attr as_counter_signature (unsigned_attrs s)).

(** ** Authenticode *)

Definition spc_reads (v : raw_spc) (s : spc_info) : Prop :=
  rp_type v = "microsoft_spc_pe_image_data" /\ rp_value v = true /\
  accepted (rp_digest_alg v) (sp_digest_alg s) /\ sp_digest s = rp_digest v.

(** At most one countersignature, of one of the two kinds. *)
Inductive cs_reads (unsigned : list raw_attr) : option countersigner -> Prop :=
| cs_none : no_attr as_counter_signature unsigned -> no_attr as_token unsigned -> cs_reads unsigned None
| cs_plain c k :
    has_attr as_counter_signature unsigned [c] -> counter_reads c k -> no_attr as_token unsigned ->
    cs_reads unsigned (Some (CSPlain k))
| cs_token s t :
    no_attr as_counter_signature unsigned -> has_attr as_token unsigned [RawSigned s] -> token_reads s t ->
    cs_reads unsigned (Some (CSToken t)).

Definition at_most_one (f : raw_attr -> option nat) (l : list raw_attr) : Prop :=
  no_attr f l \/ has_attr f l 1%nat.

Inductive asd_reads (pe : bool) : raw_sd -> asd -> Prop :=
| asd_reads_intro r d v spc s i cs nested :
    data_reads "microsoft_spc_indirect_data_content" r d ->
    raw_value_of r = RVSpc v -> spc_reads v spc ->
    raw_crls r = 0%nat ->
    raw_signers r = [s] ->
    signer_reads false (Some "microsoft_spc_indirect_data_content") s i ->
    at_most_one as_statement_type (signed_attrs s) -> at_most_one as_opus_info (signed_attrs s) ->
    cs_reads (unsigned_attrs s) cs ->
    nested_reads pe (unsigned_attrs s) nested ->
    asd_reads pe r (ASD d spc (ASI i cs nested) pe)
with nested_reads (pe : bool) : list raw_attr -> list asd -> Prop :=
| nested_none u : no_attr as_nested u -> nested_reads pe u []
| nested_some u l nested : has_attr as_nested u l -> all_read pe l nested -> nested_reads pe u nested
with all_read (pe : bool) : list raw_ci -> list asd -> Prop :=
| all_read_nil : all_read pe [] []
| all_read_cons s a l m : asd_reads pe s a -> all_read pe l m -> all_read pe (RawSigned s :: l) (a :: m).

(** ** Depth of nesting: the number of signatures and countersignatures within each other *)

Fixpoint height_attr (a : raw_attr) : nat :=
  match a with
  | ACounterSignature l => fold_right (fun s n => Nat.max (height_si s) n) 0%nat l
  | ANestedSignature l => fold_right (fun c n => Nat.max (height_ci c) n) 0%nat l
  | _ => 0%nat
  end
with height_si (s : raw_si) : nat :=
  match s with
  | RawSI _ _ _ _ _ _ u => S (fold_right (fun a n => Nat.max (height_attr a) n) 0%nat u)
  end
with height_ci (c : raw_ci) : nat :=
  match c with RawSigned s => height_sd s | RawOther _ _ => 0%nat end
with height_sd (r : raw_sd) : nat :=
  match r with
  | RawSD _ _ _ _ _ signers => S (fold_right (fun s n => Nat.max (Nat.pred (height_si s)) n) 0%nat signers)
  end.

(** ** Structures whose defects are all reported as parse errors

    One digest algorithm per signed data; contents that are present and of the kind that
    their type says; no countersignatures in the signers of RFC 3161 tokens; accuracies in
    range and authorities given by directory names; envelopes with content. *)

Definition regular_content (ct : string) (v : raw_value) : Prop :=
  (ct = "microsoft_spc_indirect_data_content" ->
   exists s, v = RVSpc s /\ (rp_type s = "microsoft_spc_pe_image_data" -> rp_value s = true)) /\
  (ct = "tst_info" ->
   exists t, v = RVTst t /\ (exists us, accuracy_fits (rt_accuracy t) us) /\
             forall k, rt_tsa t <> TsaOther k).

Inductive regular_token : raw_sd -> Prop :=
| regular_token_intro a ct content certs crls signers :
    regular_content ct (rc_value content) ->
    Forall (fun s => no_attr as_counter_signature (unsigned_attrs s)) signers ->
    regular_token (RawSD [a] ct content certs crls signers).

Inductive regular_sd : raw_sd -> Prop :=
| regular_sd_intro a ct content certs crls signers :
    regular_content ct (rc_value content) ->
    Forall regular_si signers ->
    regular_sd (RawSD [a] ct content certs crls signers)
with regular_si : raw_si -> Prop :=
| regular_si_intro r :
    (forall l c, In (ANestedSignature l) (unsigned_attrs r) -> In c l -> regular_ci c) ->
    (forall l c, In (ATimeStampToken l) (unsigned_attrs r) -> In c l -> regular_token_ci c) ->
    regular_si r
with regular_ci : raw_ci -> Prop :=
| regular_ci_signed s : regular_sd s -> regular_ci (RawSigned s)
| regular_ci_other t b : t <> "signed_data" -> regular_ci (RawOther t b)
with regular_token_ci : raw_ci -> Prop :=
| regular_token_signed s : regular_token s -> regular_token_ci (RawSigned s)
| regular_token_other t b : t <> "signed_data" -> regular_token_ci (RawOther t b).

Definition is_parse_error (e : exn) : Prop := issubclass (e_class e) ParseError = true.

(** The classes of the errors of parsing: parse errors, and six kinds of accidents. *)
Definition parse_class (k : exc_class) : Prop :=
  issubclass k ParseError = true \/
  In k [KeyError; TypeError; AssertionError; NotImplementedError; OverflowError; RecursionError].

(** How many attributes [f] selects. *)
Definition occurrences {A} (f : raw_attr -> option A) (l : list raw_attr) : nat :=
  length (filter (fun a => match f a with Some _ => true | None => false end) l).

(** The contents octets of the authenticated attributes. *)
Definition contents_of (r : raw_si) : bytes := match r with RawSI _ _ _ c _ _ _ => c end.
