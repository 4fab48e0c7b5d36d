(** The octets of a signature that is accepted: which values they must hold and what is made of
    them.  Declarations and meanings are those of SpecEnvelope.v and SpecShown.v; what is not
    looked at, such as an attribute that a later one of its type replaces, may be anything. *)
From Verif Require Import Base ModelX509 ModelPkcs7 ModelDer ModelSpc SpecPrim SpecTime SpecBer SpecStl SpecRead SpecPkcs7 SpecEnvelope SpecShown.

(** A supported digest algorithm without parameters. *)
Definition digest_in (v : aval) (n : string) : Prop := exists a, alg_means v a /\ accepted a n.

(** ** Attributes *)

(** How a value of an attribute must begin: every one of a list is looked at so far. *)
Definition begins_with (cons : bool) (tags : list Z) (t : tlv) : Prop :=
  t_class t = 0 /\ t_cons t = cons /\ In (t_tag t) tags.
Definition plausible (typ : string) (t : tlv) : Prop :=
  (typ = "1.2.840.113549.1.9.3" -> begins_with false [6] t) /\
  (typ = "1.2.840.113549.1.9.4" -> begins_with false [4] t) /\
  (typ = "1.2.840.113549.1.9.5" -> begins_with false [23; 24] t) /\
  (In typ ["1.2.840.113549.1.9.6"; "1.3.6.1.4.1.311.2.1.11"; "1.3.6.1.4.1.311.2.1.12"; "1.3.6.1.4.1.311.2.4.1";
           "1.3.6.1.4.1.311.3.3.1"] -> begins_with true [16] t).
(** The set of attributes [o] has the elements [ts], attributes of these types and values. *)
Definition attributes_in (o : option aval) (ts : list tlv) (l : list (string * list tlv)) : Prop :=
  members o ts /\ Forall2 attribute ts l /\ Forall (fun a => Forall (plausible (fst a)) (snd a)) l.

Definition time_in (l : list (string * list tlv)) (time : option datetime) : Prop :=
  match time with
  | None => last_of "1.2.840.113549.1.9.5" l None
  | Some z => exists x v, last_of "1.2.840.113549.1.9.5" l (Some [x]) /\ is_a X509Time x v /\ time_means v z
  end.
(** The attribute is absent, or has one value that can be read. *)
Definition one_at_most (typ : string) (P : tlv -> Prop) (l : list (string * list tlv)) : Prop :=
  last_of typ l None \/ exists x, last_of typ l (Some [x]) /\ P x.

(** ** Signers *)

(** A SignerInfo with a time ([timed]) and content of the type [typ]; its attributes. *)
Inductive signer_in (timed : bool) (typ : option string)
  : tlv -> sinfo -> list (string * list tlv) -> list (string * list tlv) -> Prop :=
| SignerIn t version issuer serial valg vsigned salg params signature vunsigned n alg ts1 signed ts2 unsigned x1 oid x2 digest time :
    is_a CmsSigner t
      (VSeq [version; Some (VChoice "issuer_and_serial_number" (VSeq [Some issuer; Some (VPrim serial)])); Some valg; vsigned;
             Some (VSeq [Some (VPrim salg); params]); Some (VPrim signature); vunsigned]) ->
    name_means issuer n -> digest_in valg alg ->
    attributes_in vsigned ts1 signed -> attributes_in vunsigned ts2 unsigned ->
    last_of "1.2.840.113549.1.9.3" signed (Some [x1]) -> is_a (APrim 6) x1 (VPrim oid) ->
    (forall e, typ = Some e -> oid_text oid = e) ->
    last_of "1.2.840.113549.1.9.4" signed (Some [x2]) -> is_a (APrim 4) x2 (VPrim digest) ->
    time_in signed time -> (timed = true -> time <> None) ->
    signer_in timed typ t
      (mkSinfo n (signed_integer serial) (encode_attributes (concat (map tlv_dump ts1))) (called signature_algorithms salg)
               signature alg (Some digest) (Some (called content_types oid)) time) signed unsigned.

(** A countersigner, which may have one in turn. *)
Inductive counter_in : tlv -> sinfo -> Prop :=
| CounterLast t i signed unsigned :
    signer_in true None t i signed unsigned -> last_of "1.2.840.113549.1.9.6" unsigned None -> counter_in t i
| CounterMore t i signed unsigned x j :
    signer_in true None t i signed unsigned -> last_of "1.2.840.113549.1.9.6" unsigned (Some [x]) -> counter_in x j ->
    counter_in t i.

(** ** Signed data *)

Definition certs_in (o : option aval) (cs : list cert) : Prop :=
  exists ts l, members o ts /\ Forall2 choice_says ts l /\ certificates_of l cs.
(** A ContentInfo with this SignedData. *)
Definition envelope_in (t u : tlv) : Prop :=
  exists oid, is_a CmsContentInfo t (VSeq [Some (VPrim oid); Some (VAny u)]) /\ oid_text oid = "1.2.840.113549.1.7.2".

(** *** Tokens of the Time-Stamp Protocol *)

Definition TspImprint := ASeq [field "hash_algorithm" X509Algorithm; field "hashed_message" (APrim 4)].
Definition part (o : option tlv) : list tlv := match o with Some t => [t] | None => [] end.
Definition part_begins (id : Z * Z) (o : option tlv) : Prop :=
  match o with Some t => (t_class t, t_tag t) = id | None => True end.
(** A TSTInfo.  [ordering], [nonce] and [extensions] are not looked at. *)
Inductive tst_in : tlv -> tst_info -> Prop :=
| TstIn t version policy imprint serial time accuracy ordering nonce tsa extensions b1 b2 alg n digest b4 b5 z us :
    is_a (ASeqOf AAny) t
      (VList (map VAny (version :: policy :: imprint :: serial :: time :: part accuracy ++ part ordering ++ part nonce ++
                        part tsa ++ part extensions))) ->
    part_begins (0, 16) accuracy -> part_begins (0, 1) ordering -> part_begins (0, 2) nonce ->
    part_begins (2, 0) tsa -> part_begins (2, 1) extensions ->
    is_a (APrim 2) version (VPrim b1) -> signed_integer b1 = 1 ->
    is_a (APrim 6) policy (VPrim b2) ->
    is_a TspImprint imprint (VSeq [Some alg; Some (VPrim digest)]) -> digest_in alg n ->
    is_a (APrim 2) serial (VPrim b4) ->
    is_a (APrim 24) time (VPrim b5) -> general_text b5 z ->
    match accuracy with
    | None => us = 0
    | Some x => exists v r, is_a TspAccuracy x v /\ accuracy_says v r /\ accuracy_fits (Some r) us
    end ->
    match tsa with
    | None => True
    | Some x => exists v name, spells true TspName (Explicit 0) (VChoice "directory_name" v) x /\ name_means v name
    end ->
    tst_in t (mkTst (oid_text b2) n digest (signed_integer b4) z us).
(** Its SignedData; the revocation lists are not looked at. *)
Definition TspSignedData :=
  ASeq [field "version" (APrim 2); field "digest_algorithms" (ASetOf X509Algorithm);
        field "encap_content_info" CmsContentInfo;
        field_with "certificates" (ASetOf AAny) (Implicit 0) Optional;
        field_with "crls" AAny (Implicit 1) Optional;
        field "signer_infos" (ASetOf AAny)].
Inductive token_in : tlv -> rsd -> Prop :=
| TokenIn t version valg alg typ u w tst vcerts cs vcrls s i signed unsigned :
    is_a TspSignedData t
      (VSeq [Some (VPrim version); Some (VList [valg]); Some (VSeq [Some (VPrim typ); Some (VAny u)]); vcerts; vcrls;
             Some (VList [VAny s])]) ->
    digest_in valg alg -> oid_text typ = "1.2.840.113549.1.9.16.1.4" ->
    signed_integer version <> 1 -> octet_string u -> holds_a AAny (t_contents u) (VAny w) -> tst_in w tst ->
    certs_in vcerts cs ->
    signer_in false (Some "1.2.840.113549.1.9.16.1.4") s i signed unsigned ->
    last_of "1.2.840.113549.1.9.6" unsigned None ->
    token_in t (mkRsd (mkSdata alg "tst_info" (t_contents u) cs) tst i).

(** *** Signatures of files *)

(** At most one countersignature, of one of the two kinds. *)
Inductive countersigner_in (l : list (string * list tlv)) : option countersigner -> Prop :=
| CountersignerNone :
    last_of "1.2.840.113549.1.9.6" l None -> last_of "1.3.6.1.4.1.311.3.3.1" l None -> countersigner_in l None
| CountersignerPlain x i :
    last_of "1.2.840.113549.1.9.6" l (Some [x]) -> last_of "1.3.6.1.4.1.311.3.3.1" l None -> counter_in x i ->
    countersigner_in l (Some (CSPlain i))
| CountersignerToken x u r :
    last_of "1.2.840.113549.1.9.6" l None -> last_of "1.3.6.1.4.1.311.3.3.1" l (Some [x]) -> envelope_in x u -> token_in u r ->
    countersigner_in l (Some (CSToken r)).

Inductive signature_in (pe : bool) : tlv -> asd -> Prop :=
| SignatureIn t version valg alg typ u octets r spc vcerts cs vcrls s i signed unsigned counter nested :
    is_a CmsSignedData t
      (VSeq [Some (VPrim version); Some (VList [valg]); Some (VSeq [Some (VPrim typ); Some (VAny u)]); vcerts; vcrls;
             Some (VList [VAny s])]) ->
    digest_in valg alg -> oid_text typ = "1.3.6.1.4.1.311.2.1.4" ->
    content_says version (oid_text typ) (Some (VAny u)) (mkRawContent octets (RVSpc r)) -> spc_reads r spc ->
    certs_in vcerts cs -> members vcrls [] ->
    signer_in false (Some "1.3.6.1.4.1.311.2.1.4") s i signed unsigned ->
    one_at_most "1.3.6.1.4.1.311.2.1.11" (fun x => exists v, is_a (ASeqOf (APrim 6)) x v) signed ->
    one_at_most "1.3.6.1.4.1.311.2.1.12" opus_ok signed ->
    countersigner_in unsigned counter -> nested_in pe unsigned nested ->
    signature_in pe t (ASD (mkSdata alg "microsoft_spc_indirect_data_content" octets cs) spc (ASI i counter nested) pe)
with nested_in (pe : bool) : list (string * list tlv) -> list asd -> Prop :=
| NestedNone l : last_of "1.3.6.1.4.1.311.2.4.1" l None -> nested_in pe l []
| NestedSome l ts nested : last_of "1.3.6.1.4.1.311.2.4.1" l (Some ts) -> signatures_in pe ts nested -> nested_in pe l nested
with signatures_in (pe : bool) : list tlv -> list asd -> Prop :=
| SignaturesNone : signatures_in pe [] []
| SignaturesMore t u a ts l : envelope_in t u -> signature_in pe u a -> signatures_in pe ts l -> signatures_in pe (t :: ts) (a :: l).

(** The octets are a signature; something else may follow. *)
Definition encoded_signature (pe : bool) (b : bytes) (a : asd) : Prop :=
  exists t u, holds_a AAny b (VAny t) /\ envelope_in t u /\ signature_in pe u a.
