(** The octets of a trust list that is opened: which values they must hold.  Entries and their
    attributes are those of SpecStl.v, the envelope and the certificates those of
    SpecAccepted.v; the version and the extensions of the list and the signers and revocation
    lists of the file are not looked at. *)
From Verif Require Import Base ModelX509 ModelContext ModelPkcs7 ModelCtl ModelDer ModelSpc SpecPrim SpecBer SpecStl SpecRead SpecPkcs7 SpecEnvelope SpecAccepted.

Definition StlUsages := ASeqOf (APrim 6).
Definition StlAttribute := ASeq [field "type" (APrim 6); field "values" (ASetOf (APrim 4))].
Definition StlEntry :=
  ASeq [field "subject_identifier" (APrim 4); field_with "subject_attributes" (ASetOf StlAttribute) Untagged Optional].

(** An optional part and what it means. *)
Definition found {A} (a : asn) (P : aval -> A -> Prop) (o : option tlv) (x : option A) : Prop :=
  match o, x with
  | None, None => True
  | Some t, Some y => exists v, is_a a t v /\ P v y
  | _, _ => False
  end.

(** The value is the list [r]. *)
Inductive list_in : tlv -> raw_list -> Prop :=
| ListIn t version usage identifier sequence this next alg entries extensions us v1 v2 r :
    is_a (ASeqOf AAny) t
      (VList (map VAny (part version ++ usage :: part identifier ++ part sequence ++ this :: part next ++ alg :: part entries ++
                        part extensions))) ->
    part_begins (0, 2) version -> part_begins (2, 0) extensions ->
    is_a StlUsages usage (VList (map VPrim us)) -> rl_usage r = map (called key_purposes) us ->
    found (APrim 4) octets_mean identifier (rl_identifier r) ->
    found (APrim 2) integer_means sequence (rl_sequence r) ->
    is_a X509Time this v1 -> time_means v1 (rl_this_update r) ->
    found X509Time time_means next (rl_next_update r) ->
    is_a X509Algorithm alg v2 -> alg_means v2 (rl_algorithm r) ->
    match entries with
    | None => rl_subjects r = []
    | Some x => exists vs, is_a (ASeqOf StlEntry) x (VList vs) /\ Forall2 entry_means vs (rl_subjects r)
    end ->
    list_in t r.

Definition StlData :=
  ASeq [field "version" (APrim 2); field "digest_algorithms" (ASetOf X509Algorithm);
        field "encap_content_info" CmsContentInfo;
        field_with "certificates" (ASetOf AAny) (Implicit 0) Optional;
        field_with "crls" AAny (Implicit 1) Optional;
        field "signer_infos" AAny].

(** Where the list is: the content itself in version 1, inside an OCTET STRING otherwise. *)
Definition content_is (version : bytes) (w x : tlv) : Prop :=
  (signed_integer version = 1 /\ x = w) \/
  (signed_integer version <> 1 /\ octet_string w /\ holds_a AAny (t_contents w) (VAny x)).

(** The signers are not taken for certificates or revocation lists, where these are left out. *)
Definition signers_apart (vcerts vcrls : option aval) (signers : tlv) : Prop :=
  (vcerts = None -> vcrls = None -> (t_class signers, t_tag signers) <> (2, 0)) /\
  (vcrls = None -> (t_class signers, t_tag signers) <> (2, 1)).

(** The octets are a file with the list [r]; something else may follow. *)
Inductive encoded_list (data : bytes) (alg : algid) (cs : list raw_choice) (r : raw_list) : Prop :=
| EncodedList t u version valg typ w x vcerts ts vcrls signers :
    holds_a AAny data (VAny t) -> envelope_in t u ->
    is_a StlData u
      (VSeq [Some (VPrim version); Some (VList [valg]); Some (VSeq [Some (VPrim typ); Some (VAny w)]); vcerts; vcrls; Some (VAny signers)]) ->
    signers_apart vcerts vcrls signers ->
    alg_means valg alg -> oid_text typ = "1.3.6.1.4.1.311.10.1" ->
    members vcerts ts -> Forall2 choice_says ts cs ->
    content_is version w x -> list_in x r ->
    encoded_list data alg cs r.
