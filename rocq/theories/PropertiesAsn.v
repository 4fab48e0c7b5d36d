(** Property C68: the declarations of signify/asn1. *)
From Verif Require Import Base Monad ModelX509 ModelPkcs7 ModelLazy ModelDer ModelSpc ModelDecode SpecAsn
  ProofsAsn ProofsAsn2 PropertiesFingerprint ExampleDer.

(** *** C68: what is written can be read *)

(** Declarations that follow the rule of X.680 on absent fields and alternatives: the octets
    of a value are decoded to that value, whatever follows them. *)
Theorem C68_general :
  forall a v b rest, distinct a -> encodes a Untagged v b -> load a (b ++ rest) = Ok v.
Proof. exact load_encodes. Qed.
Print Assumptions C68_general.

(** The declarations of spc.py and ctl.py (but SpcFinancialCriteria), and of the library. *)
Theorem C68_declared :
  forall a v b rest, In a declarations -> encodes a Untagged v b -> load a (b ++ rest) = Ok v.
Proof. intros a v b rest H. apply load_encodes. exact (proj1 (Forall_forall _ _) all_distinct a H). Qed.
Print Assumptions C68_declared.

(** So two values are never written in the same octets, not even when other octets follow. *)
Theorem C68_unambiguous :
  forall a v v' b b' rest rest', In a declarations ->
  encodes a Untagged v b -> encodes a Untagged v' b' -> b ++ rest = b' ++ rest' -> v = v'.
Proof.
  intros a v v' b b' rest rest' I H H' E. pose proof (C68_declared a v b rest I H) as L.
  rewrite E, (C68_declared a v' b' rest' I H') in L. injection L as <-. reflexivity.
Qed.
Print Assumptions C68_unambiguous.

(** Reading one field on demand finds the octets of that field. *)
Theorem C68_field :
  forall A i n x tg p o fs vs c (k : asn -> tagging -> tlv -> res A),
  distinct_fields fs -> NoDup (map fst fs) -> encodes_fields fs vs c ->
  nth_error fs i = Some (n, (x, (tg, p))) -> nth_error vs i = Some o ->
  match o with
  | None => read_field (ASeq fs) (children (ASeq fs) c) n k = Ok None
  | Some v => exists t, decode x tg t = Ok v /\
                read_field (ASeq fs) (children (ASeq fs) c) n k = (let? y := k x tg t in Ok (Some y))
  end.
Proof. exact @field_encodes. Qed.
Print Assumptions C68_field.

(** What SpcInfo takes from an encoded SpcIndirectDataContent. *)
Theorem C68_spc :
  forall c typ value alg ps digest s,
  encodes_fields (seq_fields SpcIndirectDataContent)
    [Some (VSeq [Some (VPrim typ); value]); Some (VSeq [Some (VSeq (Some (VPrim alg) :: ps)); Some (VPrim digest)])] c ->
  lz_spc_info (LVSpc (read_spc c)) = Ok s ->
  s = mkSpc (oid_native digest_algorithms alg) digest /\
  oid_native spc_attribute_types typ = "microsoft_spc_pe_image_data" /\ value <> None.
Proof. exact spc_encodes. Qed.
Print Assumptions C68_spc.

(** What TSTInfo takes from an encoded one. *)
Theorem C68_tst :
  forall c version policy alg ps hashed serial time rest s,
  encodes_fields (seq_fields TSTInfo)
    (Some (VPrim version) :: Some (VPrim policy) ::
     Some (VSeq [Some (VSeq (Some (VPrim alg) :: ps)); Some (VPrim hashed)]) ::
     Some (VPrim serial) :: Some (VPrim time) :: rest) c ->
  lz_tst_info (LVTst (read_tst c)) = Ok s ->
  version_native 0 version = "v1" /\
  ti_policy s = dotted policy /\ ti_hash_alg s = oid_native digest_algorithms alg /\ ti_message_digest s = hashed /\
  ti_serial s = int_native serial /\ time_native "general_time" time = Ok (ti_signing_time s).
Proof. exact tst_encodes. Qed.
Print Assumptions C68_tst.

(** Finding: both fields of SpcFinancialCriteria (spc.py:319-325) are untagged BOOLEANs with a
    default.  When only the second is written it is read as the first. *)
Ltac wrote :=
  match goal with
  | |- element _ _ _ _ _ => apply Element; [split; discriminate|split; discriminate|apply Short; vm_compute; split; [discriminate|reflexivity]]
  | |- outer Untagged _ _ => apply OuterUntagged
  | |- outer (Explicit _) _ _ => eapply OuterExplicit
  | |- tagged _ _ _ (Implicit _) _ => eapply TaggedImplicit
  | |- tagged _ _ _ _ _ => eapply TaggedOther
  | |- encodes (APrim _) _ _ _ => eapply EncPrim
  | |- encodes (ASeq _) _ _ _ => eapply EncSeq
  | |- encodes (ASeqOf _) _ _ _ => eapply EncSeqOf
  | |- encodes (ASetOf _) _ _ _ => eapply EncSetOf
  | |- encodes (AChoice _) _ _ _ => eapply EncChoice; [cbn; eauto 9| |]
  | |- encodes AAny (Implicit _) _ _ => eapply EncAnyImplicit
  | |- encodes AAny _ _ _ => eapply EncAny
  | |- encodes ?x _ _ _ => unfold x
  | |- encodes_fields _ [] _ => apply FieldsNil
  | |- encodes_fields (_ :: _) (None :: _) _ => apply FieldsAbsent; [discriminate|]
  | |- encodes_fields (_ :: _) (Some _ :: _) _ => eapply FieldsPresent
  | |- encodes_all _ [] _ => apply AllNil
  | |- encodes_all _ _ _ => eapply AllCons
  | |- undeclared _ => split; [reflexivity|]
  end.
Lemma encodes_eq a tg v b b' : encodes a tg v b -> b = b' -> encodes a tg v b'.
Proof. intros H <-. exact H. Qed.
Theorem C68_refuted :
  exists v v' b, v <> v' /\
    encodes SpcFinancialCriteria Untagged v b /\ encodes SpcFinancialCriteria Untagged v' b /\
    load SpcFinancialCriteria b = Ok v'.
Proof.
  exists (VSeq [None; Some (VPrim [xff])]), (VSeq [Some (VPrim [xff]); None]), [x30; x03; x01; x01; xff].
  split; [discriminate|]. split; [|split].
  - eapply encodes_eq; [unfold SpcFinancialCriteria, field_with, aBoolean; repeat wrote|vm_compute; reflexivity].
  - eapply encodes_eq; [unfold SpcFinancialCriteria, field_with, aBoolean; repeat wrote|vm_compute; reflexivity].
  - vm_compute. reflexivity.
Qed.
Print Assumptions C68_refuted.

(** The content of the envelopes of ExampleDer.v, a publisher with a link to a file, and the
    start of a trust list. *)
Definition ex_image_tlv : tlv := mkTlv 0 true 16 [x30; x00] [] [].
Definition ex_null_tlv : tlv := mkTlv 0 false 5 [x05; x00] [] [].
Example C68_run :
  encodes SpcIndirectDataContent Untagged
    (VSeq [Some (VSeq [Some (VPrim (ExampleData.unhex o_image)); Some (VAny ex_image_tlv)]);
           Some (VSeq [Some (VSeq [Some (VPrim (ExampleData.unhex o_sha256)); Some (VAny ex_null_tlv)]);
                       Some (VPrim (str "digest"))])])
    (e_seq [e_spc o_sha256 (str "digest")]) /\
  encodes SpcSpOpusInfo Untagged
    (VSeq [Some (VChoice "ascii" (VPrim (str "name"))); None;
           Some (VChoice "file" (VChoice "unicode" (VPrim [x00; x41])))])
    (e_seq [enc xa0 [enc x81 [str "name"]]; enc xa2 [enc xa2 [enc x80 [[x00; x41]]]]]) /\
  encodes CertificateTrustList Untagged
    (VSeq [None; Some (VList [VPrim [x2a; x03]]); None; Some (VPrim [x07]);
           Some (VChoice "utc_time" (VPrim (str "200102030405Z"))); None;
           Some (VSeq [Some (VPrim (ExampleData.unhex o_sha1)); None]);
           Some (VList [VSeq [Some (VPrim [x05]); Some (VList [VSeq [Some (VPrim [x2b]); Some (VList [VPrim [x01]; VPrim []])]])]]); None])
    (e_seq [e_seq [enc x06 [[x2a; x03]]]; e_int x07; enc x17 [str "200102030405Z"]; e_seq [e_oid o_sha1];
            e_seq [e_seq [e_octets [x05]; e_set [e_seq [enc x06 [[x2b]]; e_set [e_octets [x01]; e_octets []]]]]]]).
Proof.
  split; [|split].
  - eapply encodes_eq; [repeat wrote|vm_compute; reflexivity].
  - eapply encodes_eq; [repeat wrote|vm_compute; reflexivity].
  - eapply encodes_eq; [repeat wrote|vm_compute; reflexivity].
Qed.

(** The same octets as the parsers read them. *)
Example C68_parsed :
  load SpcIndirectDataContent (e_seq [e_spc o_sha256 (str "digest")] ++ str "more")
    = Ok (VSeq [Some (VSeq [Some (VPrim (ExampleData.unhex o_image)); Some (VAny ex_image_tlv)]);
                Some (VSeq [Some (VSeq [Some (VPrim (ExampleData.unhex o_sha256)); Some (VAny ex_null_tlv)]);
                            Some (VPrim (str "digest"))])]) /\
  lz_spc_info (LVSpc (read_spc (e_spc o_sha256 (str "digest")))) = Ok (mkSpc "sha256" (str "digest")) /\
  (match parse_tlv (e_tst (str "h") []) with
   | Ok (t, _) => lz_tst_info (LVTst (read_tst (t_contents t)))
   | Err e => Err e
   end) = Ok (mkTst "1.2.3" "sha256" (str "h") 7 (ModelDecode.days_from_civil 2020 1 2 * 86400000000 + 11045000000) 0).
Proof. vm_compute. repeat split. Qed.
