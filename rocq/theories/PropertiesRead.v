(** Property C76: certificates are read as they are written. *)
From Verif Require Import Base Monad ModelX509 ModelPkcs7 ModelLazy ModelDer ModelSpc ModelDecode SpecPrim SpecAsn SpecBer SpecStl SpecRead
  ProofsAsn2 ProofsBer2 ProofsRead PropertiesFingerprint ExampleDer PropertiesAsn.

(** Octets that are a value of X.509 in any admissible encoding: [from_der] gives the certificate
    this value means, and fails if there is none.  The certificate keeps its own octets, without
    what follows. *)
Theorem C76_read :
  forall b v, written true X509 v b ->
  exists id der rest, b = der ++ rest /\
  forall c, cert_from_der b = Ok c <-> cert_means v c /\ c_id c = id /\ c_der c = der.
Proof. exact read_from_der. Qed.
Print Assumptions C76_read.

(** Whoever writes a certificate gets it back. *)
Theorem C76_encoded :
  forall v b rest c, encodes X509 Untagged v b -> cert_means v c ->
  cert_from_der (b ++ rest) =
  Ok (mkCert (identity b) b (c_issuer c) (c_serial c) (c_subject c) (c_key c) (c_valid_from c) (c_valid_to c) (c_eku c)).
Proof. exact read_encoded. Qed.
Print Assumptions C76_encoded.

(** The names the library decides on stand for the registered object identifiers and no others. *)
Theorem C76_names :
  forall names s d, In (names, (s, d)) registered -> forall b, oid_native names b = s <-> oid_text b = d.
Proof. exact names_registered. Qed.
Print Assumptions C76_names.

(** A certificate with a version, names of several parts, both kinds of times, a curve, and two
    extended key usages, of which the second counts. *)
Definition e_eku (l : list string) : bytes := e_seq [e_oid "551d25"; e_octets (e_seq (map e_oid l))].
Definition e_cert3 : bytes :=
  e_seq [e_seq [enc xa0 [e_int x02]; enc x02 [[xff; x7f]]; e_alg o_rsa;
                e_seq [e_set [e_seq [e_oid "550406"; enc x13 [str "NL"]]; e_seq [e_oid "55042d"; enc x03 [[x00; x07]]]];
                       e_set [e_seq [e_oid "550403"; enc x0c [str "A"]]]];
                e_seq [enc x17 [str "500101000000Z"]; enc x18 [str "20500101000000Z"]];
                e_name "Me"; e_seq [e_seq [e_oid "2a8648ce3d0201"; e_oid "2a8648ce3d030107"]; enc x03 [[x00; x04]]];
                enc xa3 [e_seq [e_eku ["2b06010505070301"]; e_seq [e_oid "2a0304"; enc x01 [[xff]]; e_octets [x01]];
                                e_eku ["2b06010505070303"; "2b0601040182370a030d"]]]];
         e_alg o_rsa; enc x03 [[x00; x01]]].
Definition e_null_any : aval := VAny (mkTlv 0 false 5 [x05; x00] [] []).
Definition e_cert3_value : aval :=
  VSeq [Some (VSeq [Some (VPrim [x02]); Some (VPrim [xff; x7f]);
                    Some (VAny (mkTlv 0 true 16 [x30; x0d] (e_oid o_rsa ++ e_null) []));
                    Some (VList [VList [VSeq [Some (VPrim (ExampleData.unhex "550406")); Some (VAny (mkTlv 0 false 19 [x13; x02] (str "NL") []))];
                                        VSeq [Some (VPrim (ExampleData.unhex "55042d")); Some (VAny (mkTlv 0 false 3 [x03; x02] [x00; x07] []))]];
                                 VList [VSeq [Some (VPrim (ExampleData.unhex "550403")); Some (VAny (mkTlv 0 false 12 [x0c; x01] (str "A") []))]]]);
                    Some (VSeq [Some (VChoice "utc_time" (VPrim (str "500101000000Z"))); Some (VChoice "general_time" (VPrim (str "20500101000000Z")))]);
                    Some (VList [VList [VSeq [Some (VPrim (ExampleData.unhex "550403")); Some (VAny (mkTlv 0 false 19 [x13; x02] (str "Me") []))]]]);
                    Some (VSeq [Some (VSeq [Some (VPrim (ExampleData.unhex "2a8648ce3d0201"));
                                            Some (VAny (mkTlv 0 false 6 [x06; x08] (ExampleData.unhex "2a8648ce3d030107") []))]);
                                Some (VAny (mkTlv 0 false 3 [x03; x02] [x00; x04] []))]);
                    None; None;
                    Some (VList [VSeq [Some (VPrim (ExampleData.unhex "551d25")); None; Some (VPrim (e_seq [e_oid "2b06010505070301"]))];
                                 VSeq [Some (VPrim (ExampleData.unhex "2a0304")); Some (VPrim [xff]); Some (VPrim [x01])];
                                 VSeq [Some (VPrim (ExampleData.unhex "551d25")); None;
                                       Some (VPrim (e_seq [e_oid "2b06010505070303"; e_oid "2b0601040182370a030d"]))]])]);
        Some (VSeq [Some (VPrim (ExampleData.unhex o_rsa)); Some e_null_any]); Some (VPrim [x00; x01])].
Definition e_read3 : cert :=
  mkCert (identity e_cert3) e_cert3
    [mkRdn (mkAva "2.5.4.6" (VStr (ustr_of "NL"))) [mkAva "2.5.4.45" (VBytes [x07])]; mkRdn (mkAva "2.5.4.3" (VStr (ustr_of "A"))) []]
    (-129) [mkRdn (mkAva "2.5.4.3" (VStr (ustr_of "Me"))) []]
    (mkSpki "ec" (PStr "1.2.840.10045.3.1.7") [x03; x02; x00; x04])
    (ModelDecode.days_from_civil 1950 1 1 * 86400000000) (ModelDecode.days_from_civil 2050 1 1 * 86400000000)
    (Some ["code_signing"; "microsoft_lifetime_signing"]).
Example C76_run : written true X509 e_cert3_value (e_cert3 ++ str "more") /\ cert_from_der (e_cert3 ++ str "more") = Ok e_read3.
Proof. split; computed. Qed.
Example C76_means : cert_means e_cert3_value e_read3.
Proof.
  destruct C76_run as [L R]. destruct (C76_read _ _ L) as (id & der & rest & _ & H).
  exact (proj1 (proj1 (H e_read3) R)).
Qed.

(** Its encoding, with lengths in the short and in the long form. *)
Lemma long_octets n l : big_endian l = n -> 1 <= zlen l <= 127 -> length_octets n (byte_of_Z (128 + zlen l) :: l).
Proof. intros <- H. constructor. exact H. Qed.
Ltac in_range := split; vm_compute; discriminate.
Ltac long :=
  match goal with
  | |- element _ _ _ ?c _ =>
      let n := eval vm_compute in (zlen c) in
      let l := eval vm_compute in (if n <? 256 then [byte_of_Z n] else [byte_of_Z (n / 256); byte_of_Z (n mod 256)]) in
      apply Element; [split; discriminate|split; discriminate|apply (long_octets _ l); [vm_compute; reflexivity|in_range]]
  end.
Example C76_written : encodes X509 Untagged e_cert3_value e_cert3.
Proof.
  eapply encodes_eq; [unfold e_cert3_value, e_null_any, X509Body, X509Time; repeat first [wrote|long]|vm_compute; reflexivity].
Qed.

(** The two extensions of Microsoft whose values are decoded: well-formed ones are read, and a
    certificate with another value there is not. *)
Definition e_cert_with (l : list bytes) : bytes :=
  e_seq [e_seq [enc xa0 [e_int x02]; e_int x05; e_alg o_rsa; e_name "Us";
                e_seq [enc x17 [str "500101000000Z"]; enc x18 [str "20500101000000Z"]];
                e_name "Me"; e_seq [e_alg o_rsa; enc x03 [[x00; x04]]]; enc xa3 [e_seq l]];
         e_alg o_rsa; enc x03 [[x00; x01]]].
Definition e_agency (text : bytes) : bytes :=
  e_seq [enc xa0 [enc x80 [str "http://a"]]; enc xa1 [enc x80 [text]];
         enc xa2 [enc xa0 [enc xa2 [enc x81 [str "b"]]]; enc x84 [[xff]]];
         enc xa3 [enc xa1 [e_octets [x01]; e_octets [x02]]]].
Definition e_extension (oid : string) (b : bytes) : bytes := e_seq [e_oid oid; e_octets b].
Definition e_boolean (x : byte) : bytes := enc x01 [[x]].
Definition read_class (r : res cert) : option exc_class := match r with Ok _ => None | Err e => Some (e_class e) end.
Example C76_agency : agency_in (e_agency [x00; x41]) /\ ~ agency_in (e_agency [x00]) /\ ~ agency_in (e_agency [xd8; x00]) /\ ~ agency_in (e_seq []).
Proof.
  split; [apply agency_iff; vm_compute; reflexivity|].
  split; [|split]; intros H; apply agency_iff in H; vm_compute in H; discriminate H.
Qed.
Example C76_financial :
  financial_in (e_seq []) /\ financial_in (e_seq [e_boolean xff; e_boolean x00]) /\
  ~ financial_in (e_seq [e_boolean xff; e_boolean x00; e_boolean x00]) /\ ~ financial_in (e_seq [e_int x01]).
Proof.
  split; [apply financial_iff; vm_compute; reflexivity|]. split; [apply financial_iff; vm_compute; reflexivity|].
  split; intros H; apply financial_iff in H; vm_compute in H; discriminate H.
Qed.
Example C76_extensions :
  let agency := e_extension "2b06010401823702010a" in let financial := e_extension "2b06010401823702011b" in
  map (fun l => read_class (cert_from_der (e_cert_with l)))
    [[agency (e_agency [x00; x41]); financial (e_seq [e_boolean xff])];
     [agency (e_agency [x00]); financial (e_seq [e_boolean xff])];
     [agency (e_agency [x00; x41]); financial (e_seq [e_int x01])];
     [e_extension "2a0304" (e_agency [x00])]] =
  [None; Some ValueError; Some ValueError; None].
Proof. vm_compute. reflexivity. Qed.
