(** Small envelopes in DER to show the theorems of PropertiesDer.v at work.  No proofs in this
    file. *)
From Verif Require Import Base Monad ModelFile ModelFingerprint SpecFingerprint ModelPE SpecPE ModelX509 ModelContext ModelPkcs7
  ModelLazy ModelAuthenticode ModelDer ModelSpc ModelDecode ExampleData SpecSignedPE.
From Verif Require Import PropertiesFingerprint PropertiesX509 PropertiesContext PropertiesPE PropertiesPkcs7 PropertiesAuthenticode PropertiesSignedPE.

(** A value with the identifier octet [tag]. *)
Definition enc (tag : byte) (l : list bytes) : bytes :=
  let c := concat l in tag :: der_length (zlen c) ++ c.
Definition e_seq := enc x30.
Definition e_set := enc x31.
Definition e_oid (s : string) := enc x06 [unhex s].
Definition e_int (b : byte) := enc x02 [[b]].
Definition e_octets (b : bytes) := enc x04 [b].
Definition e_null := enc x05 [].
Definition e_alg (s : string) := e_seq [e_oid s; e_null].

Definition o_data := "2a864886f70d010701".
Definition o_signed := "2a864886f70d010702".
Definition o_spc := "2b060104018237020104".
Definition o_image := "2b06010401823702010f".
Definition o_tst := "2a864886f70d0109100104".
Definition o_sha256 := "608648016503040201".
Definition o_sha1 := "2b0e03021a".
Definition o_rsa := "2a864886f70d010101".
Definition a_type := "2a864886f70d010903".
Definition a_digest := "2a864886f70d010904".
Definition a_time := "2a864886f70d010905".
Definition a_counter := "2a864886f70d010906".
Definition a_nested := "2b060104018237020401".
Definition a_token := "2b060104018237030301".

Definition e_name (s : string) := e_seq [e_set [e_seq [e_oid "550403"; enc x13 [str s]]]].
Definition e_attr (typ : string) (vals : list bytes) := e_seq [e_oid typ; e_set vals].
(** SignerInfo; [signed] and [unsigned] are attributes. *)
Definition e_signer (alg : string) (signed : list bytes) (signature : bytes) (unsigned : list bytes) :=
  e_seq [e_int x01; e_seq [e_name "Me"; e_int x05]; e_alg alg; enc xa0 signed; e_alg o_rsa;
         e_octets signature; match unsigned with [] => [] | _ => enc xa1 unsigned end].
(** SignedData in a ContentInfo. *)
Definition e_signed (version : byte) (algs : list bytes) (typ : string) (content : bytes) (extra signers : list bytes) :=
  e_seq [e_oid o_signed;
         enc xa0 [e_seq [e_int version; e_set algs; e_seq [e_oid typ; enc xa0 [content]]; concat extra; e_set signers]]].

(** SpcIndirectDataContent, without its tag and length. *)
Definition e_spc (alg : string) (digest : bytes) : bytes :=
  e_seq [e_oid o_image; e_seq []] ++ e_seq [e_alg alg; e_octets digest].
(** TSTInfo. *)
Definition e_tst (digest : bytes) (rest : list bytes) : bytes :=
  e_seq ([e_int x01; e_oid "2a03"; e_seq [e_alg o_sha256; e_octets digest]; e_int x07; enc x18 [str "20200102030405Z"]] ++ rest).

(** The attributes of the signer of [content]; toy hashes as in PropertiesX509.v. *)
Definition e_signed_attrs (typ : string) (content : bytes) : list bytes :=
  [e_attr a_type [e_oid typ]; e_attr a_digest [e_octets (e_hash ex_env "sha256" content)]].
(** The toy signature is the signed octets. *)
Definition e_signature (attrs : list bytes) : bytes := e_hash ex_env "sha256" (encode_attributes (concat attrs)).

(** A timestamp token of [digest]. *)
Definition e_token (digest : bytes) (rest : list bytes) : bytes :=
  let content := e_tst digest rest in
  let attrs := e_signed_attrs o_tst content in
  e_signed x03 [e_alg o_sha256] o_tst (e_octets content) [] [e_signer o_sha256 attrs (e_signature attrs) []].
(** A countersignature, with its own unsigned attributes. *)
Definition e_counter (digest : bytes) (unsigned : list bytes) : bytes :=
  let attrs := e_signed_attrs o_data digest ++ [e_attr a_time [enc x17 [str "200102030405Z"]]] in
  e_signer o_sha256 attrs (e_signature attrs) unsigned.

(** A certificate that is its own issuer. *)
Definition e_cert : bytes :=
  e_seq [e_seq [e_int x05; e_alg o_rsa; e_name "Me"; e_seq [enc x17 [str "200101000000Z"]; enc x17 [str "400101000000Z"]];
                e_name "Me"; e_seq [e_alg o_rsa; enc x03 [[x00; x01]]]];
         e_alg o_rsa; enc x03 [[x00; x01]]].

(** An Authenticode signature with the digest [digest]: the content in the way of PKCS #7
    (version 1) or of CMS (version 3). *)
Definition e_envelope (version : byte) (digest : bytes) (unsigned : list bytes) : bytes :=
  let content := e_spc o_sha256 digest in
  let v3 := bytes_eqb [version] [x03] in
  let attrs := e_signed_attrs o_spc (if v3 then e_seq [content] else content) in
  e_signed version [e_alg o_sha256] o_spc (if v3 then e_octets (e_seq [content]) else e_seq [content])
    [enc xa0 [e_cert]] [e_signer o_sha256 attrs (e_signature attrs) unsigned].

(** Envelopes that are rejected, with the class of the exception. *)
Definition e_plain (unsigned : list bytes) : bytes := e_envelope x01 (str "digest") unsigned.
Definition e_stamped (token : bytes) : bytes := e_plain [e_attr a_token [token]].
Definition e_other (algs signers : list bytes) : bytes :=
  e_signed x01 algs o_spc (e_seq [e_spc o_sha256 (str "digest")]) [] signers.
Fixpoint e_deep (n : nat) : bytes :=
  match n with
  | O => e_counter (str "h") []
  | S k => e_counter (str "h") [e_attr a_counter [e_deep k]]
  end.
Definition e_assertion : bytes :=
  let content := e_tst (str "h") [] in
  let attrs := e_signed_attrs o_tst content in
  e_signed x03 [e_alg o_sha256] o_tst (e_octets content) []
    [e_signer o_sha256 attrs (e_signature attrs) [e_attr a_counter [e_counter (str "h") []]]].
Definition e_rejected : list (exc_class * bytes) :=
  [(ValueError, removelast (e_plain []));
   (ParseError, e_seq [e_oid o_data]);
   (SignerInfoParseError, e_other [e_alg o_sha256] [e_signer o_sha256 [e_attr a_type [e_oid o_spc]] [] []]);
   (AuthenticodeParseError, e_other [e_alg o_sha256] []);
   (KeyError, e_other [e_alg o_sha256; e_alg o_sha1] []);
   (TypeError, e_seq [e_oid o_signed]);
   (RecursionError, e_plain [e_attr a_counter [e_deep 9]]);
   (AssertionError, e_stamped e_assertion);
   (NotImplementedError, e_stamped (e_token (str "h") [enc xa0 [enc x82 [str "example.org"]]]));
   (OverflowError, e_stamped (e_token (str "h") [e_seq [enc x02 [[x7f; xff; xff; xff; xff; xff; xff; xff]]]]))].

(** A file with such an envelope for its own hash; the certificate is trusted. *)
Definition e_image (version : byte) (unsigned : list bytes) : file :=
  let h := ex_hash "sha256" (ex_image [mkEntry 0x200 2 (str "12345678")]) in
  ex_image [mkEntry 0x200 2 (e_envelope version h unsigned)].
Definition e_env : env :=
  {| e_hash := e_hash ex_env; e_load_key := e_load_key ex_env; e_rsa_verify := e_rsa_verify ex_env;
     e_dsa_verify := e_dsa_verify ex_env; e_ecdsa_verify := e_ecdsa_verify ex_env; e_now := 1000;
     e_mk_validation := fun _ _ _ _ _ => Ok tt;
     e_validate := fun _ _ _ c _ _ _ _ => Ok [c_id c];
     e_hashlib_has := e_hashlib_has ex_env |}.
Definition e_world (f : file) : world :=
  mkWorld [mkStore (match cert_from_der e_cert with Ok c => [c] | Err _ => [] end) true None None false] [] f.
