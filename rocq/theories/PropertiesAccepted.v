(** Property C86: exactly what encodes a well-formed signature is accepted. *)
From Verif Require Import Base Monad ModelX509 ModelPkcs7 ModelLazy ModelAuthenticode ModelDer ModelSpc ModelDecode ModelShown SpecAsn
  SpecAuthenticode SpecLazy SpecDer SpecPrim SpecBer SpecStl SpecRead SpecEnvelope SpecShown SpecAccepted ProofsBer2 ProofsAccepted4 ProofsAccepted5
  PropertiesFingerprint PropertiesX509 ExampleData ExampleDer PropertiesAsn PropertiesRead PropertiesEnvelope.

(** Octets that are accepted as a signature begin with the encoding of a ContentInfo with a
    SignedData, whose values say what has been made of them. *)
Theorem C86_accepted :
  forall depth pe b a, lz_from_envelope der_loader depth pe b = Ok a -> encoded_signature pe b a.
Proof. exact envelope_back. Qed.
Print Assumptions C86_accepted.

(** And whatever is such an encoding is accepted, from some depth of recursion on. *)
Theorem C86_found :
  forall pe b a, encoded_signature pe b a ->
  exists n, forall depth, (n <= depth)%nat -> lz_from_envelope der_loader depth pe b = Ok a.
Proof. exact envelope_at. Qed.
Print Assumptions C86_found.

(** So the octets that are accepted are exactly these, as exactly these signatures. *)
Theorem C86_exact :
  forall pe b a, (exists depth, lz_from_envelope der_loader depth pe b = Ok a) <-> encoded_signature pe b a.
Proof. exact envelope_iff. Qed.
Print Assumptions C86_exact.

(** The same of a certificate. *)
Theorem C86_certificate :
  forall b c, cert_from_der b = Ok c <->
  exists t v, holds_a AAny b (VAny t) /\ is_a X509 t v /\ cert_means v c /\ c_id c = identity (tlv_dump t) /\ c_der c = tlv_dump t.
Proof. exact certificate_iff. Qed.
Print Assumptions C86_certificate.

(** ** Examples *)

(** The signature of PropertiesEnvelope.v, with a nested one, a countersignature and a token. *)
Example C86_full : exists a, lz_from_envelope der_loader 5 true e_full = Ok a /\ encoded_signature true e_full a.
Proof.
  assert (H : exists a, lz_from_envelope der_loader 5 true e_full = Ok a) by (eexists; vm_compute; reflexivity).
  destruct H as (a & H). exists a. split; [exact H|exact (C86_accepted _ _ _ _ H)].
Qed.

Example C86_cert : exists c, cert_from_der e_cert = Ok c.
Proof. eexists. vm_compute. reflexivity. Qed.
