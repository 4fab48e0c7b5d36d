(** The identifier octets in the encodings of the declared types, written out as octets from the
    ASN.1 modules of RFC 5280, RFC 5652 and RFC 3161, and for the structures of Microsoft from what
    signify/asn1/spc.py and ctl.py declare: [true] for a field that may be absent, and
    the octets that it can begin with, or None if there can be any. *)
From Verif Require Import Base ModelDer ModelSpc SpecAsn.

Definition outline : Type := list (bool * option (list byte)).
Definition required (l : list byte) : bool * option (list byte) := (false, Some l).
Definition optional (l : list byte) : bool * option (list byte) := (true, Some l).
Definition can_begin (ids : option (list byte)) (h : byte) : Prop := forall l, ids = Some l -> In h l.

(** The fields one after the other, each beginning as it has to. *)
Inductive laid_out : outline -> list (option aval) -> bytes -> Prop :=
| LaidNil : laid_out [] [] []
| LaidAbsent ids t vs c : laid_out t vs c -> laid_out ((true, ids) :: t) (None :: vs) c
| LaidPresent may ids h b v t vs c :
    can_begin ids h -> laid_out t vs c -> laid_out ((may, ids) :: t) (Some v :: vs) ((h :: b) ++ c).

(** The values without the fields that may be absent. *)
Fixpoint shortest (t : outline) (vs : list (option aval)) : list (option aval) :=
  match t, vs with
  | (may, _) :: t', v :: vs' => (if may then None else v) :: shortest t' vs'
  | _, _ => []
  end.

Definition sequences : list (asn * outline) :=
  [(SpcSerializedObject, [required [x04]; required [x04]]);
   (SpcImage, [optional [xa0]; optional [x81]; optional [x82]; optional [x83]; optional [x84]]);
   (SpcPeImageData, [optional [x03]; optional [xa0]]);
   (SpcAttributeTypeAndOptionalValue, [required [x06]; (true, None)]);
   (AlgorithmIdentifier, [required [x06]; (true, None)]);
   (DigestInfo, [required [x30]; required [x04]]);
   (SpcIndirectDataContent, [required [x30]; required [x30]]);
   (SpcSpOpusInfo, [optional [xa0]; optional [xa1]; optional [xa2]]);
   (SpcSpAgencyInformation, [required [xa0]; optional [xa1]; optional [xa2]; optional [xa3]]);
   (SpcFinancialCriteria, [optional [x01]; optional [x01]]);
   (NameTypeAndValue, [required [x06]; (false, None)]);
   (Validity, [required [x17; x18]; required [x17; x18]]);
   (PublicKeyInfo, [required [x30]; required [x03]]);
   (Extension, [required [x06]; optional [x01]; required [x04]]);
   (TbsCertificate, [optional [xa0]; required [x02]; required [x30]; required [x30]; required [x30]; required [x30]; required [x30];
                     optional [x81]; optional [x82]; optional [xa3]]);
   (Certificate, [required [x30]; required [x30]; required [x03]]);
   (SubjectAttribute, [required [x06]; required [x31]]);
   (TrustedSubject, [required [x04]; optional [x31]]);
   (CertificateTrustList, [optional [x02]; required [x30]; optional [x04]; optional [x02]; required [x17; x18]; optional [x17; x18];
                           required [x30]; optional [x30]; optional [xa0]]);
   (ContentInfo, [required [x06]; optional [xa0]]);
   (EncapsulatedContentInfo, [required [x06]; optional [xa0]]);
   (IssuerAndSerialNumber, [required [x30]; required [x02]]);
   (CMSAttribute, [required [x06]; required [x31]]);
   (SignerInfo, [required [x02]; required [x30; x80]; required [x30]; optional [xa0]; required [x30]; required [x04]; optional [xa1]]);
   (SignedData, [required [x02]; required [x31]; required [x30]; optional [xa0]; optional [xa1]; required [x31]]);
   (MessageImprint, [required [x30]; required [x04]]);
   (Accuracy, [optional [x02]; optional [x80]; optional [x81]]);
   (TSTInfo, [required [x02]; required [x06]; required [x30]; required [x02]; required [x18]; optional [x30]; optional [x01];
              optional [x02]; optional [xa0]; optional [xa1]])].

(** The alternatives of the choices; the ones that are not decoded can be primitive or constructed. *)
Definition choices : list (asn * list (string * list byte)) :=
  [(SpcString, [("unicode", [x80]); ("ascii", [x81])]);
   (SpcLink, [("url", [x80]); ("moniker", [xa1]); ("file", [xa2])]);
   (Time, [("utc_time", [x17]); ("general_time", [x18])]);
   (SignerIdentifier, [("issuer_and_serial_number", [x30]); ("subject_key_identifier", [x80])]);
   (CertificateChoices, [("certificate", [x30]); ("extended_certificate", [x80; xa0]); ("v1_attr_cert", [x81; xa1]);
                         ("v2_attr_cert", [x82; xa2]); ("other", [x83; xa3])]);
   (GeneralName, [("other_name", [x80; xa0]); ("rfc822_name", [x81]); ("dns_name", [x82]); ("x400_address", [x83; xa3]);
                  ("directory_name", [xa4]); ("edi_party_name", [x85; xa5]); ("uniform_resource_identifier", [x86]);
                  ("ip_address", [x87]); ("registered_id", [x88])])].

(** The types of the elements of the others. *)
Definition repetitions : list (asn * (byte * list byte)) :=
  [(SpcStatementType, (x30, [x06])); (ExtKeyUsageSyntax, (x30, [x06])); (Name, (x30, [x31]))].

(** How the tag of a field is written: it is that of the type itself; this octet is around the value;
    this octet is in the place of that of the type; or the value is not decoded. *)
Inductive mark : Type :=
| Own
| Around (h : byte)
| Instead (h : byte)
| Undecoded.
Definition marked (k : mark) (x : asn) (v : aval) (b : bytes) : Prop :=
  match k with
  | Own => encodes x Untagged v b
  | Around h => exists lo c, b = h :: lo ++ c /\ length_octets (zlen c) lo /\ encodes x Untagged v c
  | Instead h => exists u lo c, b = h :: lo ++ c /\ length_octets (zlen c) lo /\ encodes x Untagged v (u :: lo ++ c)
  | Undecoded => True
  end.
Definition marked_sequences : list (asn * list mark) :=
  [(SpcImage, [Around xa0; Instead x81; Instead x82; Instead x83; Instead x84]);
   (SpcPeImageData, [Own; Around xa0]);
   (SpcSpOpusInfo, [Around xa0; Around xa1; Around xa2]);
   (SpcSpAgencyInformation, [Around xa0; Around xa1; Instead xa2; Around xa3]);
   (TbsCertificate, [Around xa0; Own; Own; Own; Own; Own; Own; Instead x81; Instead x82; Around xa3]);
   (CertificateTrustList, [Own; Own; Own; Own; Own; Own; Own; Own; Around xa0]);
   (ContentInfo, [Own; Around xa0]); (EncapsulatedContentInfo, [Own; Around xa0]);
   (SignerInfo, [Own; Own; Own; Instead xa0; Own; Own; Instead xa1]);
   (SignedData, [Own; Own; Own; Instead xa0; Instead xa1; Own]);
   (Accuracy, [Own; Instead x80; Instead x81]);
   (TSTInfo, [Own; Own; Own; Own; Own; Own; Own; Own; Around xa0; Instead xa1])].
Definition marked_choices : list (asn * list mark) :=
  [(SpcString, [Instead x80; Instead x81]);
   (SpcLink, [Instead x80; Instead xa1; Around xa2]);
   (SignerIdentifier, [Own; Instead x80]);
   (CertificateChoices, [Own; Undecoded; Undecoded; Undecoded; Undecoded]);
   (GeneralName, [Undecoded; Instead x81; Instead x82; Undecoded; Around xa4; Undecoded; Instead x86; Instead x87; Instead x88])].
