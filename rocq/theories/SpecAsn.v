(** How values of declared types are written in octets (X.690, definite lengths), as relations
    between values and octets; nothing here refers to the decoder of ModelDer.v. *)
From Verif Require Import Base ModelDer ModelSpc.

(** The first octet: class, constructed or primitive, tag (of one octet). *)
Definition identifier (cls : Z) (con : bool) (tag : Z) : byte :=
  byte_of_Z (cls * 64 + (if con then 32 else 0) + tag).

Fixpoint big_endian (b : bytes) : Z :=
  match b with
  | [] => 0
  | x :: b' => Z_of_byte x * 256 ^ zlen b' + big_endian b'
  end.
(** Either form of a definite length; the long form need not be the shortest. *)
Inductive length_octets : Z -> bytes -> Prop :=
| Short n : 0 <= n < 128 -> length_octets n [byte_of_Z n]
| Long l : 1 <= zlen l <= 127 -> length_octets (big_endian l) (byte_of_Z (128 + zlen l) :: l).

(** A value with its tag and length. *)
Inductive element (cls : Z) (con : bool) (tag : Z) (contents : bytes) : bytes -> Prop :=
| Element lo :
    0 <= cls <= 3 -> 0 <= tag <= 30 -> length_octets (zlen contents) lo ->
    element cls con tag contents (identifier cls con tag :: lo ++ contents).

(** An explicit tag is around the value, an implicit one in the place of its own. *)
Inductive outer : tagging -> bytes -> bytes -> Prop :=
| OuterUntagged b : outer Untagged b b
| OuterExplicit n b b' : element 2 true n b b' -> outer (Explicit n) b b'.
Inductive tagged (con : bool) (tag : Z) (contents : bytes) : tagging -> bytes -> Prop :=
| TaggedImplicit n b : element 2 con n contents b -> tagged con tag contents (Implicit n) b
| TaggedOther tg b b' : element 0 con tag contents b -> outer tg b b' -> tagged con tag contents tg b'.

(** What is written for a value of unknown type. *)
Definition undeclared (t : tlv) : Prop :=
  t_trailer t = [] /\ element (t_class t) (t_cons t) (t_tag t) (t_contents t) (tlv_dump t).

(** [encodes a tg v b]: b is written for the value v of the type a. *)
Inductive encodes : asn -> tagging -> aval -> bytes -> Prop :=
| EncPrim tag tg c b : tagged false tag c tg b -> encodes (APrim tag) tg (VPrim c) b
| EncSeq fs vs c tg b : encodes_fields fs vs c -> tagged true 16 c tg b -> encodes (ASeq fs) tg (VSeq vs) b
| EncSeqOf x vs c tg b : encodes_all x vs c -> tagged true 16 c tg b -> encodes (ASeqOf x) tg (VList vs) b
| EncSetOf x vs c tg b : encodes_all x vs c -> tagged true 17 c tg b -> encodes (ASetOf x) tg (VList vs) b
| EncChoice alts n x y v tg b b' :
    In (n, (x, y)) alts -> encodes x y v b -> outer tg b b' -> encodes (AChoice alts) tg (VChoice n v) b'
| EncAny t tg b : undeclared t -> outer tg (tlv_dump t) b -> encodes AAny tg (VAny t) b
| EncAnyImplicit t n : undeclared t -> t_class t = 2 -> t_tag t = n -> encodes AAny (Implicit n) (VAny t) (tlv_dump t)
with encodes_fields : list (string * (asn * (tagging * presence))) -> list (option aval) -> bytes -> Prop :=
| FieldsNil : encodes_fields [] [] []
| FieldsAbsent n x tg p fs vs c :
    p <> Required -> encodes_fields fs vs c -> encodes_fields ((n, (x, (tg, p))) :: fs) (None :: vs) c
| FieldsPresent n x tg p fs v vs b c :
    encodes x tg v b -> encodes_fields fs vs c -> encodes_fields ((n, (x, (tg, p))) :: fs) (Some v :: vs) (b ++ c)
with encodes_all : asn -> list aval -> bytes -> Prop :=
| AllNil x : encodes_all x [] []
| AllCons x v vs b c : encodes x Untagged v b -> encodes_all x vs c -> encodes_all x (v :: vs) (b ++ c).
Scheme encodes_mut := Minimality for encodes Sort Prop
  with encodes_fields_mut := Minimality for encodes_fields Sort Prop
  with encodes_all_mut := Minimality for encodes_all Sort Prop.
Combined Scheme encodes_ind3 from encodes_mut, encodes_fields_mut, encodes_all_mut.

(** Class and tag with which a value of the type can begin. *)
Inductive begins : asn -> tagging -> Z * Z -> Prop :=
| BeginsImplicit a n : begins a (Implicit n) (2, n)
| BeginsExplicit a n : begins a (Explicit n) (2, n)
| BeginsPrim tag : begins (APrim tag) Untagged (0, tag)
| BeginsSeq fs : begins (ASeq fs) Untagged (0, 16)
| BeginsSeqOf x : begins (ASeqOf x) Untagged (0, 16)
| BeginsSetOf x : begins (ASetOf x) Untagged (0, 17)
| BeginsChoice alts n x y i : In (n, (x, y)) alts -> begins x y i -> begins (AChoice alts) Untagged i
| BeginsAny i : begins AAny Untagged i.

(** X.680: a value that follows an optional field that is absent must not begin like it, and
    the alternatives of a choice must begin differently. *)
Inductive follows : list (string * (asn * (tagging * presence))) -> Z * Z -> Prop :=
| FollowsHere n x tg p fs i : begins x tg i -> follows ((n, (x, (tg, p))) :: fs) i
| FollowsLater n x tg p fs i : p <> Required -> follows fs i -> follows ((n, (x, (tg, p))) :: fs) i.
Inductive distinct : asn -> Prop :=
| DistinctPrim tag : distinct (APrim tag)
| DistinctSeq fs : distinct_fields fs -> distinct (ASeq fs)
| DistinctSeqOf x : distinct x -> distinct (ASeqOf x)
| DistinctSetOf x : distinct x -> distinct (ASetOf x)
| DistinctChoice alts : distinct_alts alts -> distinct (AChoice alts)
| DistinctAny : distinct AAny
with distinct_fields : list (string * (asn * (tagging * presence))) -> Prop :=
| DFNil : distinct_fields []
| DFCons n x tg p fs :
    distinct x -> distinct_fields fs ->
    (p <> Required -> forall i, begins x tg i -> ~ follows fs i) ->
    distinct_fields ((n, (x, (tg, p))) :: fs)
with distinct_alts : list (string * (asn * tagging)) -> Prop :=
| DANil : distinct_alts []
| DACons n x y alts :
    distinct x -> distinct_alts alts ->
    (forall n' x' y' i, In (n', (x', y')) alts -> begins x y i -> ~ begins x' y' i) ->
    distinct_alts ((n, (x, y)) :: alts).

(** The structures that signify/asn1 declares, those of asn1crypto that they are made of, and
    those of asn1crypto that are read. *)
Definition declarations : list asn :=
  [SpcSerializedObject; SpcString; SpcLink; SpcImage; SpcPeImageData; SpcAttributeTypeAndOptionalValue;
   SpcIndirectDataContent; SpcSpOpusInfo; ASetOf SpcSpOpusInfo; SpcStatementType; ASetOf SpcStatementType;
   SpcSpAgencyInformation;
   SubjectAttribute; TrustedSubject; ASeqOf TrustedSubject; CertificateTrustList;
   AlgorithmIdentifier; DigestInfo; Name; Time; Certificate; ContentInfo; EncapsulatedContentInfo;
   SignerIdentifier; CMSAttribute; SignerInfo; MessageImprint; Accuracy; GeneralName; TSTInfo].
