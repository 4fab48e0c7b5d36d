(** What the octets of a signature tell about the program and its publisher, after the
    declarations of SpecEnvelope.v. *)
From Verif Require Import Base ModelX509 ModelPkcs7 ModelLazy ModelAuthenticode ModelDer ModelSpc ModelDecode ModelShown SpecPrim SpecStl SpecRead SpecEnvelope.

(** ** Texts and links *)

Definition ascii_chars (b : bytes) : ustr := map (fun x => Z.to_N (Z_of_byte x)) b.
(** SpcString: UTF-16 or ASCII. *)
Definition text_tells (v : aval) (u : ustr) : Prop :=
  (v = VChoice "unicode" (VPrim (utf16_be u)) /\ Forall scalar u) \/
  (exists b, v = VChoice "ascii" (VPrim b) /\ ascii_octets b /\ u = ascii_chars b).
(** SpcLink: an address, an object, or a text. *)
Definition link_tells (v : aval) (n : native) : Prop :=
  (exists b, v = VChoice "url" (VPrim b) /\ ascii_octets b /\ n = NText (ascii_chars b)) \/
  (exists c d, v = VChoice "moniker" (VSeq [Some (VPrim c); Some (VPrim d)]) /\ n = NObject c d) \/
  (exists x u, v = VChoice "file" x /\ text_tells x u /\ n = NText u).

(** ** Attributes *)

Definition opus_tells (t : tlv) (name : option ustr) (info publisher : option native) : Prop :=
  exists a b c, is_a MsOpus t (VSeq [a; b; c]) /\
  maybe text_tells a name /\ maybe link_tells b info /\ maybe link_tells c publisher.
(** The identifiers of the statement types, by their names. *)
Definition statement_tells (t : tlv) (l : list string) : Prop :=
  exists ids, is_a (ASeqOf (APrim 6)) t (VList (map VPrim ids)) /\
  Forall2 (fun id n => (oid_text id = "1.3.6.1.4.1.311.2.1.21" /\ n = "microsoft_spc_individual_sp_key_purpose") \/
                       (oid_text id = "1.3.6.1.4.1.311.2.1.22" /\ n = "microsoft_spc_commercial_sp_key_purpose") \/
                       (oid_text id <> "1.3.6.1.4.1.311.2.1.21" /\ oid_text id <> "1.3.6.1.4.1.311.2.1.22" /\ n = oid_text id))
          ids l.

(** [t] is an attribute of the type [fst a] with the values [snd a]. *)
Definition attribute (t : tlv) (a : string * list tlv) : Prop :=
  exists oid, is_a CmsAttribute t (VSeq [Some (VPrim oid); Some (VList (map VAny (snd a)))]) /\ fst a = oid_text oid.
(** The values of the last attribute of a type. *)
Inductive last_of (typ : string) : list (string * list tlv) -> option (list tlv) -> Prop :=
| LastNone l : Forall (fun a => fst a <> typ) l -> last_of typ l None
| LastSome l v r : Forall (fun a => fst a <> typ) r -> last_of typ (l ++ (typ, v) :: r) (Some v).

(** A SignerInfo whose signed attributes are these. *)
Definition signed_attributes (t : tlv) (l : list (string * list tlv)) : Prop :=
  exists version sid alg signed salg signature unsigned ts,
  is_a CmsSigner t (VSeq [version; sid; alg; signed; salg; signature; unsigned]) /\ members signed ts /\ Forall2 attribute ts l.
(** It tells this. *)
Definition signer_tells (t : tlv) (s : signer_shown) : Prop :=
  exists l o1 o2, signed_attributes t l /\
  last_of "1.3.6.1.4.1.311.2.1.11" l o1 /\ last_of "1.3.6.1.4.1.311.2.1.12" l o2 /\
  match o1, sh_statement_types s with
  | None, None => True
  | Some [x], Some names => statement_tells x names
  | _, _ => False
  end /\
  match o2 with
  | None => sh_program_name s = None /\ sh_more_info s = None /\ sh_publisher_info s = None
  | Some [x] => opus_tells x (sh_program_name s) (sh_more_info s) (sh_publisher_info s)
  | _ => False
  end.

(** ** The image *)

(** Bit [i] of octets, counted from the most significant bit of the first. *)
Definition bit_at (l : bytes) (i : nat) : Prop :=
  exists x, nth_error l (i / 8) = Some x /\ Z.testbit (Z_of_byte x) (7 - Z.of_nat (i mod 8)) = true.
Definition flag_of (i : nat) : flag :=
  match i with
  | 0%nat => FName "include_resources"
  | 1%nat => FName "include_debug_info"
  | 2%nat => FName "include_import_address_table"
  | _ => FBit i
  end.
(** The flags are those of the bits that are set and used. *)
Definition flags_tell (v : aval) (l : list flag) : Prop :=
  exists unused b, v = VPrim (unused :: b) /\ Z_of_byte unused < 8 /\ (b = [] -> unused = x00) /\
  NoDup l /\
  forall x, In x l <-> exists i, x = flag_of i /\ bit_at b i /\ Z.of_nat i < 8 * zlen b - Z_of_byte unused.
Definition image_tells (t : tlv) (s : image_shown) : Prop :=
  exists flags file, is_a MsImage t (VSeq [flags; file]) /\
  match flags with
  | None => sh_image_flags s = [FName "include_resources"]
  | Some v => flags_tell v (sh_image_flags s)
  end /\ maybe link_tells file (sh_image_publisher s).

(** ** What is signed *)

(** The octets that a SignerInfo signs. *)
Definition signs_octets (t : tlv) (o : bytes) : Prop :=
  exists version sid alg signed salg signature unsigned ts,
  is_a CmsSigner t (VSeq [version; sid; alg; signed; salg; signature; unsigned]) /\ members signed ts /\
  o = encode_attributes (concat (map tlv_dump ts)).
(** The octets that a SignedData hashes, with the content [u]: in version 1 without tag and
    length. *)
Definition hashes_content (u : tlv) (o : bytes) : Prop := o = t_contents u \/ holds_a AAny o (VAny u).
(** A content that can be read, with these flags and this publisher of the image. *)
Definition content_ok (u t : tlv) (publisher : option native) : Prop :=
  exists typ digest flags file,
  is_a MsContent u (VSeq [Some (VSeq [Some (VPrim typ); Some (VAny t)]); digest]) /\
  is_a MsImage t (VSeq [flags; file]) /\ ok_if_present bits_ok flags /\ maybe link_tells file publisher.

(** What is shown of [a] is what is told by what it signs. *)
Definition shown_as_signed (a : asd) (x : signer_shown * image_shown) : Prop :=
  (forall t s, signs_octets t (si_encoded (asi_info (asd_signer a))) -> signer_tells t s -> fst x = s) /\
  (forall u t p, hashes_content u (sd_octets (asd_data a)) -> content_ok u t p ->
     image_tells t (snd x) /\ sh_image_publisher (snd x) = p).

(** [x] is shown of [a], a signature of the envelope [b]: itself or one nested in it. *)
Definition shows (b : bytes) (a : asd) (x : signer_shown * image_shown) : Prop :=
  exists depth pe top l i, lz_from_envelope der_loader depth pe b = Ok top /\ show_envelope b = Ok l /\
  nth_error (recursive_nested true top) i = Some a /\ nth_error l i = Some x.
