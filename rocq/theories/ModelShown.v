(** Model of what a signature tells about the program and its publisher: the attributes
    [program_name], [more_info], [publisher_info] and [statement_types] of AuthenticodeSignerInfo
    (structures.py:200-233) and [image_flags], [image_publisher] of SpcInfo
    (structures.py:358-367), as read from the octets.  The rest of the parsing, and when it
    fails, is in ModelLazy.v and ModelDecode.v.  No proofs in this file. *)
From Verif Require Import Base ModelX509 ModelPkcs7 ModelDer ModelSpc ModelDecode.

(** [.native] of a SpcLink, spc.py:100-117: a str, or for a moniker the OrderedDict of its two
    fields (spc.py:76-79). *)
Inductive native : Type :=
| NText (u : ustr)
| NObject (class_id serialized_data : bytes).

(** [.native] of a SpcPeImageFlags, spc.py:150-154: a set of the names of the bits that are set,
    and of the numbers of those without a name. *)
Inductive flag : Type :=
| FName (n : string)
| FBit (i : nat).

(** structures.py:203-233; None: the attribute of the object is None. *)
Record signer_shown := mkSignerShown {
  sh_statement_types : option (list string);
  sh_program_name : option ustr;
  sh_more_info : option native;
  sh_publisher_info : option native
}.
(** structures.py:366-367. *)
Record image_shown := mkImageShown { sh_image_flags : list flag; sh_image_publisher : option native }.

(** The chosen alternative of a SpcLink. *)
Definition show_link (a : asn) (tg : tagging) (t : tlv) : res native :=
  choice_of a tg t
    (fun n x y u =>
       if String.eqb n "url" then let? b := contents_of x y u in let? s := ascii_text b in Ok (NText s)
       else if String.eqb n "moniker" then
         let? b := contents_of x y u in
         let kids := children SpcSerializedObject b in
         let? c := read SpcSerializedObject kids "class_id" contents_of in
         let? d := read SpcSerializedObject kids "serialized_data" contents_of in
         Ok (NObject c d)
       else let? s := read_spc_string x y u in Ok (NText s)).

(** [{attr["type"].native: list(attr["values"])}], signerinfo.py:249, one attribute; the values
    are decoded below. *)
Definition show_attr (t : tlv) : res (string * list tlv) :=
  let? b := contents_of CMSAttribute Untagged t in
  let kids := children CMSAttribute b in
  let? typ := read CMSAttribute kids "type" (read_oid attribute_types) in
  let? l := read CMSAttribute kids "values" items_of in
  Ok (typ, l).
(** A lookup in the dict: an attribute replaces an earlier one of the same type. *)
Fixpoint show_values (typ : string) (l : list (string * list tlv)) : option (list tlv) :=
  match l with
  | [] => None
  | (t, v) :: l' => match show_values typ l' with
                    | Some w => Some w
                    | None => if String.eqb t typ then Some v else None
                    end
  end.
(** The attributes of a SignerInfo, an absent set being empty. *)
Definition show_dict (kids : res (dict (option tlv))) (n : string) : res (list (string * list tlv)) :=
  let? o := read_field SignerInfo kids n items_of in
  map_res show_attr (match o with Some l => l | None => [] end).

(** [self.statement_types], structures.py:203-213. *)
Definition show_statement (d : list (string * list tlv)) : res (option (list string)) :=
  match show_values "microsoft_spc_statement_type" d with
  | None => Ok None
  | Some [t] =>
      let? b := contents_of SpcStatementType Untagged t in
      let? l := parse_all b in
      let? names := map_res (read_oid spc_statement_types aObjectIdentifier Untagged) l in
      Ok (Some names)
  | Some _ => raise AuthenticodeParseError "Only one SpcStatementType expected in SignerInfo.authenticatedAttributes"
  end.

(** [self.program_name], [self.more_info] and [self.publisher_info], structures.py:217-233. *)
Definition show_opus (t : tlv) : res (option ustr * option native * option native) :=
  let? b := contents_of SpcSpOpusInfo Untagged t in
  let kids := children SpcSpOpusInfo b in
  let? name := read_field SpcSpOpusInfo kids "program_name" read_spc_string in
  let? info := read_field SpcSpOpusInfo kids "more_info" show_link in
  let? publisher := read_field SpcSpOpusInfo kids "publisher_info" show_link in
  Ok (name, info, publisher).
Definition show_opus_info (d : list (string * list tlv)) : res (option ustr * option native * option native) :=
  match show_values "microsoft_spc_sp_opus_info" d with
  | None => Ok (None, None, None)
  | Some [t] => show_opus t
  | Some _ => raise AuthenticodeParseError "Only one SpcSpOpusInfo expected in SignerInfo.authenticatedAttributes"
  end.

(** AuthenticodeSignerInfo, structures.py:200-233, of the contents of a SignerInfo. *)
Definition show_signer (contents : bytes) : res signer_shown :=
  let? d := show_dict (children SignerInfo contents) "signed_attrs" in
  let? s := show_statement d in
  let? o := show_opus_info d in
  Ok (mkSignerShown s (fst (fst o)) (snd (fst o)) (snd o)).

(** [["flags"].native] and [["file"].native], structures.py:366-367. *)
Fixpoint set_flags (i : nat) (names : list string) (bits : list bool) : list flag :=
  match bits with
  | [] => []
  | b :: bits' =>
      (if b then [match names with n :: _ => FName n | [] => FBit i end] else []) ++
      set_flags (S i) (match names with _ :: l => l | [] => [] end) bits'
  end.
Definition show_flags (a : asn) (tg : tagging) (t : tlv) : res (list flag) :=
  let? b := contents_of a tg t in
  let? bits := bit_string b in
  Ok (set_flags 0 pe_image_flags bits).
Definition show_image (t : tlv) : res image_shown :=
  let? b := contents_of SpcPeImageData Untagged t in
  let kids := children SpcPeImageData b in
  let? flags := read_field SpcPeImageData kids "flags" show_flags in
  let? file := read_field SpcPeImageData kids "file" show_link in
  Ok (mkImageShown (match flags with Some l => l | None => [FName "include_resources"] end) file).
(** SpcInfo, structures.py:358-367, of the contents of a SpcIndirectDataContent. *)
Definition show_spc (contents : bytes) : res image_shown :=
  let? b := read SpcIndirectDataContent (children SpcIndirectDataContent contents) "data" contents_of in
  let? o := read_field SpcAttributeTypeAndOptionalValue (children SpcAttributeTypeAndOptionalValue b) "value"
              (fun _ _ t => show_image t) in
  match o with Some i => Ok i | None => raise TypeError "object is not subscriptable" end.
(** The content of a SignedData, signeddata.py:117-131: see [read_content]. *)
Definition show_content (version : string) (contents : bytes) : res image_shown :=
  if String.eqb version "v1" then
    let? o := read_field ContentInfo (children ContentInfo contents) "content" (fun _ tg t => unwrap tg t) in
    match o with
    | Some u => let? b := contents_of SpcIndirectDataContent Untagged u in show_spc b
    | None => raise TypeError "object is not subscriptable"
    end
  else
    let? o := read_field EncapsulatedContentInfo (children EncapsulatedContentInfo contents) "content" contents_of in
    match o with
    | Some b =>
        let? (u, _) := parse_tlv b in
        let? c := contents_of SpcIndirectDataContent Untagged u in show_spc c
    | None => raise TypeError "object is not subscriptable"
    end.

(** AuthenticodeSignedData of the contents of a SignedData (structures.py:408-425), followed by
    those nested in it (structures.py:235-251) in the order of [recursive_nested]
    (signed_pe.py:294-301).  [fuel] bounds the nesting. *)
Fixpoint show_sd (fuel : nat) (contents : bytes) : res (list (signer_shown * image_shown)) :=
  match fuel with
  | O => too_deep
  | S f =>
      let kids := children SignedData contents in
      let? l := read SignedData kids "signer_infos" items_of in
      match l with
      | [t] =>
          let? si := contents_of SignerInfo Untagged t in
          let? signer := show_signer si in
          let? version := read SignedData kids "version"
                            (fun a tg t => let? b := contents_of a tg t in Ok (version_native 0 b)) in
          let? encap := read SignedData kids "encap_content_info" contents_of in
          let? image := show_content version encap in
          let? d := show_dict (children SignerInfo si) "unsigned_attrs" in
          let? nested :=
            map_res (fun t =>
                       let? b := contents_of ContentInfo Untagged t in
                       let? u := read ContentInfo (children ContentInfo b) "content" (fun _ tg t => unwrap tg t) in
                       let? c := contents_of SignedData Untagged u in
                       show_sd f c)
                    (match show_values "microsoft_nested_signature" d with Some l => l | None => [] end) in
          Ok ((signer, image) :: concat nested)
      | _ => raise AuthenticodeParseError "SignedData.signerInfos must contain exactly 1 signer"
      end
  end.

(** [SignedData.from_envelope], signeddata.py:85-97. *)
Definition show_envelope (b : bytes) : res (list (signer_shown * image_shown)) :=
  let? (t, _) := parse_tlv b in
  let? c := contents_of ContentInfo Untagged t in
  let? u := read ContentInfo (children ContentInfo c) "content" (fun _ tg t => unwrap tg t) in
  let? s := contents_of SignedData Untagged u in
  show_sd (length b) s.
