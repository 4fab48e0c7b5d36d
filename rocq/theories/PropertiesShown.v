(** Property C83: what is shown of a signature is what was signed. *)
From Verif Require Import Base Monad ModelX509 ModelPkcs7 ModelLazy ModelAuthenticode ModelDer ModelSpc ModelDecode ModelShown SpecAsn
  SpecAuthenticode SpecLazy SpecDer SpecPrim SpecStl SpecRead SpecEnvelope SpecShown ProofsBer2 ProofsShown ProofsShown2 ProofsShown3
  PropertiesFingerprint PropertiesX509 ExampleData ExampleDer PropertiesAsn PropertiesRead PropertiesEnvelope.

(** A SignerInfo tells a program name, two links and the types of the statement: they are the
    ones shown, those of the last attribute of their type if there are several. *)
Theorem C83_written :
  forall t s, signer_tells t s ->
  contents_of SignerInfo Untagged t = Ok (t_contents t) /\ show_signer (t_contents t) = Ok s.
Proof. exact signer_told. Qed.
Print Assumptions C83_written.

(** Such an attribute without exactly one value: AuthenticodeParseError. *)
Theorem C83_counted :
  forall t l v, signed_attributes t l -> length v <> 1%nat ->
  (last_of "1.3.6.1.4.1.311.2.1.11" l (Some v) \/
   last_of "1.3.6.1.4.1.311.2.1.11" l None /\ last_of "1.3.6.1.4.1.311.2.1.12" l (Some v)) ->
  exists e, show_signer (t_contents t) = Err e /\ e_class e = AuthenticodeParseError.
Proof. exact signer_counted. Qed.
Print Assumptions C83_counted.

(** The flags shown of the image are those whose bits are set and used, the default if they
    are absent; the publisher is that of the link. *)
Theorem C83_image :
  forall u t p, content_ok u t p ->
  exists s, show_spc (t_contents u) = Ok s /\ image_tells t s /\ sh_image_publisher s = p.
Proof. exact content_shown. Qed.
Print Assumptions C83_image.

(** For every envelope that is parsed, whatever its octets, all this can be shown for it and for
    each signature nested in it, and it is what is told by the octets of its signed attributes
    and by those of its content. *)
Theorem C83_envelope :
  forall depth pe b a, lz_from_envelope der_loader depth pe b = Ok a ->
  exists l, show_envelope b = Ok l /\ Forall2 shown_as_signed (recursive_nested true a) l.
Proof. exact envelope_told. Qed.
Print Assumptions C83_envelope.

(** Nothing that is not signed has an influence on it: two signatures, of any two envelopes, with
    the same signed attributes are shown alike, and so are their images if both contents have
    the digest that is signed, unless two contents collide. *)
Theorem C83_signed :
  forall E b b' a a' x x', shows b a x -> shows b' a' x' ->
  si_encoded (asi_info (asd_signer a)) = si_encoded (asi_info (asd_signer a')) ->
  fst x = fst x' /\
  (content_matches E (asd_data a) (asi_info (asd_signer a)) -> content_matches E (asd_data a') (asi_info (asd_signer a')) ->
   snd x = snd x' \/
   collides E (sd_digest_alg (asd_data a)) (sd_digest_alg (asd_data a')) (sd_octets (asd_data a)) (sd_octets (asd_data a'))).
Proof. exact shown_determined. Qed.
Print Assumptions C83_signed.

(** The program name, the address and the publisher of an envelope, and of what is nested in it
    nothing. *)
Definition x_signer : signer_shown :=
  mkSignerShown (Some ["microsoft_spc_individual_sp_key_purpose"]) (Some [65%N; 128512%N]) (Some (NText (ustr_of "http://a")))
    (Some (NText (ustr_of "f"))).
Definition x_none : signer_shown := mkSignerShown None None None None.
Example C83_full : exists i j, show_envelope e_full = Ok [(x_signer, i); (x_none, j)].
Proof. eexists _, _. vm_compute. reflexivity. Qed.
Example C83_opened : exists a, lz_from_envelope der_loader 5 true e_full = Ok a /\ length (recursive_nested true a) = 2%nat.
Proof. eexists. split; vm_compute; reflexivity. Qed.

Ltac the_tlv b := lazymatch eval vm_compute in (load AAny b) with Ok (VAny ?t) => exists t end.
Ltac attributes := repeat first [apply Forall2_nil | apply Forall2_cons; [eexists; split; computed|]].
Ltac absent_of := repeat first [apply Forall_nil | apply Forall_cons; [vm_compute; discriminate|]].
Ltac ascii_only := repeat first [apply Forall_nil | apply Forall_cons; [vm_compute; reflexivity|]].

(** Its SignerInfo tells so. *)
Definition x_attr_of (t : tlv) : string * list tlv :=
  match decode CmsAttribute Untagged t with
  | Ok (VSeq [Some (VPrim oid); Some (VList l)]) => (oid_text oid, flat_map (fun v => match v with VAny u => [u] | _ => [] end) l)
  | _ => ("", [])
  end.
Definition x_tlvs (b : bytes) : list tlv := match parse_all b with Ok l => l | Err _ => [] end.
Definition x_attrs (attrs : list bytes) : list (string * list tlv) := map x_attr_of (x_tlvs (concat attrs)).
Ltac signer_at attrs :=
  let ts := eval vm_compute in (x_tlvs (concat attrs)) in
  lazymatch goal with |- signed_attributes ?t _ =>
    lazymatch eval vm_compute in (decode CmsSigner Untagged t) with
    | Ok (VSeq [?v1; ?v2; ?v3; ?v4; ?v5; ?v6; ?v7]) =>
        exists v1, v2, v3, v4, v5, v6, v7, ts; split; [computed|split; [computed|attributes]]
    end
  end.
Ltac as_last l n v := (* the attribute [n] of [l], with the value [v] *)
  let l1 := eval vm_compute in (firstn n l) in
  let l2 := eval vm_compute in (skipn (S n) l) in
  lazymatch goal with |- last_of ?typ ?x _ => change (last_of typ (l1 ++ (typ, v) :: l2) (Some v)); apply LastSome; absent_of end.
Example C83_told :
  exists t, holds_a AAny (e_signer o_sha256 e_full_attrs (str "sig") []) (VAny t) /\ signer_tells t x_signer.
Proof.
  the_tlv (e_signer o_sha256 e_full_attrs (str "sig") []). split; [computed|].
  let l := eval vm_compute in (x_attrs e_full_attrs) in
  let v1 := eval vm_compute in (snd (nth 3 l ("", []))) in
  let v2 := eval vm_compute in (snd (nth 2 l ("", []))) in
  exists l, (Some v1), (Some v2);
  split; [signer_at e_full_attrs|]; split; [as_last l 3%nat v1|]; split; [as_last l 2%nat v2|].
  cbn [x_signer sh_statement_types sh_program_name sh_more_info sh_publisher_info]. split.
  - exists [unhex "2b060104018237020115"]. split; [computed|]. constructor; [left; split; vm_compute; reflexivity|constructor].
  - exists (Some (VChoice "unicode" (VPrim [x00; x41; xd8; x3d; xde; x00]))), (Some (VChoice "url" (VPrim (str "http://a")))),
      (Some (VChoice "file" (VChoice "ascii" (VPrim (str "f"))))).
    split; [computed|]. split; [|split].
    + left. split; [computed|]. every ltac:(vm_compute; first [left; reflexivity|right; split; [discriminate|reflexivity]]).
    + left. exists (str "http://a"). split; [reflexivity|]. split; [vm_compute; ascii_only|vm_compute; reflexivity].
    + right; right. exists (VChoice "ascii" (VPrim (str "f"))), (ustr_of "f"). split; [reflexivity|]. split; [|reflexivity].
      right. exists (str "f"). split; [reflexivity|]. split; [vm_compute; ascii_only|vm_compute; reflexivity].
Qed.

(** Two attributes with program names: the last one is shown.  A moniker is shown as an object,
    although the attribute is declared to be a text or None (structures.py:186-188). *)
Definition x_opus (name : bytes) : bytes := e_seq [enc xa0 [enc x81 [name]]].
Definition x_opus_moniker : bytes := e_seq [enc xa1 [enc xa1 [e_octets (str "uuid"); e_octets (str "data")]]].
Definition x_with (attrs : list bytes) (unsigned : list bytes) : bytes :=
  e_signed x01 [e_alg o_sha256] o_spc (e_seq [e_spc o_sha256 (str "digest")]) []
    [e_signer o_sha256 (e_signed_attrs o_spc (e_spc o_sha256 (str "digest")) ++ attrs) (str "sig") unsigned].
Definition a_opus := "2b06010401823702010c".
Definition x_shown (b : bytes) : res (list signer_shown) :=
  let? _ := lz_from_envelope der_loader 5 true b in let? l := show_envelope b in Ok (map fst l).
Example C83_last :
  x_shown (x_with [e_attr a_opus [x_opus (str "first")]; e_attr a_opus [x_opus (str "last")]] []) =
  Ok [mkSignerShown None (Some (ustr_of "last")) None None].
Proof. vm_compute. reflexivity. Qed.
Example C83_moniker :
  x_shown (x_with [e_attr a_opus [x_opus_moniker]] []) = Ok [mkSignerShown None None (Some (NObject (str "uuid") (str "data"))) None].
Proof. vm_compute. reflexivity. Qed.
(** As an unsigned attribute it is not shown; two values are rejected. *)
Example C83_unsigned : x_shown (x_with [] [e_attr a_opus [x_opus (str "forged")]]) = Ok [x_none].
Proof. vm_compute. reflexivity. Qed.
Example C83_two :
  exists e, x_shown (x_with [e_attr a_opus [x_opus (str "a"); x_opus (str "b")]] []) = Err e /\ e_class e = AuthenticodeParseError.
Proof. eexists. split; vm_compute; reflexivity. Qed.
Example C83_two_told :
  let attrs := e_signed_attrs o_spc (e_spc o_sha256 (str "digest")) ++ [e_attr a_opus [x_opus (str "a"); x_opus (str "b")]] in
  exists t l v, holds_a AAny (e_signer o_sha256 attrs (str "sig") []) (VAny t) /\ signed_attributes t l /\ length v <> 1%nat /\
  last_of "1.3.6.1.4.1.311.2.1.11" l None /\ last_of "1.3.6.1.4.1.311.2.1.12" l (Some v).
Proof.
  pose (attrs := e_signed_attrs o_spc (e_spc o_sha256 (str "digest")) ++ [e_attr a_opus [x_opus (str "a"); x_opus (str "b")]]).
  cbv zeta. fold attrs. the_tlv (e_signer o_sha256 attrs (str "sig") []).
  let l := eval vm_compute in (x_attrs attrs) in
  let v := eval vm_compute in (snd (nth 2 l ("", []))) in
  exists l, v; split; [computed|]; split; [signer_at attrs|]; split; [cbn [length]; discriminate|];
  split; [apply LastNone; absent_of|as_last l 2%nat v].
Qed.

(** Flags: the bits 0, 2, 3 and 9 of ten; six bits are unused although set. *)
Definition x_content (flags : bytes) : bytes :=
  e_seq [e_seq [e_oid o_image; e_seq [flags; enc xa0 [enc xa2 [enc x81 [str "f"]]]]]; e_seq [e_alg o_sha256; e_octets (str "digest")]].
Definition x_flags := enc x03 [[x06; xb0; x7f]].
Example C83_flags :
  exists u t, holds_a AAny (x_content x_flags) (VAny u) /\ content_ok u t (Some (NText (ustr_of "f"))) /\
  show_spc (t_contents u) =
    Ok (mkImageShown [FName "include_resources"; FName "include_import_address_table"; FBit 3; FBit 9] (Some (NText (ustr_of "f")))).
Proof.
  the_tlv (x_content x_flags).
  lazymatch goal with |- exists t, holds_a AAny _ (VAny ?u) /\ _ =>
    lazymatch eval vm_compute in (decode MsContent Untagged u) with
    | Ok (VSeq [Some (VSeq [Some (VPrim ?typ); Some (VAny ?t)]); ?digest]) =>
        exists t; split; [computed|]; split; [|vm_compute; reflexivity];
        lazymatch eval vm_compute in (decode MsImage Untagged t) with
        | Ok (VSeq [?flags; ?file]) =>
            exists typ, digest, flags, file; split; [computed|]; split; [computed|]; split
        end
    end
  end.
  - exists x06, [xb0; x7f]. split; [reflexivity|]. split; [computed|discriminate].
  - right; right. exists (VChoice "ascii" (VPrim (str "f"))), (ustr_of "f"). split; [reflexivity|]. split; [|reflexivity].
    right. exists (str "f"). split; [reflexivity|]. split; [vm_compute; ascii_only|vm_compute; reflexivity].
Qed.
(** More than seven unused bits: rejected. *)
Example C83_unused :
  exists e, lz_from_envelope der_loader 5 true
              (e_signed x01 [e_alg o_sha256] o_spc (e_seq [x_content (enc x03 [[x08; xb0; x7f]])]) []
                 [e_signer o_sha256 (e_signed_attrs o_spc (x_content (enc x03 [[x08; xb0; x7f]]))) (str "sig") []]) = Err e /\
            e_class e = ValueError.
Proof. eexists. split; vm_compute; reflexivity. Qed.

(** Two envelopes with the same signed attributes and contents that match; one has more that is
    not signed. *)
Example C83_same :
  exists a a' x x',
    shows (x_with [e_attr a_opus [x_opus (str "a")]] []) a x /\
    shows (x_with [e_attr a_opus [x_opus (str "a")]] [e_attr a_opus [x_opus (str "forged")]]) a' x' /\
    si_encoded (asi_info (asd_signer a)) = si_encoded (asi_info (asd_signer a')) /\
    content_matches ex_env (asd_data a) (asi_info (asd_signer a)) /\ content_matches ex_env (asd_data a') (asi_info (asd_signer a')) /\
    sh_program_name (fst x) = Some (ustr_of "a").
Proof.
  let go b k :=
    lazymatch eval vm_compute in (lz_from_envelope der_loader 5 true b) with
    | Ok ?a => lazymatch eval vm_compute in (show_envelope b) with Ok [?x] => k a x end
    end in
  go (x_with [e_attr a_opus [x_opus (str "a")]] []) ltac:(fun a x =>
  go (x_with [e_attr a_opus [x_opus (str "a")]] [e_attr a_opus [x_opus (str "forged")]]) ltac:(fun a' x' =>
    exists a, a', x, x';
    split; [exists 5%nat, true, a, [x], 0%nat; repeat split; vm_compute; reflexivity|];
    split; [exists 5%nat, true, a', [x'], 0%nat; repeat split; vm_compute; reflexivity|])).
  repeat split; vm_compute; reflexivity.
Qed.
