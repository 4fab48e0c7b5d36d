(** Property C67: decoding on demand. *)
From Verif Require Import Base Monad ModelFile ModelX509 ModelContext ModelPkcs7 ModelLazy ModelAuthenticode ModelLazyFile
  SpecWhole SpecLazy ProofsLazy ProofsLazy2 ProofsLazy3 PropertiesX509 PropertiesPkcs7.

(** Whatever opening an envelope that is decoded on demand gives, a signature or an
    exception, is also given by an envelope that is decoded completely first. *)
Theorem C67_complete :
  forall (lazy : lz_loader) depth pe, exists load : loader,
  forall b, from_envelope load depth pe b = lz_from_envelope lazy depth pe b.
Proof. intros lazy depth pe. exists (complete lazy depth pe). intro b. apply complete_spec. Qed.
Print Assumptions C67_complete.

(** And conversely: a completely decoded envelope is one of which every part can be read. *)
Theorem C67_embeds :
  forall (load : loader), exists lazy : lz_loader,
  forall depth pe b, lz_from_envelope lazy depth pe b = from_envelope load depth pe b.
Proof. intros load. exists (embed load). intros. apply embed_spec. Qed.
Print Assumptions C67_embeds.

(** The same for files: listing the signatures and verifying them on demand is listing and
    verifying them with some decoder that decodes completely, so that what is proved for
    every decoder holds when the decoding is done on demand. *)
Theorem C67_file :
  forall (lazy : lz_loader) depth, exists load : loader,
  (forall nested ign fuel flen f,
     lz_iter_signed_datas lazy depth nested ign fuel flen f = iter_signed_datas load depth nested ign fuel flen f) /\
  (forall E fuel mode expected ign v w,
     lz_pe_open_verify lazy E depth fuel mode expected ign v w = pe_open_verify load E depth fuel mode expected ign v w).
Proof.
  intros lazy depth. exists (complete lazy depth true).
  split; intros; symmetry; [apply agree_iter|apply agree_verify]; apply complete_spec.
Qed.
Print Assumptions C67_file.

(** If reading the parts of an envelope raises only exceptions as [P] says, then opening it
    raises only these and the ones parsing raises by itself. *)
Theorem C67_errors :
  forall (P : exn -> Prop) (lazy : lz_loader) depth pe b e,
  reads P (reads_ci P) (lazy b) -> lz_from_envelope lazy depth pe b = Err e ->
  P e \/ In (e_class e) parse_errors.
Proof. exact t_envelope. Qed.
Print Assumptions C67_errors.

(** The usages of a certificate are those of its last extension of that name, and none if
    there is no such extension. *)
Theorem C67_usages :
  forall c y, lz_certificate c = Ok y ->
  (forall l1 u l2, lc_extensions c = Ok (Some (l1 ++ ("extended_key_usage", XUsages u) :: l2)) ->
     (forall x, ~ In ("extended_key_usage", x) l2) -> c_eku y = Some u) /\
  (forall l, lc_extensions c = Ok (Some l) -> (forall x, ~ In ("extended_key_usage", x) l) -> c_eku y = None) /\
  (lc_extensions c = Ok None -> c_eku y = None).
Proof. exact certificate_usages. Qed.
Print Assumptions C67_usages.

(** *** Concrete data: [ex_outer] with some parts that cannot be read *)
Definition ex_bad {A} : res A := raise ValueError "Error parsing".

(** an attribute that is replaced by a later one of the same type, or of an unknown type *)
Definition ex_lazy_si (extra : list (res lz_attr)) : lz_si :=
  match emb_si (ex_si ex_spc_attrs []) with
  | LzSI sid dalg (Ok signed) contents salg signature unsigned =>
      LzSI sid dalg (Ok (Ok (LMessageDigest (Ok [ex_bad])) :: signed ++ extra)) contents salg signature unsigned
  | r => r
  end.
Definition ex_lazy_loader (extra : list (res lz_attr)) : lz_loader := fun b =>
  match emb_sd (ex_sd []) with
  | LzSD algs ct content certs crls _ =>
      Ok (LzCI (Ok "signed_data") (Ok (LzSigned (LzSD algs ct content certs crls (Ok [ex_lazy_si extra])))))
  end.

Example C67_unread :
  lz_from_envelope (ex_lazy_loader []) 5 true [] = parse_asd 5 true (ex_sd [ex_si ex_spc_attrs []]) /\
  is_ok (lz_from_envelope (ex_lazy_loader []) 5 true []) = true.
Proof. vm_compute. split; reflexivity. Qed.

(** the values of an attribute of unknown type are listed, but not read; those of the opus
    info are read *)
Example C67_read :
  is_ok (lz_from_envelope (ex_lazy_loader [Ok (LOther "1.2" (Ok 3%nat))]) 5 true []) = true /\
  lz_from_envelope (ex_lazy_loader [Ok (LOther "1.2" ex_bad)]) 5 true [] = ex_bad /\
  lz_from_envelope (ex_lazy_loader [Ok (LOpusInfo (Ok [mkLzOpus (Ok None) ex_bad (Ok None)]))]) 5 true [] = ex_bad.
Proof. vm_compute. repeat split; reflexivity. Qed.

(** what reading that one raises *)
Example C67_raises :
  let P e := e_class e = ValueError in
  reads P (reads_ci P) (ex_lazy_loader [Ok (LOther "1.2" ex_bad)] []).
Proof. cbv. tauto. Qed.

(** nested signatures, a countersigner of a countersigner and a token *)
Example C67_nested :
  lz_asd 5 true (emb_sd ex_outer) = parse_asd 5 true ex_outer /\ is_ok (parse_asd 5 true ex_outer) = true.
Proof. vm_compute. split; reflexivity. Qed.

(** two extensions with usages: the last one counts *)
Example C67_two :
  match lz_certificate (mkLzCert 1 [x01] (Ok "") (Ok []) (Ok tt) (Ok "v3") (Ok 5) (Ok ex_ca) (Ok (Aware 0)) (Ok (Aware 9)) (Ok ex_ca)
          (Ok "rsa") (Ok PNone) (Ok [x02])
          (Ok (Some [("extended_key_usage", XUsages ["a"]); ("key_usage", XOther);
                     ("extended_key_usage", XUsages ["b"; "c"])]))) with
  | Ok y => c_eku y = Some ["b"; "c"]
  | Err _ => False
  end.
Proof. vm_compute. reflexivity. Qed.
