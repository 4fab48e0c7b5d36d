(** The decoder of ModelDecode.v raises only ValueError. *)
From Verif Require Import Base Bytes ModelX509 ModelPkcs7 ModelLazy ModelDer ModelSpc ModelDecode SpecLazy ProofsDer ProofsAsn.
From Coq Require Import ZifyBool ZifyNat.

Lemma ve_unwrap : forall tg t, ve (unwrap tg t).
Proof. intros. unfold unwrap. ve. Qed.
#[export] Hint Resolve ve_unwrap : ve.
Lemma ve_expect : forall tg con tag t, ve (expect tg con tag t).
Proof. intros. unfold expect. ve. Qed.
#[export] Hint Resolve ve_expect : ve.
Lemma ve_match_fields : forall fs l, ve (match_fields fs l).
Proof.
  induction fs as [|[n [a [tg p]]] fs IH]; intros [|t l]; cbn [match_fields]; ve.
Qed.
#[export] Hint Resolve ve_match_fields : ve.
Lemma ve_children : forall a b, ve (children a b).
Proof. intros. unfold children. ve. Qed.
#[export] Hint Resolve ve_children : ve.
Lemma ve_contents_of : forall a tg t, ve (contents_of a tg t).
Proof. intros. unfold contents_of. ve. Qed.
#[export] Hint Resolve ve_contents_of : ve.
Lemma ve_items_of : forall a tg t, ve (items_of a tg t).
Proof. intros. unfold items_of. ve. Qed.
#[export] Hint Resolve ve_items_of : ve.
Lemma ve_read_field : forall A a kids n (k : asn -> tagging -> tlv -> res A),
  ve kids -> (forall x tg t, ve (k x tg t)) -> ve (read_field a kids n k).
Proof. intros. unfold read_field. ve. Qed.
Lemma ve_read : forall A a kids n (k : asn -> tagging -> tlv -> res A),
  ve kids -> (forall x tg t, ve (k x tg t)) -> ve (read a kids n k).
Proof. intros. unfold read. apply ve_bind; [apply ve_read_field; assumption|]. ve. Qed.
#[export] Hint Resolve ve_read_field ve_read : ve.
Lemma ve_find_alt : forall A t alts (k : string -> asn -> tagging -> res A),
  (forall n a tg, ve (k n a tg)) -> ve (find_alt t alts k).
Proof. intros A t alts k H. induction alts as [|[n [a tg]] alts IH]; cbn [find_alt]; ve. Qed.
Lemma ve_choice_of : forall A a tg t (k : string -> asn -> tagging -> tlv -> res A),
  (forall n a tg t, ve (k n a tg t)) -> ve (choice_of a tg t k).
Proof. intros. unfold choice_of. ve. apply ve_find_alt. auto. Qed.
Lemma ve_map_res : forall A B (f : A -> res B) l, (forall a, ve (f a)) -> ve (map_res f l).
Proof. intros A B f l H. induction l; cbn [map_res]; ve. Qed.
#[export] Hint Resolve ve_choice_of ve_map_res : ve.

Lemma ve_read_oid : forall names a tg t, ve (read_oid names a tg t).
Proof. intros. unfold read_oid. ve. Qed.
Lemma ve_read_int : forall a tg t, ve (read_int a tg t).
Proof. intros. unfold read_int. ve. Qed.
Lemma ve_civil : forall g y b, ve (civil g y b).
Proof. intros. unfold civil, time_error. ve. Qed.
#[export] Hint Resolve ve_read_oid ve_read_int ve_civil : ve.
Lemma ve_time_native : forall n b, ve (time_native n b).
Proof. intros. unfold time_native, time_error. ve. Qed.
#[export] Hint Resolve ve_time_native : ve.
Lemma ve_read_time : forall a tg t, ve (read_time a tg t).
Proof. intros. unfold read_time. apply ve_choice_of. intros. ve. Qed.
#[export] Hint Resolve ve_read_time : ve.

Lemma ve_ascii_text : forall b, ve (ascii_text b).
Proof. induction b; cbn [ascii_text]; unfold decode_error; ve. Qed.
Lemma ve_utf8 : forall b n acc low, ve (utf8 n acc low b).
Proof. induction b; intros [|n] acc low; cbn [utf8]; unfold decode_error; ve. Qed.
Lemma ve_utf16 : forall n b hi, (length b <= n)%nat -> ve (utf16 hi b).
Proof.
  induction n as [|n IH]; intros [|x [|y b]] hi H; cbn [utf16 length] in *; unfold decode_error;
    try lia; try (destruct hi; ve; fail).
  assert (forall h, ve (utf16 h b)) by (intro; apply IH; lia). destruct hi; ve.
Qed.
Lemma ve_utf32 : forall n b, (length b <= n)%nat -> ve (utf32 b).
Proof.
  induction n as [|n IH]; intros [|x [|y [|z [|w b]]]] H; cbn [utf32 length] in *; unfold decode_error; try lia; ve.
  apply IH. lia.
Qed.
Lemma ve_utf16' : forall b hi, ve (utf16 hi b).
Proof. intros. eapply ve_utf16. reflexivity. Qed.
Lemma ve_utf32' : forall b, ve (utf32 b).
Proof. intros. eapply ve_utf32. reflexivity. Qed.
#[export] Hint Resolve ve_ascii_text ve_utf8 ve_utf16' ve_utf32' : ve.
Lemma ve_text : forall tag b, ve (text tag b).
Proof. intros. unfold text. ve. Qed.
#[export] Hint Resolve ve_text : ve.

Lemma ve_read_value : forall oid t, ve (read_value oid t).
Proof. intros. unfold read_value. ve. Qed.
#[export] Hint Resolve ve_read_value : ve.
Lemma ve_read_ava : forall t, ve (read_ava t).
Proof.
  intros. unfold read_ava. ve. apply ve_read; ve.
Qed.
#[export] Hint Resolve ve_read_ava : ve.
Lemma ve_read_rdn : forall t, ve (read_rdn t).
Proof. intros. unfold read_rdn. ve. Qed.
#[export] Hint Resolve ve_read_rdn : ve.
Lemma ve_read_name : forall a tg t, ve (read_name a tg t).
Proof. intros. unfold read_name. ve. Qed.
#[export] Hint Resolve ve_read_name : ve.

Lemma reads_algid : forall names a tg t, reads_alg VE (read_algid names a tg t).
Proof.
  intros. unfold read_algid, reads_alg. cbn [la_name la_params].
  assert (ve (let? b := contents_of a tg t in children AlgorithmIdentifier b)) by ve.
  split; [apply ve_read; ve|].
  change (ve (let? p := read_field AlgorithmIdentifier (let? b := contents_of a tg t in children AlgorithmIdentifier b)
                "parameters" (fun _ _ t => Ok (truthy t)) in Ok (match p with Some v => v | None => false end))).
  apply ve_bind; [apply ve_read_field; ve|ve].
Qed.

(** Reading a value with parts: [reads]. *)
Lemma reads_bind : forall A B (Q : B -> Prop) (r : res A) (f : A -> res B),
  ve r -> (forall a, r = Ok a -> reads VE Q (f a)) -> reads VE Q (rbind r f).
Proof. intros A B Q [a|e] f H1 H2; cbn; [apply H2; reflexivity|exact H1]. Qed.
Lemma reads_bind2 : forall A B (P : A -> Prop) (Q : B -> Prop) (r : res A) (f : A -> res B),
  reads VE P r -> (forall a, P a -> reads VE Q (f a)) -> reads VE Q (rbind r f).
Proof. intros A B P Q [a|e] f H1 H2; cbn; [apply H2, H1|exact H1]. Qed.
Lemma reads_read_field : forall A (Q : A -> Prop) a kids n (k : asn -> tagging -> tlv -> res A),
  ve kids -> (forall x tg t, reads VE Q (k x tg t)) ->
  reads VE (fun o => match o with Some v => Q v | None => True end) (read_field a kids n k).
Proof.
  intros A Q a kids n k H1 H2. unfold read_field. apply reads_bind; [exact H1|]. intros d _.
  destruct (dict_get n d) as [[t|]|]; try exact I.
  destruct (dict_get n (seq_fields a)) as [[x [tg p]]|]; try exact I.
  eapply reads_bind2; [apply H2|]. intros v Hv. exact Hv.
Qed.
Lemma reads_read : forall A (Q : A -> Prop) a kids n (k : asn -> tagging -> tlv -> res A),
  ve kids -> (forall x tg t, reads VE Q (k x tg t)) -> reads VE Q (read a kids n k).
Proof.
  intros A Q a kids n k H1 H2. unfold read. eapply reads_bind2; [apply reads_read_field; [exact H1|exact H2]|].
  intros [v|] H; [exact H|reflexivity].
Qed.
Lemma reads_map_res : forall A B (Q : B -> Prop) (f : A -> res B) l,
  (forall a, reads VE Q (f a)) -> reads VE (every_one Q) (map_res f l).
Proof.
  intros A B Q f l H. induction l as [|a l IH]; cbn [map_res]; [exact I|].
  eapply reads_bind2; [apply H|]. intros b Hb. eapply reads_bind2; [apply IH|].
  intros bs Hbs. exact (conj Hb Hbs).
Qed.
Lemma every_map : forall A B (Q : B -> Prop) (f : A -> B) l, (forall a, Q (f a)) -> every_one Q (map f l).
Proof. intros A B Q f l H. induction l; cbn; [exact I|split; auto]. Qed.
Lemma reads_choice_of : forall A (Q : A -> Prop) a tg t (k : string -> asn -> tagging -> tlv -> res A),
  (forall n a tg t, reads VE Q (k n a tg t)) -> reads VE Q (choice_of a tg t k).
Proof.
  intros A Q a tg t k H. unfold choice_of. destruct a; try reflexivity.
  apply reads_bind; [ve|]. intros u _. induction alts as [|[n [x y]] alts IH]; cbn [find_alt]; [reflexivity|].
  destruct (id_in u (first_ids x y)); [apply H|exact IH].
Qed.

Fixpoint ve_decode (a : asn) : forall tg t, ve (decode a tg t).
Proof.
  destruct a as [tag|fs|c|c|alts|]; intros tg t.
  - cbn [decode]. ve.
  - rewrite decode_seq. apply ve_bind; [auto with ve|intros u _]. apply ve_bind; [auto with ve|intros l _].
    apply ve_bind; [|intros; apply ve_ok]. revert l.
    induction fs as [|[n [x [y p]]] fs IH]; intros l; cbn [decode_fields]; fold decode_fields.
    { destruct l; [apply ve_ok|apply ve_error]. }
    pose proof (ve_decode x y) as K.
    destruct l as [|h l].
    + destruct p; [apply ve_error| |]; (apply ve_bind; [apply IH|intros; apply ve_ok]).
    + destruct (match p with Required => true | _ => id_in h (first_ids x y) end).
      * apply ve_bind; [apply K|intros v _]. apply ve_bind; [apply IH|intros; apply ve_ok].
      * apply ve_bind; [apply IH|intros; apply ve_ok].
  - rewrite decode_seqof. apply ve_bind; [auto with ve|intros u _]. apply ve_bind; [auto with ve|intros l _].
    apply ve_bind; [|intros; apply ve_ok]. pose proof (ve_decode c) as K.
    induction l as [|h l IH]; cbn [decode_all]; fold decode_all; [apply ve_ok|].
    apply ve_bind; [apply K|intros v _]. apply ve_bind; [apply IH|intros; apply ve_ok].
  - rewrite decode_setof. apply ve_bind; [auto with ve|intros u _]. apply ve_bind; [auto with ve|intros l _].
    apply ve_bind; [|intros; apply ve_ok]. pose proof (ve_decode c) as K.
    induction l as [|h l IH]; cbn [decode_all]; fold decode_all; [apply ve_ok|].
    apply ve_bind; [apply K|intros v _]. apply ve_bind; [apply IH|intros; apply ve_ok].
  - rewrite decode_choice. apply ve_bind; [auto with ve|intros u _].
    induction alts as [|[n [x y]] alts IH]; cbn [decode_alts]; fold (decode_alts u); [apply ve_error|].
    pose proof (ve_decode x y) as K.
    destruct (id_in u (first_ids x y)); [|exact IH]. apply ve_bind; [apply K|intros; apply ve_ok].
  - cbn [decode]. ve.
Qed.
Lemma ve_load a b : ve (load a b).
Proof. unfold load. apply ve_bind; [apply ve_parse_tlv|]. intros [t r] _. apply ve_decode. Qed.
#[export] Hint Resolve ve_load : ve.

Lemma ve_text_native v : ve (text_native v).
Proof. unfold text_native. ve. Qed.
#[export] Hint Resolve ve_text_native : ve.
Lemma ve_link_native v : ve (link_native v).
Proof. unfold link_native. ve. Qed.
#[export] Hint Resolve ve_link_native : ve.
Lemma ve_image_native v : ve (image_native v).
Proof. unfold image_native. ve. Qed.
#[export] Hint Resolve ve_image_native : ve.
Lemma ve_maybe_native A (f : aval -> res A) o : (forall v, ve (f v)) -> ve (maybe_native f o).
Proof. intros H. unfold maybe_native. ve. Qed.
#[export] Hint Resolve ve_maybe_native : ve.
Lemma ve_agency b : ve (agency_native b).
Proof. unfold agency_native. ve. Qed.
Lemma ve_financial b : ve (financial_native b).
Proof. unfold financial_native. ve. Qed.
#[export] Hint Resolve ve_agency ve_financial : ve.

Lemma reads_certificate : forall t, reads_cert VE (read_certificate t).
Proof.
  intros t. unfold read_certificate. cbv zeta.
  set (kids := (let? b := contents_of Certificate Untagged t in children Certificate b)).
  assert (Hk : ve kids) by (subst kids; ve). clearbody kids.
  set (tbs := (let? b := read Certificate kids "tbs_certificate" contents_of in children TbsCertificate b)).
  assert (Ht : ve tbs) by (subst tbs; apply ve_bind; ve). clearbody tbs.
  set (validity := (let? b := read TbsCertificate tbs "validity" contents_of in children Validity b)).
  assert (Hv : ve validity) by (subst validity; apply ve_bind; ve). clearbody validity.
  set (key := (let? b := read TbsCertificate tbs "subject_public_key_info" contents_of in children PublicKeyInfo b)).
  assert (Hy : ve key) by (subst key; apply ve_bind; ve). clearbody key.
  set (key_alg := (let? b := read PublicKeyInfo key "algorithm" contents_of in children AlgorithmIdentifier b)).
  assert (Ha : ve key_alg) by (subst key_alg; apply ve_bind; ve). clearbody key_alg.
  unfold reads_cert.
  cbn [lc_signature_algorithm lc_signature_value lc_tbs lc_version lc_serial lc_issuer lc_not_before lc_not_after
       lc_subject lc_key_algorithm lc_key_parameters lc_key_bits lc_extensions].
  repeat match goal with |- _ /\ _ => split end;
    match goal with |- reads_any VE ?x => change (ve x) end;
    try (apply ve_read; ve; fail); try (apply ve_bind; [solve [apply ve_read_field; ve|apply ve_read; ve]|ve]; fail).
  - apply ve_read; [exact Hk|]. intros. apply reads_algid.
  - apply ve_bind; [|ve]. apply ve_read_field; [exact Ha|]. intros. unfold read_parameters. ve.
  - apply ve_read_field; [exact Ht|]. intros. apply ve_bind; [ve|]. intros. apply ve_map_res.
    intros u. unfold read_extension. cbv zeta. apply ve_bind; [ve|]. intros b _.
    apply ve_bind; [apply ve_read; ve|]. intros id _.
    apply ve_bind; [apply ve_read_field; ve|]. intros _ _. apply ve_bind; [apply ve_read; ve|]. ve.
Qed.

Lemma reads_a_choice : forall t, reads VE (reads_choice VE) (read_choice t).
Proof.
  intros. unfold read_choice. apply reads_choice_of. intros n a tg u.
  destruct (String.eqb n "certificate"); [apply reads_certificate|exact I].
Qed.

Lemma ve_spc_string : forall a tg t, ve (read_spc_string a tg t).
Proof. intros. unfold read_spc_string. apply ve_choice_of. ve. Qed.
#[export] Hint Resolve ve_spc_string : ve.
Lemma ve_spc_link : forall a tg t, ve (read_spc_link a tg t).
Proof.
  intros. unfold read_spc_link. apply ve_choice_of. intros. ve; cbv zeta; apply ve_bind; ve; apply ve_read; ve.
Qed.
Lemma ve_bits : forall b, ve (bit_string b).
Proof. intros [|n l]; [exact eq_refl|]. unfold bit_string. cbv zeta. destruct (_ && _); [exact eq_refl|]. destruct (7 <? _); exact eq_refl || exact I. Qed.
#[export] Hint Resolve ve_bits : ve.
Lemma ve_flags : forall a tg t, ve (read_flags a tg t).
Proof. intros. unfold read_flags. ve. Qed.
#[export] Hint Resolve ve_spc_link ve_flags : ve.

Lemma reads_an_image : forall t, reads_image VE (Some (read_image t)).
Proof.
  intros. unfold read_image, reads_image. cbv zeta. cbn [lm_flags lm_file].
  assert (H : ve (let? b := contents_of SpcPeImageData Untagged t in children SpcPeImageData b)) by ve.
  split; match goal with |- reads_any VE ?x => change (ve x) end; (apply ve_bind; [apply ve_read_field; ve|ve]).
Qed.
Lemma reads_a_spc : forall b, reads_value VE (LVSpc (read_spc b)).
Proof.
  intros. unfold read_spc. cbv zeta. cbn [reads_value lp_type lp_value lp_digest_alg lp_digest].
  assert (Hd : ve (let? x := read SpcIndirectDataContent (children SpcIndirectDataContent b) "data" contents_of in
                   children SpcAttributeTypeAndOptionalValue x)).
  { apply ve_bind; [apply ve_read; ve|ve]. }
  assert (Hm : ve (let? x := read SpcIndirectDataContent (children SpcIndirectDataContent b) "message_digest" contents_of in
                   children DigestInfo x)).
  { apply ve_bind; [apply ve_read; ve|ve]. }
  repeat split.
  - match goal with |- reads_any VE ?x => change (ve x) end. apply ve_read; ve.
  - refine (reads_read_field _ (fun m => reads_image VE (Some m)) _ _ _ _ Hd _). intros. apply reads_an_image.
  - apply reads_read; [exact Hm|]. intros. apply reads_algid.
  - match goal with |- reads_any VE ?x => change (ve x) end. apply ve_read; ve.
Qed.
Lemma reads_a_tst : forall b, reads_value VE (LVTst (read_tst b)).
Proof.
  intros. unfold read_tst. cbv zeta.
  cbn [reads_value lt_version lt_policy lt_hash_alg lt_hashed_message lt_serial lt_gen_time lt_accuracy lt_tsa].
  assert (Hk : ve (children TSTInfo b)) by ve. set (kids := children TSTInfo b) in *. clearbody kids.
  assert (Hm : ve (let? x := read TSTInfo kids "message_imprint" contents_of in children MessageImprint x)).
  { apply ve_bind; [apply ve_read; ve|ve]. }
  repeat match goal with |- _ /\ _ => split end;
    try (match goal with |- reads_any VE ?x => change (ve x) end; apply ve_read; ve; fail).
  - apply reads_read; [exact Hm|]. intros. apply reads_algid.
  - refine (reads_read_field _ (fun y => reads_accuracy VE (Some y)) _ _ _ _ Hk _). intros x tg t. unfold read_accuracy.
    apply reads_bind; [ve|]. intros c _.
    repeat split; match goal with |- reads_any VE ?x => change (ve x) end; apply ve_read_field; ve.
  - eapply reads_bind2.
    + refine (reads_read_field _ (reads_tsa VE) _ _ _ _ Hk _). intros x tg t.
      apply reads_choice_of. intros n y tg' u. destruct (String.eqb n "directory_name"); [|exact I].
      match goal with |- reads VE _ (Ok (LzTsaDirectory ?r)) => change (ve r) end. ve.
    + intros [v|] Hv; exact Hv.
Qed.
Lemma reads_a_content : forall v b, reads VE (fun c => reads VE (reads_value VE) (lo_value c)) (read_content v b).
Proof.
  intros. unfold read_content. destruct (String.eqb v "v1").
  - apply reads_bind; [apply ve_read; ve|]. intros typ _.
    apply reads_bind; [apply ve_read_field; ve|]. intros [u|] _; [|exact I].
    destruct (String.eqb typ _); [|exact I].
    apply reads_bind; [ve|]. intros c _. apply reads_a_spc.
  - apply reads_bind; [apply ve_read; ve|]. intros typ _.
    apply reads_bind; [apply ve_read_field; ve|]. intros [c|] _; [|exact I].
    change (reads VE (reads_value VE)
              (let? (u, _) := parse_tlv c in
               if String.eqb typ "microsoft_spc_indirect_data_content" then
                 let? c := contents_of SpcIndirectDataContent Untagged u in Ok (LVSpc (read_spc c))
               else if String.eqb typ "tst_info" then
                 let? c := contents_of TSTInfo Untagged u in Ok (LVTst (read_tst c))
               else Ok LVNone)).
    apply reads_bind; [ve|]. intros [u r] _.
    destruct (String.eqb typ _); [|destruct (String.eqb typ _); [|exact I]].
    + apply reads_bind; [ve|]. intros x _. apply reads_a_spc.
    + apply reads_bind; [ve|]. intros x _. apply reads_a_tst.
Qed.
Lemma reads_an_opus : forall t, reads VE (reads_opus VE) (read_opus t).
Proof.
  intros. unfold read_opus. apply reads_bind; [ve|]. intros b _.
  unfold reads_opus. cbn [reads lu_program_name lu_more_info lu_publisher_info].
  repeat match goal with |- _ /\ _ => split end; match goal with |- reads_any VE ?x => change (ve x) end;
    (apply ve_bind; [apply ve_read_field; ve|ve]).
Qed.
Lemma reads_simple : forall A tag (f : bytes -> res A) t,
  (forall b, ve (f b)) -> reads VE (reads_any VE) (simple_item tag f t).
Proof. intros. unfold simple_item. apply reads_bind; [ve|]. intros u _. apply H. Qed.

(** The values of an attribute. *)
Lemma reads_vals : forall A (Q : A -> Prop) kids (k : tlv -> res A),
  ve kids -> (forall t, reads VE Q (k t)) ->
  reads VE (every_one Q) (let? l := read CMSAttribute kids "values" items_of in map_res k l).
Proof.
  intros A Q kids k H1 H2. apply reads_bind; [apply ve_read; ve|]. intros l _. apply reads_map_res. exact H2.
Qed.

Lemma reads_all : forall f,
  (forall t, reads VE (reads_attr VE) (read_attr f t)) /\
  (forall b, reads_si VE (read_si f b)) /\
  (forall b, reads_ci VE (read_ci f b)) /\
  (forall b, reads_sd VE (read_sd f b)).
Proof.
  induction f as [|f (IHa & IHs & IHc & IHd)].
  { repeat split; reflexivity. }
  repeat match goal with |- _ /\ _ => split end.
  - intro t. cbn [read_attr]. apply reads_bind; [ve|]. intros b _.
    apply reads_bind; [apply ve_read; ve|]. intros typ _.
    assert (Hk : ve (children CMSAttribute b)) by ve.
    set (kids := children CMSAttribute b) in *. clearbody kids. cbn [reads].
    repeat match goal with |- reads_attr VE (if ?c then _ else _) => destruct c end; cbn [reads_attr];
      try (apply reads_vals; [exact Hk|]; intro u).
    + apply reads_simple. ve.
    + apply reads_simple. ve.
    + apply reads_choice_of. intros. apply reads_bind; [ve|]. intros.
      match goal with |- reads VE (reads_any VE) (Ok ?x) => change (ve x) end. ve.
    + apply reads_bind; [ve|]. intros. apply IHs.
    + apply reads_bind; [ve|]. intros.
      match goal with |- reads VE (reads_any VE) (Ok ?x) => change (ve x) end. ve.
    + apply reads_an_opus.
    + apply reads_bind; [ve|]. intros. apply IHc.
    + apply reads_bind; [ve|]. intros. apply IHc.
    + match goal with |- reads_any VE ?x => change (ve x) end. apply ve_bind; [|ve].
      apply ve_bind; [apply ve_read; ve|ve].
  - intro b. cbn [read_si]. assert (Hk : ve (children SignerInfo b)) by ve.
    set (kids := children SignerInfo b) in *. clearbody kids. cbn [reads_si].
    assert (Hat : forall n, reads VE (every_one (reads VE (reads_attr VE)))
              (let? o := read_field SignerInfo kids n items_of in
               match o with None => Ok [] | Some l => Ok (map (read_attr f) l) end)).
    { intro n. apply reads_bind; [apply ve_read_field; ve|]. intros [l|] _; [|exact I].
      apply every_map. exact IHa. }
    repeat match goal with |- _ /\ _ => split end; try apply Hat.
    + apply reads_read; [exact Hk|]. intros x tg t. apply reads_choice_of. intros n y tg' u.
      destruct (String.eqb n _); [|exact I]. cbn [reads reads_sid].
      assert (ve (let? c := contents_of y tg' u in children IssuerAndSerialNumber c)) by ve.
      split; match goal with |- reads_any VE ?x => change (ve x) end; apply ve_read; ve.
    + apply reads_read; [exact Hk|]. intros. apply reads_algid.
    + match goal with |- reads_any VE ?x => change (ve x) end. apply ve_read; [exact Hk|].
      intros. apply reads_algid.
    + match goal with |- reads_any VE ?x => change (ve x) end. apply ve_read; ve.
  - intro b. cbn [read_ci]. assert (Hk : ve (children ContentInfo b)) by ve.
    set (kids := children ContentInfo b) in *. clearbody kids. cbn [reads_ci].
    assert (Ht : ve (read ContentInfo kids "content_type" (read_oid content_types))) by (apply ve_read; ve).
    split; [exact Ht|]. apply reads_bind; [exact Ht|]. intros name _.
    apply reads_bind; [apply ve_read_field; ve|]. intros [u|] _; [|exact I].
    destruct (String.eqb name _); [|exact I]. apply reads_bind; [ve|]. intros c _. apply IHd.
  - intro b. cbn [read_sd]. assert (Hk : ve (children SignedData b)) by ve.
    set (kids := children SignedData b) in *. clearbody kids. cbn [reads_sd].
    assert (Hv : ve (read SignedData kids "version"
                       (fun a tg t => let? b := contents_of a tg t in Ok (version_native 0 b)))) by (apply ve_read; ve).
    assert (He : ve (read SignedData kids "encap_content_info" contents_of)) by (apply ve_read; ve).
    repeat match goal with |- _ /\ _ => split end.
    + apply reads_bind; [exact Hv|]. intros _ _. apply reads_bind; [apply ve_read; ve|].
      intros l _. apply every_map. intro. apply reads_algid.
    + match goal with |- reads_any VE ?x => change (ve x) end. apply ve_bind; [exact He|]. intros c _. apply ve_read; ve.
    + apply reads_bind; [exact Hv|]. intros v _. apply reads_bind; [exact He|]. intros c _. apply reads_a_content.
    + apply reads_bind; [apply ve_read_field; ve|]. intros [l|] _; [|exact I]. apply every_map. exact reads_a_choice.
    + match goal with |- reads_any VE ?x => change (ve x) end. apply ve_bind; [apply ve_read_field; ve|ve].
    + apply reads_bind; [apply ve_read; ve|]. intros l _. apply reads_map_res. intro t.
      apply reads_bind; [ve|]. intros c _. apply IHs.
Qed.

Lemma reads_der : forall b, reads VE (reads_ci VE) (der_loader b).
Proof.
  intro b. unfold der_loader. apply reads_bind; [ve|]. intros [t r] _.
  apply reads_bind; [ve|]. intros c _. apply reads_all.
Qed.
