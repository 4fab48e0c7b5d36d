(** Property C75: certificates in PEM files. *)
From Verif Require Import Base Bytes ModelX509 ModelContext SpecContext SpecUnread ModelDer ModelDecode ModelPem SpecPem ProofsPem ExampleDer.

(** A bundle is read to its last block: whatever text is around the blocks, however long the
    lines are, however they end and whatever the labels say. *)
Theorem C75_read :
  forall ls t ders cs, text_of ls t -> bundle ls ders -> ders <> [] ->
  Forall2 (fun d c => cert_from_der d = Ok c) ders cs ->
  from_pems t = (cs, None) /\ from_pem t = match cs with c :: _ => Some (Ok c) | [] => None end.
Proof.
  intros ls t ders cs T B N F. pose proof (from_pems_bundle ls t ders cs B T N F) as E. split; [exact E|].
  unfold from_pem. rewrite E. destruct cs; reflexivity.
Qed.
Print Assumptions C75_read.

(** The octets of the blocks themselves. *)
Theorem C75_base64 : forall d, b64decode (base64 d) = Ok d.
Proof. exact base64_read. Qed.
Print Assumptions C75_base64.

(** A text without a block is an error. *)
Theorem C75_none :
  forall ls t, text_of ls t -> bundle ls [] ->
  from_pems t = ([], Some (mkExn ValueError "pem_bytes does not appear to contain PEM-encoded data")).
Proof. intros ls t T B. exact (from_pems_none ls t B T). Qed.
Print Assumptions C75_none.

(** [from_pem] of any octets returns or raises: the StopIteration of [next] is not seen. *)
Theorem C75_single : forall t, from_pem t <> None.
Proof. exact from_pem_some. Qed.
Print Assumptions C75_single.

(** Every certificate that is read, of any octets, is in a block of the text, also if an
    exception follows. *)
Theorem C75_sound :
  forall t cs x c, from_pems t = (cs, x) -> In c cs ->
  (exists ls, text_of ls t) /\
  forall ls, text_of ls t -> exists d, block_of ls d /\ cert_from_der d = Ok c.
Proof.
  intros t cs x c E I. split; [apply text_exists|]. intros ls T. exact (from_pems_blocks ls t cs x c T E I).
Qed.
Print Assumptions C75_sound.

(** A store over files that are bundles can be read and holds all their certificates, in order. *)
Theorem C75_store :
  forall fs css s,
  Forall2 (fun f cs => exists t ls ders, f = Ok t /\ text_of ls t /\ bundle ls ders /\ ders <> [] /\
             Forall2 (fun d c => cert_from_der d = Ok c) ders cs) fs css ->
  s_location s = Some (location_of fs) -> s_loaded s = false ->
  readable s /\ contents s = s_items s ++ concat css.
Proof.
  intros fs css s F L N. rewrite (location_bundles fs css F) in L. split.
  - intros l E _. rewrite L in E. injection E as <-. clear. induction css; [reflexivity|assumption].
  - unfold contents. rewrite L, N. f_equal. clear. induction css as [|cs css IH]; [reflexivity|].
    cbn [map location_certs concat]. now rewrite IH.
Qed.
Print Assumptions C75_store.

(** One file in the directory that holds no block, a note for instance, and the store cannot be
    read (so that nothing is verified with it, C74). *)
Theorem C75_stray :
  forall before css t ls after s,
  Forall2 (fun f cs => exists t ls ders, f = Ok t /\ text_of ls t /\ bundle ls ders /\ ders <> [] /\
             Forall2 (fun d c => cert_from_der d = Ok c) ders cs) before css ->
  text_of ls t -> bundle ls [] ->
  s_location s = Some (location_of (before ++ Ok t :: after)) -> s_loaded s = false ->
  unreadable s.
Proof.
  intros before css t ls after s F T B L N. exact (location_stray before css t ls after s F T B L N).
Qed.
Print Assumptions C75_stray.

(** Whatever is in the files, only ValueError is raised, so that a store over files that the
    operating system lets be read or not can be read or is one of those of C74. *)
Theorem C75_errors : forall t cs e, from_pems t = (cs, Some e) -> e_class e = ValueError.
Proof. exact from_pems_errors. Qed.
Print Assumptions C75_errors.
Theorem C75_plain :
  forall fs s, Forall (fun f => forall e, f = Err e -> issubclass (e_class e) VerificationError = false) fs ->
  s_location s = Some (location_of fs) -> readable s \/ unreadable s.
Proof. exact location_plain. Qed.
Print Assumptions C75_plain.

(** That a text in which a block is not closed is rejected, as RFC 7468 has it, is false: the
    block is passed over if it is the last one, and swallows the next one if it is not. *)
Definition e_lines (ls : list string) : bytes := concat (map (fun l => lit l ++ [x0a]) ls).
Definition e_block (d : bytes) : bytes :=
  lit "-----BEGIN CERTIFICATE-----" ++ [x0a] ++ base64 d ++ [x0a] ++ lit "-----END CERTIFICATE-----" ++ [x0a].
Definition e_open (d : bytes) : bytes := lit "-----BEGIN CERTIFICATE-----" ++ [x0a] ++ base64 d ++ [x0a].
Definition e_cert2 : bytes :=
  e_seq [e_seq [e_int x06; e_alg o_rsa; e_name "You"; e_seq [enc x17 [lit "200101000000Z"]; enc x17 [lit "400101000000Z"]];
                e_name "You"; e_seq [e_alg o_rsa; enc x03 [[x00; x01]]]];
         e_alg o_rsa; enc x03 [[x00; x01]]].
Definition e_names (r : list cert * option exn) : list Z * option exn := (map c_serial (fst r), snd r).
Theorem C75_refuted :
  exists d1 d2 d3 c1 c2 c3,
  cert_from_der d1 = Ok c1 /\ cert_from_der d2 = Ok c2 /\ cert_from_der d3 = Ok c3 /\ c2 <> c1 /\ c2 <> c3 /\
  from_pems (e_block d1 ++ e_open d2) = ([c1], None) /\
  from_pems (e_block d1 ++ firstn 60 (e_block d2)) = ([c1], None) /\
  from_pems (e_open d1 ++ e_block d2 ++ e_block d3) = ([c1; c3], None).
Proof.
  destruct (cert_from_der e_cert) as [c1|] eqn:E1; [|vm_compute in E1; discriminate].
  destruct (cert_from_der e_cert2) as [c2|] eqn:E2; [|vm_compute in E2; discriminate].
  exists e_cert, e_cert2, e_cert, c1, c2, c1. vm_compute in E1. injection E1 as <-. vm_compute in E2. injection E2 as <-.
  vm_compute. repeat split; congruence.
Qed.
Print Assumptions C75_refuted.

(** A bundle with remarks, blank lines, an odd label, lines of several lengths and ends. *)
Definition e_text : bytes :=
  lit "# Mine" ++ [x0a; x0a] ++ pre (lit "CERTIFICATE") ++ [x0d; x0a] ++ firstn 64 (base64 e_cert) ++ [x0d; x0a] ++ [x0d; x0a] ++
  skipn 64 (base64 e_cert) ++ [x0d; x0a] ++ post (lit "CERTIFICATE") ++ [x0d; x0a] ++ lit "Yours: " ++ [x0a] ++
  pre (lit "X509 CERTIFICATE") ++ [x0a] ++ base64 e_cert2 ++ [x0d] ++ post (lit "CERTIFICATE").
Definition e_text_lines : list bytes :=
  [lit "# Mine"; []; pre (lit "CERTIFICATE"); firstn 64 (base64 e_cert); []; skipn 64 (base64 e_cert); post (lit "CERTIFICATE");
   lit "Yours: "; pre (lit "X509 CERTIFICATE"); base64 e_cert2; post (lit "CERTIFICATE")].
Lemma e_one_line l : existsb (fun c => Byte.eqb x0a c || Byte.eqb x0d c) l = false -> one_line l.
Proof.
  intro H. split; intro I; rewrite <- not_true_iff_false in H; apply H; apply existsb_exists; eexists; (split; [exact I|reflexivity]).
Qed.
Lemma e_remark l : starts_with (lit "-----BEGIN ") l || starts_with (lit "---- BEGIN ") l = false -> remark l.
Proof.
  intros H rest. apply orb_false_iff in H. destruct H as [H1 H2]. split; intros ->; [now rewrite starts_app in H1|now rewrite starts_app in H2].
Qed.
Lemma e_text_of : text_of e_text_lines e_text.
Proof.
  unfold e_text_lines, e_text.
  assert (L : forall l e b ls t, existsb (fun c => Byte.eqb x0a c || Byte.eqb x0d c) l = false -> eol e -> text_of ls b ->
    l ++ e ++ b = t -> text_of (l :: ls) t).
  { intros l e b ls t H1 H2 H3 <-. apply text_line; [now apply e_one_line|assumption|assumption]. }
  pose proof (or_introl eq_refl : eol [x0a]) as N. pose proof (or_intror (or_introl eq_refl) : eol [x0d]) as R.
  pose proof (or_intror (or_intror eq_refl) : eol [x0d; x0a]) as RN.
  eapply (L _ [x0a]); [reflexivity|exact N| |reflexivity].
  eapply (L _ [x0a]); [reflexivity|exact N| |reflexivity].
  eapply (L _ [x0d; x0a]); [reflexivity|exact RN| |reflexivity].
  eapply (L _ [x0d; x0a]); [vm_compute; reflexivity|exact RN| |reflexivity].
  eapply (L _ [x0d; x0a]); [reflexivity|exact RN| |reflexivity].
  eapply (L _ [x0d; x0a]); [vm_compute; reflexivity|exact RN| |reflexivity].
  eapply (L _ [x0d; x0a]); [reflexivity|exact RN| |reflexivity].
  eapply (L _ [x0a]); [reflexivity|exact N| |reflexivity].
  eapply (L _ [x0a]); [reflexivity|exact N| |reflexivity].
  eapply (L _ [x0d]); [vm_compute; reflexivity|exact R| |reflexivity].
  apply text_last. now apply e_one_line.
Qed.
Lemma e_label l : l <> [] -> forallb label_char l = true -> label l.
Proof.
  intros N H. split; [exact N|]. rewrite forallb_forall in H. apply Forall_forall. intros c I. specialize (H c I).
  unfold label_char in H. cbv zeta in H. rewrite !orb_true_iff, !andb_true_iff, !Z.leb_le, Z.eqb_eq in H. tauto.
Qed.
Lemma e_bundle : bundle e_text_lines [e_cert; e_cert2].
Proof.
  unfold e_text_lines.
  apply (bundle_block [lit "# Mine"; []] (lit "CERTIFICATE") (lit "CERTIFICATE")
    [firstn 64 (base64 e_cert); []; skipn 64 (base64 e_cert)] e_cert
    [lit "Yours: "; pre (lit "X509 CERTIFICATE"); base64 e_cert2; post (lit "CERTIFICATE")] [e_cert2]).
  - repeat (constructor; [apply e_remark; reflexivity|]). constructor.
  - apply e_label; [discriminate|reflexivity].
  - apply e_label; [discriminate|reflexivity].
  - cbn [concat]. rewrite app_nil_r. cbn [app]. apply firstn_skipn.
  - apply (bundle_block [lit "Yours: "] (lit "X509 CERTIFICATE") (lit "CERTIFICATE") [base64 e_cert2] e_cert2 [] []).
    + repeat (constructor; [apply e_remark; reflexivity|]). constructor.
    + apply e_label; [discriminate|reflexivity].
    + apply e_label; [discriminate|reflexivity].
    + cbn [concat]. apply app_nil_r.
    + apply bundle_end. constructor.
Qed.
Example C75_run :
  text_of e_text_lines e_text /\ bundle e_text_lines [e_cert; e_cert2] /\
  (exists c1 c2, Forall2 (fun d c => cert_from_der d = Ok c) [e_cert; e_cert2] [c1; c2] /\ c_serial c1 = 5 /\ c_serial c2 = 6) /\
  e_names (from_pems e_text) = ([5; 6], None).
Proof.
  split; [exact e_text_of|]. split; [exact e_bundle|]. split; [|vm_compute; reflexivity].
  destruct (cert_from_der e_cert) as [c1|] eqn:E1; [|vm_compute in E1; discriminate].
  destruct (cert_from_der e_cert2) as [c2|] eqn:E2; [|vm_compute in E2; discriminate].
  exists c1, c2. split; [repeat constructor; assumption|]. vm_compute in E1, E2. injection E1 as <-. injection E2 as <-. split; reflexivity.
Qed.
(** Texts that are no bundles: what is read of them, and what ends the reading. *)
Example C75_odd :
  map (fun t => e_names (from_pems t))
    [ []; e_lines ["just"; "words"];
      e_block e_cert ++ lit "-----BEGIN CERTIFICATE-----" ++ [x0a] ++ lit "A" ++ [x0a] ++ lit "-----";
      e_block e_cert ++ e_block (lit "no certificate") ++ e_block e_cert2;
      lit "---- BEGIN A ----" ++ [x0a] ++ lit "Comment: hello" ++ [x0a] ++ base64 e_cert ++ [x0a] ++ lit "---- oops";
      lit "-----BEGIN A-----" ++ [x0a; xc3; x3a; x0a] ++ base64 e_cert ++ [x0a] ++ lit "-----END A-----" ] =
  [ ([], Some no_pem); ([], Some no_pem); ([5], Some (mkExn ValueError "Incorrect padding"));
    e_names (from_pems (e_block e_cert ++ e_block (lit "no certificate")));
    ([5], None); ([], Some (mkExn ValueError "codec can't decode")) ].
Proof. vm_compute. reflexivity. Qed.
Example C75_stray_run :
  let note := e_lines ["Put the certificates here."] in
  let s := mkStore [] true None (Some (location_of [Ok (e_block e_cert); Ok note; Ok (e_block e_cert2)])) false in
  text_of [lit "Put the certificates here."] (lit "Put the certificates here.") /\
  bundle [lit "Put the certificates here."] [] /\ unreadable s /\ map c_serial (contents s) = [5].
Proof.
  cbv zeta. split; [apply text_last; now apply e_one_line|].
  split; [apply bundle_end; repeat constructor; apply e_remark; reflexivity|].
  split; [|vm_compute; reflexivity]. eexists _, no_pem. split; [reflexivity|]. split; [reflexivity|]. split; [vm_compute; reflexivity|reflexivity].
Qed.
