(** Which exceptions opening a certificate trust list raises. *)
From Verif Require Import Base Bytes Monad ModelX509 ModelContext ModelPkcs7 ModelLazy ModelCtl ModelDer ModelSpc ModelDecode ModelStl
  SpecLazy ProofsDer ProofsDecode ProofsX509 ProofsX509b.

Section Among.
  Variable other : exc_class.

  Definition open_errors : list exc_class :=
    [ValueError; ParseError; other; KeyError; TypeError; IndexError; StructError; OverflowError].
  Definition mg {A} (r : res A) : Prop := match r with Ok _ => True | Err e => In (e_class e) open_errors end.

  Lemma mg_ok A (a : A) : mg (Ok a).
  Proof. exact I. Qed.
  Lemma mg_bind A B (r : res A) (f : A -> res B) : mg r -> (forall a, r = Ok a -> mg (f a)) -> mg (rbind r f).
  Proof. destruct r; cbn; auto. Qed.
  Lemma mg_ve A (r : res A) : ve r -> mg r.
  Proof. destruct r as [x|e]; cbn; [auto|]. intro H. left. symmetry. exact H. Qed.
  Lemma mg_raise A c m : In c open_errors -> mg (@raise A c m).
  Proof. exact (fun H => H). Qed.

  Ltac own := apply mg_raise; cbn; tauto.
  Ltac by_ve := apply mg_ve;
    repeat first [ apply ve_read | apply ve_read_field | apply ve_map_res | apply ve_children | apply ve_contents_of
                 | apply ve_items_of | apply ve_read_oid | apply ve_read_int | apply ve_read_time | apply ve_parse_tlv
                 | apply ve_unwrap | apply ve_utf16' | apply ve_ok | (apply ve_bind; [|intros ? ?]) | intro ].
  Ltac nx := apply mg_bind; [solve [by_ve]|intros ? _].

  Lemma ve_purposes a tg t : ve (purposes a tg t).
  Proof. unfold purposes. apply ve_bind; [apply ve_items_of|]. intros. apply ve_map_res. intro. apply ve_read_oid. Qed.
  Lemma ve_usages_in b : ve (usages_in b).
  Proof. unfold usages_in. apply ve_bind; [apply ve_parse_tlv|]. intros [t r] _. apply ve_purposes. Qed.
  Lemma ve_ctl_string b : ve (ctl_string b).
  Proof. unfold ctl_string. apply ve_bind; [apply ve_utf16'|]. intros. apply ve_ok. Qed.

  Lemma ve_read_ctl_attr t : ve (read_ctl_attr t).
  Proof.
    unfold read_ctl_attr. apply ve_bind; [apply ve_contents_of|intros b _]. cbv zeta.
    apply ve_bind; [apply ve_read; [apply ve_children|intros; apply ve_read_oid]|intros typ _].
    apply ve_bind.
    { apply ve_read; [apply ve_children|intros]. apply ve_bind; [apply ve_items_of|intros].
      apply ve_map_res. intro. apply ve_contents_of. }
    intros vals _.
    repeat match goal with
    | |- ve (if ?c then _ else _) => destruct c
    | |- ve (Ok _) => apply ve_ok
    | |- ve (rbind _ _) => apply ve_bind; [|intros; apply ve_ok]
    end; apply ve_map_res; intro; first [apply ve_usages_in|apply ve_ctl_string].
  Qed.

  Lemma mg_first A (l : list A) : mg (first_value l).
  Proof. destruct l; cbn; [tauto|exact I]. Qed.
  Lemma mg_filetimes l : mg (filetime_natives l).
  Proof.
    induction l as [|b l IH]; cbn [filetime_natives]; [exact I|].
    apply mg_bind.
    - destruct (filetime_native b) as [x|e] eqn:E; [exact I|]. cbn.
      destruct (filetime_fail _ _ E) as [[_ ->]|(_ & -> & _)]; tauto.
    - intros x _. apply mg_bind; [exact IH|]. intros. exact I.
  Qed.
  Lemma mg_attr s a : mg (subject_attr s a).
  Proof.
    destruct a; cbn [subject_attr];
      try (apply mg_bind; [apply mg_first|intros ? _; exact I]).
    1,2: apply mg_bind; [apply mg_filetimes|intros ? _]; apply mg_bind; [apply mg_first|intros ? _; exact I].
    destruct count; cbn; [tauto|exact I].
  Qed.
  Lemma mg_attrs l : forall s, mg (der_attrs s l).
  Proof.
    induction l as [|t l IH]; intro s; cbn [der_attrs]; [exact I|].
    apply mg_bind; [apply mg_ve, ve_read_ctl_attr|intros a0 _].
    apply mg_bind; [apply mg_attr|]. intros s' _. apply IH.
  Qed.
  Lemma mg_subject t : mg (der_subject t).
  Proof.
    unfold der_subject. nx. cbv zeta. nx. nx. apply mg_attrs.
  Qed.
  Lemma mg_subjects l : forall d, mg (der_subjects d l).
  Proof.
    induction l as [|t l IH]; intro d; cbn [der_subjects]; [exact I|].
    apply mg_bind; [apply mg_subject|]. intros s _. apply IH.
  Qed.

  Lemma mg_alg x : reads_alg VE x -> mg (lz_digest_algorithm x).
  Proof.
    intros (H1 & H2). unfold lz_digest_algorithm.
    apply mg_bind; [apply mg_ve; exact H1|]. intros alg _. destruct (negb _); [own|].
    apply mg_bind; [apply mg_ve; exact H2|]. intros [|] _; [own|exact I].
  Qed.
  Lemma mg_list alg certs b : mg (der_list alg certs b).
  Proof.
    unfold der_list. cbv zeta.
    apply mg_bind; [apply mg_ve, ve_read; [apply ve_children|intros; apply ve_purposes]|intros usage _].
    do 4 nx.
    destruct (read CertificateTrustList _ "subject_algorithm" _) as [algid|e] eqn:Eg; cbn [rbind].
    2: { pose proof (reads_read _ (reads_alg VE) CertificateTrustList _ "subject_algorithm" (algid_ok digest_algorithms)
           (ve_children CertificateTrustList b) (fun x tg t => reads_algid _ x tg t)) as H. rewrite Eg in H. left. symmetry. exact H. }
    assert (Ha : reads_alg VE algid).
    { pose proof (reads_read _ (reads_alg VE) CertificateTrustList _ "subject_algorithm" (algid_ok digest_algorithms)
        (ve_children CertificateTrustList b) (fun x tg t => reads_algid _ x tg t)) as H. rewrite Eg in H. exact H. }
    apply mg_bind; [apply mg_alg; exact Ha|intros sa _].
    nx. apply mg_bind; [apply mg_subjects|]. intros. exact I.
  Qed.

  Lemma mg_content b : mg (der_list_content b).
  Proof.
    unfold der_list_content. cbv zeta. nx. nx. destruct (String.eqb _ _); nx.
    - destruct a1; [|exact I]. nx. exact I.
    - destruct a1; [|exact I]. apply mg_bind; [apply mg_ve, ve_parse_tlv|intros [u r] _]. nx. exact I.
  Qed.
  Lemma ve_certificates l : every_one (reads VE (reads_choice VE)) l -> ve (lz_certificates l).
  Proof.
    induction l as [|c l IH]; cbn [every_one lz_certificates]; intro H; [exact I|]. destruct H as (Hc & Hl).
    destruct c as [[x|k]|e]; cbn [rbind]; [|apply IH; exact Hl|exact Hc].
    apply ve_bind.
    - cbn in Hc. unfold reads_cert in Hc. unfold lz_certificate. decompose [and] Hc.
      repeat (apply ve_bind; [assumption|intros ? _]). apply ve_ok.
    - intros y _. apply ve_bind; [apply IH; exact Hl|intros; apply ve_ok].
  Qed.

  Lemma mg_trust_list b : mg (der_trust_list b).
  Proof.
    unfold der_trust_list. destruct (reads_all (S (length b))) as (_ & _ & _ & H). specialize (H b).
    destruct (read_sd (S (length b)) b) as [algs ct content certs crls signers]. cbn in H.
    destruct H as (Ha & Ht & _ & Hc & _).
    apply mg_bind; [apply mg_ve; destruct algs; [exact I|exact Ha]|intros l ->]. cbn in Ha.
    apply mg_bind.
    { destruct l as [|a0 [|? ?]]; try own. apply mg_alg. apply Ha. }
    intros alg _. apply mg_bind; [apply mg_ve; exact Ht|intros typ _].
    apply mg_bind; [destruct (String.eqb _ _); [exact I|own]|intros _ _].
    apply mg_bind; [apply mg_content|intros o _].
    apply mg_bind; [apply mg_ve; destruct certs; [exact I|exact Hc]|intros cl ->]. cbn in Hc.
    apply mg_bind; [apply mg_ve, ve_certificates, Hc|intros cs _].
    destruct o; [apply mg_list|own].
  Qed.
  Lemma mg_open data : mg (der_open_list other data).
  Proof.
    unfold der_open_list. apply mg_bind; [apply mg_ve, ve_parse_tlv|intros [t r] _]. nx. cbv zeta. nx.
    destruct (negb _); [own|].
    apply mg_bind.
    { unfold der_ci_content. nx. destruct a1; [nx|]; exact I. }
    intros o _. destruct o; [apply mg_trust_list|own].
  Qed.
End Among.

Theorem open_fails other data e : der_open_list other data = Err e ->
  In (e_class e) [ValueError; ParseError; other; KeyError; TypeError; IndexError; StructError; OverflowError].
Proof. intro H. pose proof (mg_open other data) as M. rewrite H in M. exact M. Qed.
