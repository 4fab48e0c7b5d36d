(** The exceptions of opening an envelope that is decoded on demand. *)
From Verif Require Import Base Monad ModelFile ModelX509 ModelContext ModelPkcs7 ModelLazy ModelAuthenticode SpecWhole SpecLazy ProofsLazy.

Section Errors.
  Variable P : exn -> Prop.

  Definition known (e : exn) : Prop := P e \/ In (e_class e) parse_errors.
  (** [r] raises only such exceptions and gives only values as [Q] says. *)
  Definition tame {A} (Q : A -> Prop) (r : res A) : Prop := match r with Ok a => Q a | Err e => known e end.

  Lemma tame_bind {A B} (Q : A -> Prop) (R : B -> Prop) (x : res A) (f : A -> res B) :
    tame Q x -> (forall a, Q a -> tame R (f a)) -> tame R (rbind x f).
  Proof. destruct x as [a|e]; cbn; auto. Qed.
  Lemma tame_weaken {A} (Q R : A -> Prop) x : (forall a, Q a -> R a) -> tame Q x -> tame R x.
  Proof. destruct x; cbn; auto. Qed.
  Lemma tame_reads {A} (Q : A -> Prop) x : reads P Q x -> tame Q x.
  Proof. destruct x; cbn; [auto|left; assumption]. Qed.
  Lemma tame_raise {A} (Q : A -> Prop) c m : In c parse_errors -> tame Q (raise c m).
  Proof. intro H. right. exact H. Qed.
  Lemma tame_any {A} (x : res A) : reads_any P x -> tame (fun _ => True) x.
  Proof. apply tame_reads. Qed.

  Ltac own := apply tame_raise; cbn; tauto.
  Ltac rd := first [apply tame_reads; eassumption | apply tame_any; eassumption].
  Ltac nx := eapply tame_bind; [rd|].

  Lemma t_alg a : reads_alg P a -> tame (fun _ => True) (lz_digest_algorithm a).
  Proof.
    intros (H1 & H2). unfold lz_digest_algorithm. nx. intros alg _. destruct (negb _); [own|].
    nx. intros [|] _; [own|exact I].
  Qed.

  Lemma t_certificate c : reads_cert P c -> tame (fun _ => True) (lz_certificate c).
  Proof.
    unfold reads_cert, lz_certificate. intro H. decompose [and] H. clear H.
    do 13 (nx; intros ? _). exact I.
  Qed.

  Lemma t_certificates l : every_one (reads P (reads_choice P)) l -> tame (fun _ => True) (lz_certificates l).
  Proof.
    induction l as [|c l IH]; cbn [every_one lz_certificates]; intro H; [exact I|]. destruct H as (Hc & Hl).
    nx. intros [x|k] Hx; [|apply IH; exact Hl].
    eapply tame_bind; [apply t_certificate; exact Hx|]. intros y _.
    eapply tame_bind; [apply IH; exact Hl|]. intros ys _. exact I.
  Qed.

  (** What the attributes hold once their values are listed. *)
  Lemma t_readable a : reads_attr P a -> tame (fun _ => True) (lz_readable a).
  Proof.
    destruct a as [v|v|v|v|v|v|v|v|t v]; cbn [reads_attr lz_readable]; intro H;
    destruct v as [v|e]; cbn in *; try exact I; left; exact H.
  Qed.

  Definition gives {A} (Q : A -> Prop) (o : option (list A)) : Prop :=
    match o with Some l => every_one Q l | None => True end.

  Lemma t_attributes l : reads P (every_one (reads P (reads_attr P))) l ->
    tame (fun d => every_one (reads_attr P) d /\ Forall (fun a => lz_readable a = Ok tt) d) (lz_attributes l).
  Proof.
    intro H. destruct (lz_attributes l) as [d|e] eqn:D.
    - split; [|apply (attributes_readable _ _ D)]. unfold lz_attributes in D. ok D. rewrite R in H. cbn [reads] in H.
      clear R. revert d H D. induction v as [|a v IH]; intros d H D; cbn [map_res every_one] in *.
      + injection D as <-. exact I.
      + ok D. ok D. injection D as <-. ok R. ok R. injection R as <-. destruct H as (H1 & H2).
        rewrite R1 in H1. split; [exact H1|]. apply IH; [exact H2|exact R0].
    - unfold lz_attributes in D. destruct l as [l|e']; cbn [rbind reads tame] in *.
      + revert D. induction l as [|a l IH]; cbn [map_res every_one] in *; [discriminate|]. destruct H as (H1 & H2).
        destruct a as [a|ea]; cbn [rbind reads] in *.
        * assert (T := t_readable _ H1). destruct (lz_readable a) as [u|er]; cbn [rbind tame] in *.
          { destruct (map_res _ l) as [ys|ey]; cbn [rbind]; intro D; [discriminate|]. injection D as ->. apply IH; [exact H2|reflexivity]. }
          { intro D. injection D as ->. exact T. }
        * intro D. injection D as ->. left. exact H1.
      + injection D as ->. left. exact H.
  Qed.

  Lemma values_gives {A} (f : lz_attr -> option (res (list A))) (Q : A -> Prop) d :
    every_one (reads_attr P) d ->
    (forall a v, reads_attr P a -> f a = Some (Ok v) -> every_one Q v) -> gives Q (lz_values f d).
  Proof.
    intros H K. induction d as [|a d IH]; [exact I|]. cbn [lz_values every_one] in *. destruct H as (Ha & Hd).
    specialize (IH Hd). destruct (lz_values f d); [exact IH|]. destruct (f a) as [[v|]|] eqn:Fa; try exact I.
    cbn. apply (K a v Ha Fa).
  Qed.

  Ltac sel := intros a v Ha Hf; destruct a; try discriminate; cbn in Hf; injection Hf as ->; exact Ha.
  Lemma g_types d : every_one (reads_attr P) d -> gives (reads_any P) (lz_values lz_content_type d).
  Proof. intro H. apply (values_gives _ _ _ H). sel. Qed.
  Lemma g_digests d : every_one (reads_attr P) d -> gives (reads_any (A:=bytes) P) (lz_values (A:=res bytes) lz_message_digest d).
  Proof. intro H. apply (values_gives (A:=res bytes) _ _ _ H). sel. Qed.
  Lemma g_times d : every_one (reads_attr P) d -> gives (reads_any P) (lz_values lz_signing_time d).
  Proof. intro H. apply (values_gives _ _ _ H). sel. Qed.
  Lemma g_counter d : every_one (reads_attr P) d -> gives (reads_si P) (lz_values lz_counter_signature d).
  Proof. intro H. apply (values_gives _ _ _ H). sel. Qed.
  Lemma g_statement d : every_one (reads_attr P) d -> gives (reads_any P) (lz_values lz_statement_type d).
  Proof. intro H. apply (values_gives _ _ _ H). sel. Qed.
  Lemma g_opus d : every_one (reads_attr P) d -> gives (reads_opus P) (lz_values lz_opus_info d).
  Proof. intro H. apply (values_gives _ _ _ H). sel. Qed.
  Lemma g_nested d : every_one (reads_attr P) d -> gives (reads_ci P) (lz_values lz_nested d).
  Proof. intro H. apply (values_gives _ _ _ H). sel. Qed.
  Lemma g_token d : every_one (reads_attr P) d -> gives (reads_ci P) (lz_values lz_token d).
  Proof. intro H. apply (values_gives _ _ _ H). sel. Qed.

  Lemma t_single {A} (o : option (list (res A))) m : gives (reads_any P) o -> tame (fun _ => True) (lz_single o m).
  Proof.
    destruct o as [[|a [|]]|]; cbn [gives every_one lz_single]; intro H; try own; [|exact I].
    destruct H as (H & _). nx. intros; exact I.
  Qed.

  Lemma t_signer need e r : reads_si P r ->
    tame (fun p => every_one (reads_attr P) (fst (snd p)) /\ every_one (reads_attr P) (snd (snd p))) (lz_signer need e r).
  Proof.
    destruct r as [sid dalg signed contents salg signature unsigned]. cbn [reads_si lz_signer].
    intros (H1 & H2 & H3 & H4 & H5 & H6). nx. intros s Hs. destruct s as [i n|]; [|own]. destruct Hs as (Hi & Hn).
    nx. intros i' _. nx. intros n' _. eapply tame_bind; [apply t_attributes; exact H3|]. intros auth (Ha & _).
    cbv zeta. eapply (tame_bind (fun _ => True)); [destruct (_ && _); [exact I|own]|]. intros _ _.
    eapply tame_bind; [apply t_attributes; exact H6|]. intros unauth (Hu & _).
    nx. intros sa _. nx. intros sg _. nx. intros da Hda. eapply tame_bind; [apply t_alg; exact Hda|]. intros alg _.
    eapply tame_bind; [apply (t_single (A:=bytes)); apply g_digests; exact Ha|]. intros md _.
    eapply tame_bind; [apply t_single; apply g_types; exact Ha|]. intros ct _.
    eapply (tame_bind (fun _ => True)); [destruct ct as [t|]; [destruct e as [ex|]; [destruct (String.eqb t ex); [exact I|own]|exact I]|exact I]|].
    intros _ _. eapply tame_bind; [apply t_single; apply g_times; exact Ha|]. intros st _.
    cbn. split; assumption.
  Qed.

  Lemma t_countersignature d : every_one (reads_attr P) d ->
    tame (fun c => match c with Some x => reads_si P x | None => True end) (lz_countersignature d).
  Proof.
    intro H. apply g_counter in H. unfold lz_countersignature.
    destruct (lz_values lz_counter_signature d) as [[|a [|]]|]; try own; [|exact I]. apply H.
  Qed.

  Lemma t_countersigner d : forall r, reads_si P r -> tame (fun _ => True) (lz_countersigner d r).
  Proof.
    induction d as [|d IH]; intros r H; [own|]. cbn [lz_countersigner].
    eapply tame_bind; [apply t_signer; exact H|]. intros p (_ & Hu).
    eapply tame_bind; [apply t_countersignature; exact Hu|]. intros [c|] Hc; [|exact I].
    eapply tame_bind; [apply IH; exact Hc|]. intros; exact I.
  Qed.

  Lemma t_rfc3161 r : reads_si P r -> tame (fun _ => True) (lz_rfc3161_signer r).
  Proof.
    intro H. unfold lz_rfc3161_signer. eapply tame_bind; [apply t_signer; exact H|]. intros p (_ & Hu).
    eapply tame_bind; [apply t_countersignature; exact Hu|]. intros [c|] Hc; [own|exact I].
  Qed.

  Lemma t_map_res {A B} (f : A -> res B) (Q : A -> Prop) l :
    (forall a, Q a -> tame (fun _ => True) (f a)) -> every_one Q l -> tame (fun _ => True) (map_res f l).
  Proof.
    intros K. induction l as [|a l IH]; cbn [map_res every_one]; intro H; [exact I|]. destruct H as (Ha & Hl).
    eapply tame_bind; [apply K; exact Ha|]. intros b _. eapply tame_bind; [apply IH; exact Hl|]. intros; exact I.
  Qed.

  Lemma t_data e r : reads_sd P r -> tame (fun p => reads_value P (snd p)) (lz_signed_data e r).
  Proof.
    destruct r as [algs ct content certs crls sis]. cbn [reads_sd lz_signed_data].
    intros (H1 & H2 & H3 & H4 & H5 & H6). nx. intros l Hl.
    eapply (tame_bind (fun _ => True)).
    { destruct l as [|a [|]]; try own. apply t_alg. apply Hl. }
    intros alg _. nx. intros t _. eapply (tame_bind (fun _ => True)); [destruct (String.eqb t e); [exact I|own]|]. intros _ _.
    nx. intros c Hc. cbv beta in Hc. nx. intros v Hv. nx. intros cs Hcs.
    eapply tame_bind; [apply t_certificates; exact Hcs|]. intros; exact Hv.
  Qed.

  Lemma t_timedelta z : tame (fun _ => True) (timedelta z).
  Proof. unfold timedelta. destruct (_ && _); [exact I|own]. Qed.
  Lemma t_accuracy_add d f u : tame (fun _ => True) (accuracy_add d f u).
  Proof.
    unfold accuracy_add. destruct f as [[|p|p]|]; try exact I; (eapply tame_bind; [apply t_timedelta|]; intros; apply t_timedelta).
  Qed.

  Lemma t_tst v : reads_value P v -> tame (fun _ => True) (lz_tst_info v).
  Proof.
    destruct v as [s|t|]; cbn [reads_value lz_tst_info]; intro H; try own. decompose [and] H. clear H.
    nx. intros ver _. destruct (negb _); [own|]. nx. intros po _. nx. intros ha Hha.
    eapply tame_bind; [apply t_alg; exact Hha|]. intros alg _. nx. intros hm _. nx. intros se _. nx. intros gt _.
    nx. intros acc Hacc. eapply (tame_bind (fun _ => True)).
    { destruct acc as [y|]; [|exact I]. destruct Hacc as (A1 & A2 & A3). cbn [lz_accuracy_to_python].
      nx. intros s _. eapply tame_bind; [apply t_accuracy_add|]. intros d1 _. nx. intros ms _.
      eapply tame_bind; [apply t_accuracy_add|]. intros d2 _. nx. intros us _. apply t_accuracy_add. }
    intros accu _. nx. intros tsa Htsa. eapply (tame_bind (fun _ => True)); [|intros; exact I].
    destruct tsa; cbn [lz_authority reads_tsa] in *; [exact I| |own]. nx. intros; exact I.
  Qed.

  Lemma t_signers r : reads_sd P r -> reads P (every_one (reads_si P)) (lz_signers r).
  Proof. destruct r. cbn. tauto. Qed.

  Lemma t_rsd r : reads_sd P r -> tame (fun _ => True) (lz_rsd r).
  Proof.
    intro H. unfold lz_rsd. eapply tame_bind; [apply t_data; exact H|]. intros p Hp.
    eapply tame_bind; [apply tame_reads; apply t_signers; exact H|]. intros l Hl.
    eapply tame_bind; [apply (t_map_res _ _ _ t_rfc3161 Hl)|]. intros sis _.
    eapply tame_bind; [apply t_tst; exact Hp|]. intros t _. destruct sis as [|s [|]]; try own. exact I.
  Qed.

  Lemma t_spc v : reads_value P v -> tame (fun _ => True) (lz_spc_info v).
  Proof.
    destruct v as [s|t|]; cbn [reads_value lz_spc_info]; intro H; try own. decompose [and] H. clear H.
    nx. intros ty _. destruct (negb _); [own|]. nx. intros [m|] Hm; [|own]. destruct Hm as (M1 & M2).
    nx. intros _ _. nx. intros _ _. nx. intros a Ha. eapply tame_bind; [apply t_alg; exact Ha|]. intros alg _.
    nx. intros; exact I.
  Qed.

  Lemma t_sub {A} m (f : lz_sd -> res A) c : (forall s, reads_sd P s -> tame (fun _ => True) (f s)) ->
    reads_ci P c -> tame (fun _ => True) (lz_sub m f c).
  Proof.
    intros K. destruct c as [t x]. cbn [reads_ci lz_sub]. intros (H1 & H2). nx. intros ty _.
    destruct (negb _); [own|]. nx. intros co Hco. destruct co as [s|[|]]; cbn [lz_content_info rbind]; [|own|own].
    apply K. exact Hco.
  Qed.

  Lemma t_asi d sub r : (forall s, reads_sd P s -> tame (fun _ => True) (sub s)) -> reads_si P r ->
    tame (fun _ => True) (lz_asi d sub r).
  Proof.
    intros K H. unfold lz_asi. eapply tame_bind; [apply t_signer; exact H|]. intros p (Ha & Hu). cbv zeta.
    eapply tame_bind; [apply t_countersignature; exact Hu|]. intros cs Hcs.
    eapply (tame_bind (fun _ => True)).
    { destruct cs as [c|]; [|exact I]. eapply tame_bind; [apply t_countersigner; exact Hcs|]. intros; exact I. }
    intros plain _. eapply (tame_bind (fun _ => True)).
    { unfold lz_statement_types. assert (G := g_statement _ Ha).
      destruct (lz_values lz_statement_type (fst (snd p))) as [[|a [|]]|]; try own; [|exact I].
      destruct G as (G & _). nx. intros; exact I. }
    intros _ _. eapply (tame_bind (fun _ => True)).
    { unfold lz_opus_infos. assert (G := g_opus _ Ha).
      destruct (lz_values lz_opus_info (fst (snd p))) as [[|a [|]]|]; try own; [|exact I].
      destruct G as ((G1 & G2 & G3) & _). nx. intros _ _. nx. intros _ _. nx. intros; exact I. }
    intros _ _. eapply (tame_bind (fun _ => True)).
    { assert (G := g_nested _ Hu). destruct (lz_values lz_nested (snd (snd p))) as [l|]; [|exact I].
      apply (t_map_res _ (reads_ci P)); [|exact G]. intros c Hc. apply t_sub; assumption. }
    intros nested _. destruct (_ && _); [own|]. eapply (tame_bind (fun _ => True)); [|intros; exact I].
    assert (G := g_token _ Hu). destruct (lz_values lz_token (snd (snd p))) as [[|c [|]]|]; try own; [|exact I].
    destruct G as (G & _). eapply tame_bind; [apply t_sub; [exact t_rsd|exact G]|]. intros; exact I.
  Qed.

  Lemma t_asd d pe : forall r, reads_sd P r -> tame (fun _ => True) (lz_asd d pe r).
  Proof.
    induction d as [|d IH]; intros r H; [own|]. cbn [lz_asd].
    eapply tame_bind; [apply t_data; exact H|]. intros p Hp.
    eapply tame_bind; [apply tame_reads; apply t_signers; exact H|]. intros l Hl.
    eapply tame_bind; [apply (t_map_res _ (reads_si P)); [|exact Hl]; intros s Hs; apply t_asi; assumption|].
    intros sis _. eapply tame_bind; [apply t_spc; exact Hp|]. intros spc _.
    destruct sis as [|s [|]]; try own.
    assert (C: reads_any P (lz_crls r)) by (destruct r; cbn in *; tauto).
    nx. intros [|n] _; [exact I|own].
  Qed.

  Lemma t_envelope load d pe b e : reads P (reads_ci P) (load b) -> lz_from_envelope load d pe b = Err e -> known e.
  Proof.
    intros H E. assert (T: tame (fun _ => True) (lz_from_envelope load d pe b)).
    { unfold lz_from_envelope. nx. intros [t x] (H1 & H2). nx. intros ty _.
      eapply (tame_bind (fun _ => True)); [destruct (String.eqb ty "signed_data"); [exact I|own]|]. intros _ _.
      nx. intros co Hco. destruct co as [s|[|]]; cbn [lz_content_info rbind]; [|own|own]. apply t_asd. exact Hco. }
    rewrite E in T. exact T.
  Qed.
End Errors.
