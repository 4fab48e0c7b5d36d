(** Proofs about looking up components of names, and the potential chains of a signer. *)
From Verif Require Import Base Bytes Monad ModelFile ModelX509 SpecX509 SpecLookup ProofsX509 ProofsX509b
  ModelContext SpecContext ProofsContext ProofsContext2 ModelPkcs7 ModelAuthenticode SpecAuthenticode ProofsSigner ProofsSigner2.

(** ** Components *)

Lemma short_label_table oid l : short_label oid l <-> In (oid, l) oid_to_rdn.
Proof.
  unfold short_label, oid_to_rdn. cbn [In]. split; intros H;
  repeat (destruct H as [H|H]; [injection H as <- <-; auto 12|]); destruct H.
Qed.

Lemma rdn_type_label_iff oid t : t = rdn_type oid <-> short_label oid t \/ (t = oid /\ forall l, ~ short_label oid l).
Proof.
  unfold rdn_type. destruct (dict_get oid oid_to_rdn) as [l|] eqn:D.
  - assert (I : In (oid, l) oid_to_rdn) by (clear - D; revert D; unfold oid_to_rdn; cbn [dict_get];
      repeat (match goal with |- context [String.eqb ?a ?b] => destruct (String.eqb_spec a b) as [->|] end;
        [intros [= <-]; cbn [In]; auto 12|]); discriminate).
    split.
    + intros ->. left. now apply short_label_table.
    + intros [H|[_ H]].
      * apply short_label_table in H. clear - H I. unfold oid_to_rdn in *. cbn [In] in *.
        repeat match goal with H : _ \/ _ |- _ => destruct H as [H|H] | H : False |- _ => destruct H end; congruence.
      * elim (H l). now apply short_label_table.
  - assert (N : forall l, ~ short_label oid l).
    { intros l H. apply short_label_table in H. clear - H D. unfold oid_to_rdn in *. cbn [In dict_get] in *.
      repeat (destruct H as [H|H]; [injection H as <- <-; vm_compute in D; discriminate D|]). destruct H. }
    split; [intros ->; right; auto|]. intros [H|[-> _]]; [now elim (N t)|reflexivity].
Qed.

Lemma values_of_filter (P : string -> Prop) (p : string -> bool) : (forall o, p o = true <-> P o) -> forall n,
  values_of P n (map (fun r => a_val (r_first r)) (filter (fun r => p (a_oid (r_first r))) (rev n))).
Proof.
  intros Hp n. induction n as [|r n IH] using rev_ind; [constructor|].
  rewrite rev_app_distr. cbn [rev app filter]. destruct (p (a_oid (r_first r))) eqn:D.
  - cbn [map]. constructor; [now apply Hp|exact IH].
  - apply values_skip; [|exact IH]. intros Q. apply Hp in Q. congruence.
Qed.

Lemma values_of_fun P n vs vs' : values_of P n vs -> values_of P n vs' -> vs = vs'.
Proof.
  intros H. revert vs'. induction H as [|n r vs Q H IH|n r vs Q H IH]; intros vs' H'; inversion H' as [E|m r' ws Q' H1 E|m r' ws Q' H1 E].
  1: reflexivity.
  all: try (destruct n; discriminate E); try (destruct m; discriminate E).
  1, 2: symmetry in E || idtac.
  all: apply app_inj_tail in E as [-> ->]; try contradiction.
  - f_equal. now apply IH.
  - now apply IH.
Qed.

Lemma values_of_impl (P Q : string -> Prop) n vs :
  Forall (fun r => P (a_oid (r_first r)) <-> Q (a_oid (r_first r))) n -> values_of P n vs -> values_of Q n vs.
Proof.
  intros F H. induction H as [|n r vs K H IH|n r vs K H IH]; [constructor| |];
    apply Forall_app in F as [F1 F2]; inversion F2 as [|? ? Fr _]; subst; [apply values_take|apply values_skip]; auto; tauto.
Qed.

Theorem c66_exact native t n vs :
  get_components_of native t n = vs <-> values_of (denotes native t) n vs.
Proof.
  set (p := fun o => str_mem t [o; native o; rdn_type o]).
  assert (Hp : forall o, p o = true <-> denotes native t o).
  { intros o. unfold p, denotes. cbn [str_mem existsb]. rewrite !orb_true_iff, !String.eqb_eq.
    rewrite (rdn_type_label_iff o t). intuition congruence. }
  pose proof (values_of_filter _ p Hp n) as V. split.
  - intros <-. exact V.
  - intros H. eapply values_of_fun; [exact V|exact H].
Qed.

Lemma alpha_label oid l : short_label oid l -> ~ dotted l /\ dotted oid.
Proof.
  unfold short_label. cbn [In]. intros H.
  assert (D : forall s, dotted s <-> forallb dotted_char (list_ascii_of_string s) = true).
  { intros s. unfold dotted. rewrite forallb_forall, Forall_forall. tauto. }
  rewrite !D.
  repeat (destruct H as [H|H]; [injection H as <- <-; split; [intros Q; vm_compute in Q; discriminate Q|reflexivity]|]). destruct H.
Qed.

Theorem c66_label native oid label n :
  short_label oid label -> separate_names native -> wf_name n ->
  get_components_of native label n = get_components_of native oid n /\
  values_of (fun o => o = oid) n (get_components_of native oid n).
Proof.
  intros L S W. destruct (alpha_label _ _ L) as [ND Do].
  assert (A : Forall (fun r => denotes native label (a_oid (r_first r)) <-> a_oid (r_first r) = oid) n).
  { eapply Forall_impl; [|apply wf_name_first, W]. intros r Dr. unfold denotes. split.
    - intros [->|[E|H]]; [contradiction| |].
      + now elim (proj1 (S (a_oid (r_first r)) Dr) _ _ L).
      + apply short_label_table in H, L. exact (oid_to_rdn_inj _ _ _ H L).
    - intros ->. auto. }
  assert (B : Forall (fun r => denotes native oid (a_oid (r_first r)) <-> a_oid (r_first r) = oid) n).
  { eapply Forall_impl; [|apply wf_name_first, W]. intros r Dr. unfold denotes. split.
    - intros [->|[E|H]]; [reflexivity| |].
      + rewrite E. symmetry. apply (proj2 (S (a_oid (r_first r)) Dr)). now rewrite <- E.
      + destruct (alpha_label _ _ H) as [N _]. contradiction.
    - intros ->. auto. }
  pose proof (values_of_impl (denotes native label) (fun o => o = oid) n _ A (proj1 (c66_exact native label n _) eq_refl)) as V1.
  pose proof (values_of_impl (denotes native oid) (fun o => o = oid) n _ B (proj1 (c66_exact native oid n _) eq_refl)) as V2.
  split; [|exact V2]. eapply values_of_fun; eassumption.
Qed.

Theorem c66_equal native t m n : wf_name m -> wf_name n -> name_eqb m n = true ->
  get_components_of native t m = get_components_of native t n.
Proof.
  intros Wm Wn H. apply (name_eqb_partial m n Wm Wn) in H.
  assert (G : forall k, get_components_of native t k =
    map a_val (filter (fun a => str_mem t [a_oid a; native (a_oid a); rdn_type (a_oid a)]) (rev (map r_first k)))).
  { intros k. unfold get_components_of. rewrite <- map_rev. induction (rev k) as [|r l IH]; [reflexivity|]. cbn [filter map].
    destruct (str_mem t _); cbn [map]; now rewrite IH. }
  now rewrite !G, H.
Qed.

Theorem c66_complete native n tv : In tv (rdns n) -> In (snd tv) (get_components_of native (fst tv) n).
Proof.
  unfold rdns, get_components, get_components_of. intros H. apply in_map_iff in H as (r & <- & H). cbn [fst snd].
  apply in_map_iff. exists r. split; [reflexivity|]. apply filter_In. split; [exact H|].
  cbn [str_mem existsb]. rewrite String.eqb_refl, !orb_true_r. reflexivity.
Qed.

(** ** The potential chains of a signer *)

Theorem c41_signer E i w x l : context_stores w x l -> Forall ready l ->
  exists cs outs, candidate_list i (concat (map contents l)) cs /\
    signer_potential_chains E i x w = (w, Ok (concat outs)) /\ NoDup (concat outs) /\
    Forall2 (fun c out => forall ch, In ch out <-> path_to l c 10 ch) cs outs.
Proof.
  intros C R. exists (candidates E i l), (map (pchains E l 10) (candidates E i l)).
  split; [apply candidates_list|]. split; [|split].
  - unfold signer_potential_chains, for_certificates, mbind at 1. pose proof C as C'. destruct C as (cx & Hc & Hl). rewrite (get_context_ok _ _ _ Hc).
    rewrite (find_stores_ready E _ _ (fun k acc => acc ++ pchains E l 10 k) w) with (l := l); auto.
    + rewrite fold_flat. cbn [app]. unfold candidates. now rewrite flat_map_concat_map.
    + intros k a. unfold mbind. rewrite (potential_chains_pure E w x l 10 k C' R). reflexivity.
  - rewrite <- flat_map_concat_map. apply NoDup_flat_map.
    + apply all_different_NoDup, fresh_different.
    + intros c _. apply pchains_NoDup.
    + intros a b ch _ _ Ha Hb. destruct (pchains_last _ _ _ _ _ Ha) as (u & ->). destruct (pchains_last _ _ _ _ _ Hb) as (v & Q).
      now apply app_inj_tail in Q.
  - induction (candidates E i l) as [|c cs IH]; constructor; [intros ch; apply pchains_spec|exact IH].
Qed.
