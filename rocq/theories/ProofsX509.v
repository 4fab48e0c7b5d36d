(** Proofs about names, certificate equality, digest algorithms and accuracies. *)
From Verif Require Import Base Bytes ModelX509 SpecX509.
From Coq Require Import ZifyBool ZifyNat.

(** ** Equality *)

Lemma ustr_eqb_eq a b : ustr_eqb a b = true <-> a = b.
Proof. unfold ustr_eqb; destruct (list_eq_dec N.eq_dec a b); split; congruence. Qed.

Lemma nval_eqb_eq a b : nval_eqb a b = true <-> a = b.
Proof.
  destruct a, b; cbn [nval_eqb]; rewrite ?ustr_eqb_eq, ?bytes_eqb_eq; split; congruence.
Qed.

Lemma comp_eqb_eq a b : comp_eqb a b = true <-> a = b.
Proof.
  destruct a as [s v], b as [t w]; unfold comp_eqb; cbn [fst snd].
  rewrite andb_true_iff, nval_eqb_eq, String.eqb_eq. split; [intros [-> ->]; reflexivity|].
  intros H; injection H as -> ->; auto.
Qed.

Lemma list_eqb_eq {A} (eqb : A -> A -> bool) :
  (forall a b, eqb a b = true <-> a = b) ->
  forall l m, list_eqb eqb l m = true <-> l = m.
Proof.
  intros H l; induction l as [|a l IH]; intros [|b m]; cbn; try (split; congruence).
  rewrite andb_true_iff, H, IH. split; [intros [-> ->]; reflexivity|].
  intros E; injection E as -> ->; auto.
Qed.

Lemma name_eqb_rdns a b : name_eqb a b = true <-> rdns a = rdns b.
Proof. apply list_eqb_eq, comp_eqb_eq. Qed.

Lemma name_eqb_refl a : name_eqb a a = true.
Proof. now apply name_eqb_rdns. Qed.

Lemma pkparams_eqb_eq a b : pkparams_eqb a b = true <-> a = b.
Proof. destruct a, b; cbn [pkparams_eqb]; rewrite ?String.eqb_eq; split; congruence. Qed.

Lemma cert_eqb_identity a b : cert_eqb a b = true <-> same_identity a b.
Proof.
  unfold cert_eqb, same_identity.
  rewrite !andb_true_iff, !name_eqb_rdns, Z.eqb_eq, String.eqb_eq, pkparams_eqb_eq, bytes_eqb_eq.
  destruct (c_key a) as [a1 a2 a3], (c_key b) as [b1 b2 b3]; cbn [k_alg k_params k_bits].
  split; [intros [[[[? ?] ?] [-> ->]] ->]; auto|].
  intros (? & ? & ? & E). injection E as -> -> ->. auto 10.
Qed.

Lemma cert_eqb_refl a : cert_eqb a a = true.
Proof. apply cert_eqb_identity; repeat split. Qed.

Lemma cert_eqb_sym a b : cert_eqb a b = cert_eqb b a.
Proof.
  apply eq_true_iff_eq. rewrite !cert_eqb_identity. unfold same_identity. intuition congruence.
Qed.

Lemma cert_eqb_trans a b c : cert_eqb a b = true -> cert_eqb b c = true -> cert_eqb a c = true.
Proof. rewrite !cert_eqb_identity. unfold same_identity. intuition congruence. Qed.

Lemma cert_hash_compat h a b : cert_eqb a b = true -> cert_hash h a = cert_hash h b.
Proof.
  rewrite cert_eqb_identity. intros (Hi & Hn & Hs & Hk).
  unfold cert_hash, name_hash. now rewrite Hi, Hs, Hn, Hk.
Qed.

Lemma name_hash_compat h a b : name_eqb a b = true -> name_hash h a = name_hash h b.
Proof. rewrite name_eqb_rdns. unfold name_hash. now intros ->. Qed.

(** ** Names *)

Lemma ustr_of_inj s t : ustr_of s = ustr_of t -> s = t.
Proof.
  unfold ustr_of. intros H.
  rewrite <- (string_of_list_ascii_of_string s), <- (string_of_list_ascii_of_string t).
  f_equal. revert H. generalize (list_ascii_of_string s) as l, (list_ascii_of_string t) as m.
  induction l as [|a l IH]; intros [|b m] H; try discriminate H; [reflexivity|].
  cbn [map] in H. injection H as H1 H2. f_equal; [|now apply IH].
  rewrite <- (ascii_N_embedding a), <- (ascii_N_embedding b). now rewrite H1.
Qed.

(** The labels are not dotted-decimal. *)
Definition label_ok (s : string) : Prop :=
  Forall (fun c => let n := N_of_ascii c in n <> 92%N /\ n <> 44%N /\ n <> 61%N /\ n <> 32%N)
         (list_ascii_of_string s).

Lemma dotted_label_ok s : dotted s -> label_ok s.
Proof.
  intros H; eapply Forall_impl; [|exact H]. intros c. unfold dotted_char. cbn beta zeta. lia.
Qed.

Lemma rdn_type_cases oid :
  rdn_type oid = oid \/ (exists l, In (oid, l) oid_to_rdn /\ rdn_type oid = l).
Proof.
  unfold rdn_type. destruct (dict_get oid oid_to_rdn) as [l|] eqn:E; [right|now left].
  exists l. split; [|reflexivity]. revert E. unfold oid_to_rdn. cbn [dict_get].
  repeat match goal with
  | |- context[String.eqb ?a ?b] => destruct (String.eqb_spec a b) as [->|]
  end; intros H; try discriminate H; injection H as <-; cbn; auto 12.
Qed.

Definition label_alpha (s : string) : Prop :=
  exists c l, list_ascii_of_string s = c :: l /\ dotted_char c = false.

Lemma oid_to_rdn_ok : Forall (fun p => label_ok (snd p) /\ label_alpha (snd p)) oid_to_rdn.
Proof.
  unfold oid_to_rdn. repeat constructor; cbn [snd];
    try (vm_compute; intros H; discriminate H);
    (eexists _, _; split; [reflexivity|reflexivity]).
Qed.

Lemma rdn_type_label oid : dotted oid -> label_ok (rdn_type oid).
Proof.
  intros H. destruct (rdn_type_cases oid) as [->|(l & Hin & ->)]; [now apply dotted_label_ok|].
  pose proof oid_to_rdn_ok as F. rewrite Forall_forall in F. apply (F _ Hin).
Qed.

Lemma dotted_not_alpha s : dotted s -> label_alpha s -> False.
Proof.
  intros H (c & l & E & F). unfold dotted in H. rewrite E in H. inversion H; congruence.
Qed.

Lemma oid_to_rdn_inj a b l : In (a, l) oid_to_rdn -> In (b, l) oid_to_rdn -> a = b.
Proof.
  unfold oid_to_rdn. cbn [In]. intros H1 H2.
  repeat match goal with
  | H : _ \/ _ |- _ => destruct H as [H|H]
  | H : False |- _ => destruct H
  end; congruence.
Qed.

Lemma rdn_type_inj a b : dotted a -> dotted b -> rdn_type a = rdn_type b -> a = b.
Proof.
  intros Ha Hb H. pose proof oid_to_rdn_ok as F. rewrite Forall_forall in F.
  destruct (rdn_type_cases a) as [Ea|(la & Ia & Ea)], (rdn_type_cases b) as [Eb|(lb & Ib & Eb)];
    rewrite Ea, Eb in H.
  - exact H.
  - exfalso. apply (dotted_not_alpha a); [exact Ha|]. rewrite H. apply (F _ Ib).
  - exfalso. apply (dotted_not_alpha b); [exact Hb|]. rewrite <- H. apply (F _ Ia).
  - rewrite H in Ia. exact (oid_to_rdn_inj _ _ _ Ia Ib).
Qed.

Lemma wf_name_first n : wf_name n -> Forall (fun r => dotted (a_oid (r_first r))) n.
Proof.
  unfold wf_name, all_avas. rewrite Forall_map. intros H.
  eapply Forall_impl; [|exact H]. intros r Hr. cbn beta in Hr. now inversion Hr.
Qed.

Lemma rdns_first a b :
  wf_name a -> wf_name b -> (rdns a = rdns b <-> map r_first a = map r_first b).
Proof.
  intros Ha Hb. unfold rdns, get_components. split.
  - intros H. apply (f_equal (@rev _)) in H. rewrite <- !map_rev, !rev_involutive in H.
    apply wf_name_first in Ha, Hb. revert b Hb H.
    induction a as [|x a IH]; intros [|y b] Hb H; try discriminate H; [reflexivity|].
    inversion Ha; inversion Hb; subst. cbn [map] in *. injection H as T1 T2 T3.
    f_equal; [|apply IH; auto].
    apply rdn_type_inj in T1; [|assumption|assumption].
    destruct (r_first x), (r_first y); cbn in *; congruence.
  - intros H.
    assert (G : forall n, map (fun r => (rdn_type (a_oid (r_first r)), a_val (r_first r))) (rev n)
              = map (fun v => (rdn_type (a_oid v), a_val v)) (rev (map r_first n))).
    { intros n. now rewrite <- map_rev, map_map. }
    now rewrite !G, H.
Qed.

Lemma name_eqb_partial a b :
  wf_name a -> wf_name b -> (name_eqb a b = true <-> map r_first a = map r_first b).
Proof. intros Ha Hb. rewrite name_eqb_rdns. now apply rdns_first. Qed.

Lemma name_eqb_single a b :
  wf_name a -> wf_name b -> single_valued a -> single_valued b ->
  (name_eqb a b = true <-> all_avas a = all_avas b).
Proof.
  intros Ha Hb Sa Sb. rewrite name_eqb_partial by assumption.
  assert (G : forall n, single_valued n -> all_avas n = map (fun v => [v]) (map r_first n)).
  { intros n Hn. unfold all_avas. rewrite map_map. apply map_ext_in. intros r Hr.
    unfold single_valued in Hn. rewrite Forall_forall in Hn. now rewrite (Hn r Hr). }
  rewrite (G a Sa), (G b Sb). split; [now intros ->|].
  generalize (map r_first a) as l, (map r_first b) as m.
  induction l as [|x l IH]; intros [|y m] H; try discriminate H; [reflexivity|].
  cbn in H. injection H as -> H. f_equal. now apply IH.
Qed.

(** ** dn *)

Definition unlex (l : list (bool * N)) : ustr :=
  flat_map (fun t : bool * N => if fst t then [92%N; snd t] else [snd t]) l.

Definition tok_ok (t : bool * N) : Prop := fst t = true \/ snd t <> 92%N.

Lemma lex_unlex l : Forall tok_ok l -> lex (unlex l) = l.
Proof.
  induction 1 as [|[b c] l Ht Hl IH]; [reflexivity|].
  destruct b; cbn [unlex flat_map fst snd app].
  - cbn [lex]. rewrite N.eqb_refl. f_equal. exact IH.
  - destruct Ht as [Ht|Ht]; [discriminate Ht|]. cbn [snd] in Ht. cbn [lex].
    destruct (N.eqb_spec c 92); [contradiction|]. f_equal. exact IH.
Qed.

Lemma unlex_app l m : unlex (l ++ m) = unlex l ++ unlex m.
Proof. apply flat_map_app. Qed.

Definition mid_tok (c : N) : bool * N := (existsb (N.eqb c) dn_special, c).
Definition esc_first (l : list (bool * N)) : list (bool * N) :=
  match l with
  | t :: l' => if N.eqb (snd t) 35 then (true, 35%N) :: l' else l
  | [] => []
  end.
Definition esc_last (l : list (bool * N)) : list (bool * N) :=
  match rev l with
  | t :: r => if N.eqb (snd t) 32 then rev r ++ [(true, 32%N)] else l
  | [] => []
  end.
Definition vtoks (v : ustr) : list (bool * N) := esc_last (esc_first (map mid_tok v)).

Lemma unlex_mid v : unlex (map mid_tok v) = dn_escape v.
Proof.
  unfold unlex, dn_escape. rewrite flat_map_concat_map, map_map, <- flat_map_concat_map.
  reflexivity.
Qed.

Lemma map_snd_mid v : map snd (map mid_tok v) = v.
Proof. rewrite map_map. cbn [mid_tok snd]. apply map_id. Qed.

Lemma map_snd_esc_first l : map snd (esc_first l) = map snd l.
Proof.
  destruct l as [|[b c] l]; [reflexivity|]. cbn [esc_first snd].
  destruct (N.eqb_spec c 35) as [->|]; reflexivity.
Qed.

Lemma map_snd_esc_last l : map snd (esc_last l) = map snd l.
Proof.
  unfold esc_last. destruct (rev l) as [|[b c] r] eqn:E.
  - apply (f_equal (@rev _)) in E. rewrite rev_involutive in E. now subst.
  - cbn [snd]. destruct (N.eqb_spec c 32) as [->|]; [|reflexivity].
    apply (f_equal (@rev _)) in E. rewrite rev_involutive in E. cbn [rev] in E. subst l.
    now rewrite !map_app.
Qed.

Lemma vtoks_value v : map snd (vtoks v) = v.
Proof. unfold vtoks. now rewrite map_snd_esc_last, map_snd_esc_first, map_snd_mid. Qed.

(** Tokens of a value: no unquoted backslash or comma. *)
Definition vtok_ok (t : bool * N) : Prop := fst t = true \/ (snd t <> 92%N /\ snd t <> 44%N).

Lemma mid_ok v : Forall vtok_ok (map mid_tok v).
Proof.
  apply Forall_map, Forall_forall. intros c _. unfold vtok_ok, mid_tok, dn_special.
  cbn [fst snd existsb].
  destruct (N.eqb_spec c 92); [left; now subst|]. destruct (N.eqb_spec c 44); [left; now subst|].
  now right.
Qed.

Lemma esc_first_ok l : Forall vtok_ok l -> Forall vtok_ok (esc_first l).
Proof.
  intros H. destruct H as [|t l Ht Hl]; cbn [esc_first]; [constructor|].
  destruct (N.eqb (snd t) 35); constructor; auto. now left.
Qed.

Lemma esc_last_ok l : Forall vtok_ok l -> Forall vtok_ok (esc_last l).
Proof.
  intros H. unfold esc_last. pose proof (Forall_rev H) as R. destruct (rev l) as [|t r].
  - constructor.
  - destruct (N.eqb (snd t) 32); [|assumption]. inversion R; subst.
    apply Forall_app; split; [now apply Forall_rev|]. repeat constructor.
Qed.

Lemma vtoks_ok v : Forall vtok_ok (vtoks v).
Proof. apply esc_last_ok, esc_first_ok, mid_ok. Qed.

(** The last token of a sequence that ends in an unquoted space. *)
Lemma unlex_rev_last l :
  Forall (fun t => snd t = 32%N -> fst t = false) l ->
  match rev (unlex l), rev l with
  | [], [] => True
  | c :: r, t :: r' =>
      c = snd t /\ (snd t = 32%N -> rev r = unlex (rev r'))
  | _, _ => False
  end.
Proof.
  intros H. pose proof (Forall_rev H) as R.
  rewrite <- (rev_involutive l). destruct (rev l) as [|[b c] r]; cbn [rev].
  - exact I.
  - rewrite unlex_app, rev_app_distr, rev_app_distr. cbn [rev app].
    cbn [unlex flat_map fst snd app]. inversion R as [|? ? Hc Hr]; subst. cbn [fst snd] in Hc.
    destruct b; cbn [rev app].
    + split; [reflexivity|]. intros ->. discriminate (Hc eq_refl).
    + split; [reflexivity|]. intros _. now rewrite !rev_involutive.
Qed.

Lemma mid_space v : Forall (fun t => snd t = 32%N -> fst t = false) (map mid_tok v).
Proof.
  apply Forall_map, Forall_forall. intros c _. cbn [mid_tok snd fst]. intros ->. reflexivity.
Qed.

Lemma esc_first_space l :
  Forall (fun t : bool * N => snd t = 32%N -> fst t = false) l ->
  Forall (fun t : bool * N => snd t = 32%N -> fst t = false) (esc_first l).
Proof.
  intros H. destruct H as [|t l Ht Hl]; cbn [esc_first]; [constructor|].
  destruct (N.eqb (snd t) 35); constructor; auto. intros E; discriminate E.
Qed.

Lemma unlex_esc_last l :
  Forall (fun t => snd t = 32%N -> fst t = false) l ->
  unlex (esc_last l) =
  match rev (unlex l) with
  | c :: r => if N.eqb c 32 then rev r ++ [92; 32]%N else unlex l
  | [] => unlex l
  end.
Proof.
  intros H. pose proof (unlex_rev_last l H) as R. unfold esc_last.
  destruct (rev (unlex l)) as [|c r] eqn:E1, (rev l) as [|t r'] eqn:E2; try contradiction.
  - apply (f_equal (@rev _)) in E2. rewrite rev_involutive in E2. now subst.
  - destruct R as [-> R]. destruct (N.eqb_spec (snd t) 32); [|reflexivity].
    rewrite unlex_app. rewrite (R e). reflexivity.
Qed.

Lemma unlex_vtoks v : unlex (vtoks v) = dn_value v.
Proof.
  unfold vtoks, dn_value. rewrite unlex_esc_last by apply esc_first_space, mid_space.
  assert (G : unlex (esc_first (map mid_tok v)) =
              match dn_escape v with
              | c :: _ => if N.eqb c 35 then 92%N :: dn_escape v else dn_escape v
              | [] => dn_escape v
              end).
  { rewrite <- unlex_mid. destruct v as [|c v]; [reflexivity|].
    cbn [map esc_first mid_tok snd]. destruct (N.eqb_spec c 35) as [->|Hc].
    - reflexivity.
    - cbn [unlex flat_map]. change (mid_tok c) with (existsb (N.eqb c) dn_special, c).
      destruct (existsb (N.eqb c) dn_special); cbn [fst snd app]; [reflexivity|].
      destruct (N.eqb_spec c 35); [contradiction|reflexivity]. }
  rewrite G. reflexivity.
Qed.

Definition ctoks (t : string) (v : ustr) : list (bool * N) :=
  map (fun c => (false, c)) (ustr_of t) ++ [(false, 61%N)] ++ vtoks v.

Lemma unlex_plain u : unlex (map (fun c => (false, c)) u) = u.
Proof. induction u as [|c u IH]; [reflexivity|]. cbn. f_equal. exact IH. Qed.

Lemma unlex_ctoks t v : unlex (ctoks t v) = ustr_of t ++ [61%N] ++ dn_value v.
Proof. unfold ctoks. now rewrite !unlex_app, unlex_plain, unlex_vtoks. Qed.

Definition sep_toks : list (bool * N) := [(false, 44%N); (false, 32%N)].

Fixpoint jtoks (l : list (string * ustr)) : list (bool * N) :=
  match l with
  | [] => []
  | [(t, v)] => ctoks t v
  | (t, v) :: l' => ctoks t v ++ sep_toks ++ jtoks l'
  end.

Lemma unlex_jtoks l :
  unlex (jtoks l) =
  ujoin [44; 32]%N (map (fun tv => ustr_of (fst tv) ++ [61%N] ++ dn_value (snd tv)) l).
Proof.
  induction l as [|[t v] l IH]; [reflexivity|]. destruct l as [|p l].
  - cbn [jtoks map ujoin fst snd]. apply unlex_ctoks.
  - change (jtoks ((t, v) :: p :: l)) with (ctoks t v ++ sep_toks ++ jtoks (p :: l)).
    rewrite !unlex_app, unlex_ctoks, IH. reflexivity.
Qed.

Lemma ctoks_ok t v : label_ok t -> Forall vtok_ok (ctoks t v).
Proof.
  intros H. unfold ctoks. apply Forall_app; split; [|apply Forall_app; split].
  - apply Forall_map. unfold ustr_of. apply Forall_map. eapply Forall_impl; [|exact H].
    intros c Hc. cbn beta zeta in Hc. right. cbn [snd]. tauto.
  - constructor; [|constructor]. right. cbn. split; discriminate.
  - apply vtoks_ok.
Qed.

Lemma vtok_tok t : vtok_ok t -> tok_ok t.
Proof. unfold vtok_ok, tok_ok. tauto. Qed.

Lemma jtoks_ok l : Forall (fun tv => label_ok (fst tv)) l -> Forall tok_ok (jtoks l).
Proof.
  induction 1 as [|[t v] l Ht Hl IH]; [constructor|]. destruct l as [|p l].
  - cbn [jtoks]. eapply Forall_impl; [exact vtok_tok|]. now apply ctoks_ok.
  - change (jtoks ((t, v) :: p :: l)) with (ctoks t v ++ sep_toks ++ jtoks (p :: l)).
    apply Forall_app; split.
    + eapply Forall_impl; [exact vtok_tok|]. now apply ctoks_ok.
    + apply Forall_app; split; [|exact IH].
      constructor; [right; discriminate|]. constructor; [right; discriminate|]. constructor.
Qed.

Lemma split_all_none p l : Forall (fun t => p t = false) l -> split_all p l = [l].
Proof.
  induction 1 as [|t l Ht Hl IH]; [reflexivity|]. cbn [split_all]. now rewrite Ht, IH.
Qed.

Lemma split_all_app p l t m :
  Forall (fun t => p t = false) l -> p t = true ->
  split_all p (l ++ t :: m) = l :: split_all p m.
Proof.
  intros Hl Ht. induction Hl as [|x l Hx Hl IH]; cbn [app split_all].
  - now rewrite Ht.
  - now rewrite Hx, IH.
Qed.

Lemma vtok_no_comma l : Forall vtok_ok l -> Forall (fun t => unquoted 44 t = false) l.
Proof.
  intros H; eapply Forall_impl; [|exact H]. intros [b c] [Hb|[_ Hc]]; unfold unquoted; cbn [fst snd] in *.
  - now rewrite Hb.
  - destruct b; [reflexivity|]. cbn. now apply N.eqb_neq.
Qed.

Lemma split_jtoks p l :
  Forall (fun tv => label_ok (fst tv)) (p :: l) ->
  split_all (unquoted 44) (jtoks (p :: l)) =
  ctoks (fst p) (snd p) :: map (fun tv => (false, 32%N) :: ctoks (fst tv) (snd tv)) l.
Proof.
  revert p; induction l as [|q l IH]; intros [t v] H; inversion H as [|? ? Ht Hl]; subst.
  - cbn [jtoks map fst snd]. apply split_all_none, vtok_no_comma, ctoks_ok, Ht.
  - change (jtoks ((t, v) :: q :: l)) with (ctoks t v ++ (false, 44%N) :: (false, 32%N) :: jtoks (q :: l)).
    rewrite split_all_app; [|apply vtok_no_comma, ctoks_ok, Ht|reflexivity].
    cbn [split_all unquoted fst snd negb andb N.eqb Pos.eqb].
    rewrite (IH q Hl). reflexivity.
Qed.

Lemma split_first_label u m :
  Forall (fun c => c <> 61%N) u ->
  split_first (unquoted 61) (map (fun c => (false, c)) u ++ (false, 61%N) :: m) =
  Some (map (fun c => (false, c)) u, m).
Proof.
  induction 1 as [|c u Hc Hu IH]; cbn [map app split_first].
  - reflexivity.
  - unfold unquoted at 1. cbn [fst snd negb andb].
    destruct (N.eqb_spec c 61); [contradiction|]. now rewrite IH.
Qed.

Lemma read_ctoks t v :
  label_ok t -> read_component (ctoks t v) = Some (ustr_of t, v).
Proof.
  intros H. unfold read_component, ctoks. cbn [app]. rewrite split_first_label.
  - rewrite map_map. cbn [snd]. now rewrite map_id, vtoks_value.
  - unfold ustr_of. apply Forall_map. eapply Forall_impl; [|exact H]. cbn beta zeta. tauto.
Qed.

Definition str_comps (l : list (string * nval)) : option (list (string * ustr)) :=
  fold_right (fun tv acc =>
    match snd tv, acc with
    | VStr v, Some l => Some ((fst tv, v) :: l)
    | _, _ => None
    end) (Some []) l.

Lemma str_comps_some l c :
  str_comps l = Some c -> l = map (fun tv => (fst tv, VStr (snd tv))) c.
Proof.
  revert c; induction l as [|[t v] l IH]; cbn; intros c H.
  - injection H as <-. reflexivity.
  - destruct v as [u|b]; [|discriminate H].
    destruct (str_comps l) as [c'|] eqn:E; unfold str_comps in E; rewrite E in H; [|discriminate H].
    injection H as <-. cbn. f_equal. now apply IH.
Qed.

Lemma dn_items_comps l :
  match str_comps l with
  | Some c => dn_items l = Ok (map (fun tv => ustr_of (fst tv) ++ [61%N] ++ dn_value (snd tv)) c)
  | None => exists m, dn_items l = raise TypeError m
  end.
Proof.
  induction l as [|[t v] l IH]; [reflexivity|].
  cbn [str_comps fold_right snd fst]. destruct v as [u|b].
  - fold (str_comps l). destruct (str_comps l) as [c|].
    + cbn [dn_items]. rewrite IH. reflexivity.
    + destruct IH as [m IH]. exists m. cbn [dn_items]. now rewrite IH.
  - cbn [dn_items]. eexists; reflexivity.
Qed.

Lemma get_components_label n :
  wf_name n -> Forall (fun tv => label_ok (fst tv)) (get_components n).
Proof.
  intros H. unfold get_components. apply Forall_map. cbn [fst]. apply Forall_rev.
  eapply Forall_impl; [|apply wf_name_first, H]. intros r. apply rdn_type_label.
Qed.

Lemma ctoks_nonempty t v : exists x l, unlex (ctoks t v) = x :: l.
Proof.
  rewrite unlex_ctoks. destruct (ustr_of t) as [|x l]; cbn [app]; eexists _, _; reflexivity.
Qed.

(** Reading the text back gives the components. *)
Lemma dn_read n s :
  wf_name n -> dn n = Ok s ->
  exists c, rdns n = map (fun tv => (fst tv, VStr (snd tv))) c /\
            read_dn s = map (fun tv => Some (ustr_of (fst tv), snd tv)) c.
Proof.
  intros Hwf. unfold dn. pose proof (dn_items_comps (get_components n)) as D.
  pose proof (get_components_label n Hwf) as L.
  destruct (str_comps (get_components n)) as [c|] eqn:E.
  2: { destruct D as [m ->]. discriminate. }
  rewrite D. cbn [rbind]. intros H; injection H as <-.
  apply str_comps_some in E. exists c. split; [exact E|].
  rewrite <- unlex_jtoks. rewrite E in L. rewrite Forall_map in L. cbn [fst] in L.
  destruct c as [|p c]; [reflexivity|].
  unfold read_dn.
  assert (Hne : exists x l, unlex (jtoks (p :: c)) = x :: l).
  { destruct p as [t v]. destruct c as [|q c].
    - apply ctoks_nonempty.
    - change (jtoks ((t, v) :: q :: c)) with (ctoks t v ++ sep_toks ++ jtoks (q :: c)).
      rewrite unlex_app. destruct (ctoks_nonempty t v) as (x & l & ->).
      cbn [app]. eexists _, _; reflexivity. }
  destruct Hne as (x & l & Hne). rewrite Hne, <- Hne.
  rewrite lex_unlex by (apply jtoks_ok, L). rewrite split_jtoks by exact L.
  cbn [map]. inversion L as [|? ? L1 L2]; subst. rewrite read_ctoks by exact L1. f_equal.
  rewrite !map_map. apply map_ext_in. intros tv Hin.
  cbn [drop_space unquoted fst snd negb andb N.eqb Pos.eqb].
  rewrite read_ctoks; [reflexivity|]. rewrite Forall_forall in L2. now apply L2.
Qed.

Lemma dn_injective a b s :
  wf_name a -> wf_name b -> dn a = Ok s -> dn b = Ok s -> rdns a = rdns b.
Proof.
  intros Ha Hb Da Db.
  destruct (dn_read a s Ha Da) as (ca & Ea & Ra), (dn_read b s Hb Db) as (cb & Eb & Rb).
  rewrite Ea, Eb. f_equal. rewrite Ra in Rb. clear - Rb.
  revert cb Rb; induction ca as [|[t v] ca IH]; intros [|[t' v'] cb] H; try discriminate H;
    [reflexivity|].
  cbn [map fst snd] in H. injection H as H1 H2 H3. f_equal; [|now apply IH].
  apply ustr_of_inj in H1. congruence.
Qed.

Lemma dn_total n :
  (exists s, dn n = Ok s) <->
  Forall (fun r => exists u, a_val (r_first r) = VStr u) n.
Proof.
  unfold dn. pose proof (dn_items_comps (get_components n)) as D.
  assert (G : (exists c, str_comps (get_components n) = Some c) <->
              Forall (fun r => exists u, a_val (r_first r) = VStr u) n).
  { assert (K : forall l, (exists c, str_comps (map (fun r => (rdn_type (a_oid (r_first r)), a_val (r_first r))) l) = Some c)
                  <-> Forall (fun r => exists u, a_val (r_first r) = VStr u) l).
    { induction l as [|r l IH]; cbn [map str_comps fold_right fst snd].
      - split; [constructor|]. intros _; eexists; reflexivity.
      - fold (str_comps (map (fun r => (rdn_type (a_oid (r_first r)), a_val (r_first r))) l)).
        destruct (a_val (r_first r)) as [u|b] eqn:E.
        + split.
          * intros [c Hc].
            destruct (str_comps (map (fun r => (rdn_type (a_oid (r_first r)), a_val (r_first r))) l)) eqn:E2;
              [|discriminate Hc]. constructor; [eauto|]. apply IH. eauto.
          * intros H; inversion H as [|? ? _ Hl]; subst. apply IH in Hl. destruct Hl as [c ->]. eauto.
        + split; [intros [c Hc]; discriminate Hc|].
          intros H; inversion H as [|? ? [u Hu] _]; subst. congruence. }
    unfold get_components. rewrite K. split; intros H.
    - apply Forall_rev in H. now rewrite rev_involutive in H.
    - apply Forall_rev. exact H. }
  rewrite <- G. destruct (str_comps (get_components n)) as [c|].
  - rewrite D. cbn [rbind]. split; intros _; eauto.
  - destruct D as [m ->]. cbn [rbind raise]. split; intros [x Hx]; discriminate Hx.
Qed.

Lemma dn_error n e : dn n = Err e -> e_class e = TypeError.
Proof.
  unfold dn. pose proof (dn_items_comps (get_components n)) as D.
  destruct (str_comps (get_components n)) as [c|].
  - rewrite D. discriminate.
  - destruct D as [m ->]. cbn. intros H; injection H as <-. reflexivity.
Qed.

Lemma cert_str_error c e : cert_str c = Err e -> e_class e = TypeError.
Proof.
  unfold cert_str. destruct (dn (c_subject c)) eqn:E; cbn [rbind]; [discriminate|].
  intros H; injection H as <-. exact (dn_error _ _ E).
Qed.
