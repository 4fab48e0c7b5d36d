(** Proofs about certificate trust lists. *)
From Verif Require Import Base Bytes Monad ModelFile ModelX509 SpecX509 ProofsX509 ProofsX509b
  ModelContext SpecContext.
From Coq Require Import ZifyBool ZifyNat.

(** ** Hexadecimal *)

Lemma hex_digit_inj a b : 0 <= a < 16 -> 0 <= b < 16 -> hex_digit a = hex_digit b -> a = b.
Proof.
  intros Ha Hb H. unfold hex_digit in H. apply (f_equal nat_of_ascii) in H.
  rewrite !nat_ascii_embedding in H.
  - destruct (a <? 10) eqn:E1, (b <? 10) eqn:E2; lia.
  - destruct (b <? 10) eqn:E2; lia.
  - destruct (a <? 10) eqn:E2; lia.
Qed.

Lemma hex_inj a b : hex a = hex b -> a = b.
Proof.
  revert b; induction a as [|x a IH]; intros [|y b] H; try discriminate H; [reflexivity|].
  cbn [hex] in H. injection H as H1 H2 H3. f_equal; [|now apply IH].
  pose proof (Z_of_byte_range x). pose proof (Z_of_byte_range y).
  apply hex_digit_inj in H1.
  2: { split; [apply Z.div_pos; lia|apply Z.div_lt_upper_bound; lia]. }
  2: { split; [apply Z.div_pos; lia|apply Z.div_lt_upper_bound; lia]. }
  apply hex_digit_inj in H2; try (apply Z.mod_pos_bound; lia).
  apply Z_of_byte_inj. rewrite (Z.div_mod (Z_of_byte x) 16), (Z.div_mod (Z_of_byte y) 16) by lia.
  lia.
Qed.

Lemma hex_norm b : fp_norm (hex b) = hex b.
Proof.
  induction b as [|x b IH]; [reflexivity|]. cbn [hex fp_norm].
  assert (D : forall z, 0 <= z < 16 -> Ascii.eqb (hex_digit z) " " = false /\ lower_char (hex_digit z) = hex_digit z).
  { intros z Hz.
    assert (z = 0 \/ z = 1 \/ z = 2 \/ z = 3 \/ z = 4 \/ z = 5 \/ z = 6 \/ z = 7 \/ z = 8 \/ z = 9 \/
            z = 10 \/ z = 11 \/ z = 12 \/ z = 13 \/ z = 14 \/ z = 15) as C by lia.
    repeat destruct C as [->|C]; try subst z; split; reflexivity. }
  pose proof (Z_of_byte_range x).
  destruct (D (Z_of_byte x / 16)) as [-> ->].
  { split; [apply Z.div_pos; lia|apply Z.div_lt_upper_bound; lia]. }
  destruct (D (Z_of_byte x mod 16)) as [-> ->]; [apply Z.mod_pos_bound; lia|].
  now rewrite IH.
Qed.

Fixpoint hexs (l : list Z) : string := match l with [] => "" | d :: l' => String (hex_digit d) (hexs l') end.
Lemma hexs_digits b : hexs (digits b) = hex b.
Proof. induction b as [|x b IH]; [reflexivity|]. cbn [digits flat_map app hexs hex]. unfold digits in IH. now rewrite IH. Qed.
Lemma digits_range b : Forall (fun d => 0 <= d < 16) (digits b).
Proof.
  induction b as [|x b IH]; [constructor|]. cbn [digits flat_map app]. pose proof (Z_of_byte_range x).
  constructor; [|constructor; [|exact IH]].
  - split; [apply Z.div_pos; lia|apply Z.div_lt_upper_bound; lia].
  - apply Z.mod_pos_bound. lia.
Qed.
Lemma hex_value_lower c d : 0 <= d < 16 -> Ascii.eqb c " " = false -> hex_value c d <-> lower_char c = hex_digit d.
Proof.
  intros Hd _. unfold hex_value.
  assert (K : forall c, forallb (fun d =>
    Bool.eqb (match String.get (Z.to_nat d) "0123456789abcdef" with Some x => Ascii.eqb x c | None => false end
              || match String.get (Z.to_nat d) "0123456789ABCDEF" with Some x => Ascii.eqb x c | None => false end)
             (Ascii.eqb (lower_char c) (hex_digit d))) [0;1;2;3;4;5;6;7;8;9;10;11;12;13;14;15] = true).
  { intros [[] [] [] [] [] [] [] []]; vm_compute; reflexivity. }
  specialize (K c). rewrite forallb_forall in K. specialize (K d).
  assert (In d [0;1;2;3;4;5;6;7;8;9;10;11;12;13;14;15]) as I by (cbn; lia).
  specialize (K I). apply Bool.eqb_prop in K.
  assert (G : forall o, (match o with Some x => Ascii.eqb x c | None => false end = true) <-> o = Some c).
  { intros [x|]; [rewrite Ascii.eqb_eq|]; split; congruence. }
  rewrite <- (G (String.get _ "0123456789abcdef")), <- (G (String.get _ "0123456789ABCDEF")), <- orb_true_iff, K, Ascii.eqb_eq.
  split; [tauto|]. intro. split; [lia|assumption].
Qed.
Lemma spells_norm s : forall l, Forall (fun d => 0 <= d < 16) l -> spells s l <-> hexs l = fp_norm s.
Proof.
  induction s as [|c s IH]; intros l Hl.
  - destruct l; cbn; split; intro H; try discriminate H; try constructor; try reflexivity. inversion H.
  - cbn [fp_norm]. destruct (Ascii.eqb c " ") eqn:Ec.
    + apply Ascii.eqb_eq in Ec. subst c. rewrite <- IH by exact Hl. split; intro H.
      * inversion H as [|? ? H1|? d ? ? [H0 V]]; subst; [exact H1|exfalso].
        assert (0 <= d < 16) by (inversion Hl; assumption).
        assert (In d [0;1;2;3;4;5;6;7;8;9;10;11;12;13;14;15]) as I by (cbn; lia).
        cbn in I. repeat destruct I as [<-|I]; try contradiction; destruct V as [V|V]; discriminate V.
      * now constructor.
    + destruct l as [|d l]; cbn [hexs].
      * split; [intro H; inversion H; subst; discriminate Ec|discriminate].
      * inversion Hl as [|? ? Hd Hl']; subst. split; intro H.
        -- inversion H as [|? ? H1|? ? ? ? V H1]; subst; [discriminate Ec|].
           apply (hex_value_lower _ _ Hd Ec) in V. rewrite V. f_equal. now apply IH.
        -- injection H as Hc Hs. constructor; [now apply hex_value_lower|now apply IH].
Qed.
Lemma spells_hex s b : spells s (digits b) <-> hex b = fp_norm s.
Proof. rewrite spells_norm by apply digits_range. now rewrite hexs_digits. Qed.

(** ** Entries *)

Lemma any_in_spec l r : any_in l r = true <-> exists u, In u l /\ In u r.
Proof.
  unfold any_in. rewrite existsb_exists. split.
  - intros (u & Hu & Hm). apply str_mem_in in Hm. eauto.
  - intros (u & Hl & Hr). exists u. split; [assumption|]. now apply str_mem_in.
Qed.

(** The shape of both time checks. *)
Definition ban_check (from : option Z) (us : option (list string)) (t : datetime) (r : list string)
  : res bool :=
  match from with
  | Some f => let? late := not_earlier t f in
              Ok (late && match us with Some l => any_in l r | None => true end)
  | None => Ok (match us with Some l => any_in l r | None => false end)
  end.

Lemma ban_check_spec from us t r :
  (comparable from t /\ exists b, ban_check from us t r = Ok b /\ (b = true <-> ban_applies from us t r)) \/
  (~ comparable from t /\ exists f u, from = Some f /\ t = Naive u).
Proof.
  unfold ban_check, ban_applies, comparable. destruct from as [f|].
  - destruct t as [z|z]; cbn [not_earlier rbind].
    + left. split; [right; now exists z|]. eexists. split; [reflexivity|].
      rewrite andb_true_iff, Z.leb_le. split.
      * intros [H1 H2]. split; [left; discriminate|]. split; [intros ? [= <-]; eauto|].
        intros l ->. now apply any_in_spec.
      * intros (_ & H1 & H2). destruct (H1 f eq_refl) as (u & [= <-] & L). split; [exact L|].
        destruct us as [l|]; [|reflexivity]. apply any_in_spec. now apply H2.
    + right. split; [|eauto]. intros [H|(u & H)]; discriminate H.
  - left. split; [now left|]. eexists. split; [reflexivity|]. destruct us as [l|].
    + rewrite any_in_spec. split.
      * intros H. split; [right; discriminate|]. split; [discriminate|]. intros ? [= <-]. exact H.
      * intros (_ & _ & H2). now apply H2.
    + split; [discriminate|]. intros [[H|H] _]; contradiction.
Qed.

Lemma usage_check_spec us r :
  existsb (fun x => negb (str_mem x us)) r = false <-> incl r us.
Proof.
  split.
  - intros H x Hx. destruct (str_mem x us) eqn:E; [now apply str_mem_in|].
    assert (existsb (fun x => negb (str_mem x us)) r = true); [|congruence].
    apply existsb_exists. exists x. now rewrite E.
  - intros H. destruct (existsb (fun x => negb (str_mem x us)) r) eqn:E; [|reflexivity].
    apply existsb_exists in E. destruct E as (x & Hx & Hn). apply H in Hx. apply str_mem_in in Hx.
    rewrite Hx in Hn. discriminate Hn.
Qed.

Definition ctl_class (e : exn) : Prop := e_class e = CTLCertificateVerificationError.

Definition type_class (e : exn) : Prop := e_class e = TypeError.

Lemma subject_verify_trust_cases s pre ee t r :
  (subject_verify_trust s (pre ++ [ee]) t r = Ok true /\ entry_accepts s (c_valid_from ee) t r) \/
  (exists e, subject_verify_trust s (pre ++ [ee]) t r = Err e /\
             ~ entry_accepts s (c_valid_from ee) t r /\
             ((ctl_class e /\ entry_decides s (c_valid_from ee) t r) \/
              (type_class e /\ ~ entry_decides s (c_valid_from ee) t r))).
Proof.
  unfold subject_verify_trust. rewrite rev_app_distr. cbn [rev app].
  assert (U : (match ts_ekus s with
      | Some (u :: us) => if existsb (fun x => negb (str_mem x (u :: us))) r
          then raise CTLCertificateVerificationError "lists its extended key usages" else Ok tt
      | _ => Ok tt end = Ok tt /\ covers_usages s r) \/
     (exists e, (match ts_ekus s with
      | Some (u :: us) => if existsb (fun x => negb (str_mem x (u :: us))) r
          then raise CTLCertificateVerificationError "lists its extended key usages" else Ok tt
      | _ => Ok tt end = Err e) /\ ctl_class e /\ ~ covers_usages s r)).
  { unfold covers_usages. destruct (ts_ekus s) as [[|u us]|] eqn:Es.
    - left. split; [reflexivity|]. intros us [= <-] N. contradiction.
    - destruct (existsb _ r) eqn:Ex.
      + right. eexists. split; [reflexivity|]. split; [reflexivity|]. intros H.
        specialize (H (u :: us) eq_refl ltac:(discriminate)). apply usage_check_spec in H. congruence.
      + left. split; [reflexivity|]. intros us' [= <-] _. now apply usage_check_spec.
    - left. split; [reflexivity|]. discriminate. }
  destruct U as [[-> U]|(e & -> & He & U)]; cbn [rbind].
  2: { right. exists e. split; [reflexivity|]. split; [intros (H & _); contradiction|].
       left. split; [exact He|]. intros H. contradiction. }
  match goal with |- context[rbind ?X _] => set (NB := X) end.
  pose proof (ban_check_spec (ts_not_before_filetime s) (ts_not_before_ekus s) (c_valid_from ee) r) as N.
  destruct N as [(Cn & b & Eb & Bn)|(Cn & f & u & Ef & Eu)].
  2: { assert (exists m, NB = raise TypeError m) as [m ->].
       { subst NB. rewrite Ef, Eu. eexists. reflexivity. }
       right. eexists. split; [reflexivity|]. split; [intros (_ & H & _); contradiction|].
       right. split; [reflexivity|]. intros H. apply Cn. now apply H. }
  assert (N : NB = Ok tt /\ b = false \/ exists e, NB = Err e /\ ctl_class e /\ b = true).
  { subst NB. unfold ban_check in Eb. destruct (ts_not_before_filetime s) as [f|].
    - destruct (not_earlier (c_valid_from ee) f) as [late|]; cbn [rbind] in *; [|discriminate Eb].
      injection Eb as <-. destruct late, (ts_not_before_ekus s) as [l|]; cbn [andb]; try destruct (any_in l r);
        first [left; split; reflexivity|right; eexists; split; [reflexivity|]; split; reflexivity].
    - injection Eb as <-. destruct (ts_not_before_ekus s) as [l|]; try destruct (any_in l r);
        first [left; split; reflexivity|right; eexists; split; [reflexivity|]; split; reflexivity]. }
  destruct N as [[-> ->]|(e & -> & He & ->)]; cbn [rbind].
  2: { right. exists e. split; [reflexivity|].
       assert (B : ban_applies (ts_not_before_filetime s) (ts_not_before_ekus s) (c_valid_from ee) r) by now apply Bn.
       split; [intros (_ & _ & H & _); contradiction|]. left. split; [exact He|]. intros _. split; [exact Cn|contradiction]. }
  assert (NBan : ~ ban_applies (ts_not_before_filetime s) (ts_not_before_ekus s) (c_valid_from ee) r)
    by (intros H; apply Bn in H; discriminate H).
  clear Eb Bn.
  match goal with |- context[rbind ?X _] => set (DI := X) end.
  pose proof (ban_check_spec (ts_disallowed_filetime s) (ts_disallowed_ekus s) t r) as D.
  destruct D as [(Cd & b & Eb & Bd)|(Cd & f & u & Ef & Eu)].
  2: { assert (exists m, DI = raise TypeError m) as [m ->].
       { subst DI. rewrite Ef, Eu. eexists. reflexivity. }
       right. eexists. split; [reflexivity|]. split; [intros (_ & _ & _ & H & _); contradiction|].
       right. split; [reflexivity|]. intros H. apply Cd. apply H; assumption. }
  assert (D : DI = Ok tt /\ b = false \/ exists e, DI = Err e /\ ctl_class e /\ b = true).
  { subst DI. unfold ban_check in Eb. destruct (ts_disallowed_filetime s) as [f|].
    - destruct (not_earlier t f) as [late|]; cbn [rbind] in *; [|discriminate Eb].
      injection Eb as <-. destruct late, (ts_disallowed_ekus s) as [l|]; cbn [andb]; try destruct (any_in l r);
        first [left; split; reflexivity|right; eexists; split; [reflexivity|]; split; reflexivity].
    - injection Eb as <-. destruct (ts_disallowed_ekus s) as [l|]; try destruct (any_in l r);
        first [left; split; reflexivity|right; eexists; split; [reflexivity|]; split; reflexivity]. }
  destruct D as [[-> ->]|(e & -> & He & ->)]; cbn [rbind].
  - left. split; [reflexivity|]. split; [exact U|]. split; [exact Cn|]. split; [exact NBan|].
    split; [exact Cd|]. intros H. apply Bd in H. discriminate H.
  - right. exists e. split; [reflexivity|].
    split; [intros (_ & _ & _ & _ & H); apply H; now apply Bd|]. left. split; [exact He|].
    intros _. split; [exact Cn|intros _; exact Cd].
Qed.

Lemma subject_verify_trust_ok s pre ee t r :
  subject_verify_trust s (pre ++ [ee]) t r = Ok true <-> entry_accepts s (c_valid_from ee) t r.
Proof.
  destruct (subject_verify_trust_cases s pre ee t r) as [[-> H]|(e & -> & H & _)].
  - now split.
  - split; [discriminate|contradiction].
Qed.

Lemma accepts_decides s i t r : entry_accepts s i t r -> entry_decides s i t r.
Proof. intros (_ & A & _ & B & _) _. auto. Qed.
Lemma aware_decides s i t r : aware i -> aware t -> entry_decides s i t r.
Proof. intros A B _. split; [now right|]. intros _. now right. Qed.

Lemma ban_applies_mono from us t t' r r' :
  not_later t' t -> incl r' r -> ban_applies from us t' r' -> ban_applies from us t r.
Proof.
  intros Ht Hr (A & B & C). split; [assumption|]. split.
  - intros f Hf. destruct (B f Hf) as (u & E & L). subst t'. destruct Ht as [<-|(x & y & [= <-] & -> & Ht)]; [eauto|].
    exists y. split; [reflexivity|lia].
  - intros l Hl. destruct (C l Hl) as (u & Hu & Hv). eauto.
Qed.
Lemma comparable_mono from t t' : not_later t' t -> comparable from t -> comparable from t'.
Proof. intros [->|(x & y & -> & _)]; [auto|]. intros _. right. now exists x. Qed.

Lemma entry_accepts_mono s i i' t t' r r' :
  not_later i' i -> not_later t' t -> incl r' r -> entry_accepts s i t r -> entry_accepts s i' t' r'.
Proof.
  intros Hi Ht Hr (A & A1 & B & B1 & C). split; [|split; [|split; [|split]]].
  - intros us Hus Hne. eapply incl_tran; [exact Hr|]. now apply A.
  - eapply comparable_mono; eassumption.
  - intros H. apply B. eapply ban_applies_mono; eassumption.
  - eapply comparable_mono; eassumption.
  - intros H. apply C. eapply ban_applies_mono; eassumption.
Qed.

(** ** Lookup *)

Lemma parse_subject_identifier r s : parse_subject r = Ok s -> ts_identifier s = rs_identifier r.
Proof.
  unfold parse_subject.
  assert (G : forall l s0 s, subject_attrs s0 l = Ok s -> ts_identifier s = ts_identifier s0).
  { induction l as [|a l IH]; intros s0 s1 H; cbn [subject_attrs] in H.
    - injection H as <-. reflexivity.
    - destruct (subject_attr s0 a) as [s'|] eqn:E; cbn [rbind] in H; [|discriminate H].
      rewrite (IH _ _ H). unfold subject_attr in E.
      destruct a; unfold rbind in E;
        repeat match type of E with
        | context[match ?x with _ => _ end] => destruct x; try discriminate E
        end; injection E as <-; reflexivity. }
  intros H. now rewrite (G _ _ _ H).
Qed.

Lemma parse_subjects_get l d d' k :
  parse_subjects d l = Ok d' ->
  dict_get k d' =
  match fold_left (fun acc r => match parse_subject r with
                                | Ok s => if String.eqb k (hex (rs_identifier r)) then Some s else acc
                                | Err _ => acc
                                end) l None with
  | Some s => Some s
  | None => dict_get k d
  end /\ Forall (fun r => exists s, parse_subject r = Ok s) l.
Proof.
  revert d; induction l as [|r l IH]; intros d H; cbn [parse_subjects] in H.
  - injection H as <-. split; [reflexivity|constructor].
  - destruct (parse_subject r) as [s|] eqn:E; cbn [rbind] in H; [|discriminate H].
    destruct (IH _ H) as [G F]. split; [|constructor; eauto].
    rewrite G. cbn [fold_left]. rewrite E, dict_get_set, (parse_subject_identifier _ _ E).
    assert (A : forall l a, fold_left (fun acc r => match parse_subject r with
                                | Ok s => if String.eqb k (hex (rs_identifier r)) then Some s else acc
                                | Err _ => acc end) l a =
              match fold_left (fun acc r => match parse_subject r with
                                | Ok s => if String.eqb k (hex (rs_identifier r)) then Some s else acc
                                | Err _ => acc end) l None with Some s => Some s | None => a end).
    { clear. induction l as [|r l IH]; intros a; cbn [fold_left]; [now destruct a|].
      rewrite IH. rewrite (IH (match parse_subject r with Ok s => if String.eqb k (hex (rs_identifier r)) then Some s else None | Err _ => None end)).
      destruct (fold_left _ l None); [reflexivity|].
      destruct (parse_subject r); [|reflexivity]. destruct (String.eqb _ _); reflexivity. }
    rewrite (A l (if String.eqb k (hex (rs_identifier r)) then Some s else None)).
    destruct (fold_left _ l None); [reflexivity|]. now destruct (String.eqb k (hex (rs_identifier r))).
Qed.

Lemma fold_last k l s :
  Forall (fun r => exists s, parse_subject r = Ok s) l ->
  fold_left (fun acc r => match parse_subject r with
                                | Ok s => if String.eqb k (hex (rs_identifier r)) then Some s else acc
                                | Err _ => acc
                                end) l None = Some s <->
  exists r, is_last (fun r => hex (rs_identifier r) = k) l r /\ parse_subject r = Ok s.
Proof.
  induction l as [|r l IH] using rev_ind; intros F.
  - cbn. split; [discriminate|]. intros (r & (pre & post & E & _) & _). now destruct pre.
  - rewrite fold_left_app. cbn [fold_left]. apply Forall_app in F. destruct F as [F1 F2].
    inversion F2 as [|? ? [s' Es] _]; subst. rewrite Es.
    destruct (String.eqb_spec k (hex (rs_identifier r))) as [Ek|Nk].
    + split.
      * intros H; injection H as <-. exists r. split; [|assumption].
        exists l, []. split; [reflexivity|]. split; [now symmetry|constructor].
      * intros (r' & (pre & post & E & Hp & Hf) & Hs).
        destruct post as [|y post] using rev_ind.
        -- apply app_inj_tail in E. destruct E as [_ <-]. congruence.
        -- rewrite app_comm_cons, app_assoc in E. apply app_inj_tail in E. destruct E as [_ <-].
           apply Forall_app in Hf. destruct Hf as [_ Hf]. inversion Hf as [|? ? Hn ?]. symmetry in Ek. contradiction.
    + rewrite (IH F1). split.
      * intros (r' & (pre & post & E & Hp & Hf) & Hs). exists r'. split; [|assumption].
        exists pre, (post ++ [r]). split; [now rewrite E, <- app_assoc|]. split; [assumption|].
        apply Forall_app. split; [assumption|]. constructor; [|constructor]. congruence.
      * intros (r' & (pre & post & E & Hp & Hf) & Hs). exists r'. split; [|assumption].
        destruct post as [|y post] using rev_ind.
        -- apply app_inj_tail in E. destruct E as [_ <-]. congruence.
        -- rewrite app_comm_cons, app_assoc in E. apply app_inj_tail in E. destruct E as [-> <-].
           exists pre, post. split; [reflexivity|]. split; [assumption|].
           apply Forall_app in Hf. apply Hf.
Qed.

Lemma is_last_hex l b r :
  is_last (fun r => hex (rs_identifier r) = hex b) l r <->
  is_last (fun r => rs_identifier r = b) l r.
Proof.
  unfold is_last. split; intros (pre & post & E & H & F); exists pre, post; (split; [assumption|]).
  - split; [now apply hex_inj|]. eapply Forall_impl; [|exact F]. cbn beta. intros a N Ha. apply N. now rewrite Ha.
  - split; [now rewrite H|]. eapply Forall_impl; [|exact F]. cbn beta. intros a N Ha. apply N. now apply hex_inj.
Qed.

Lemma find_subject_listed E a l t c :
  parse_ctl a l = Ok t -> In (alg_name a) ["sha1"; "sha256"] ->
  forall s, (find_subject E t c = Ok (Some s) <-> listed E (alg_name a) l c s).
Proof.
  unfold parse_ctl. intros H Hin s.
  destruct (get_digest_algorithm a) as [n|] eqn:Ea; cbn [rbind] in H; [|discriminate H].
  apply get_digest_algorithm_ok in Ea. destruct Ea as [<- _].
  destruct (parse_subjects [] l) as [d|] eqn:Ep; cbn [rbind] in H; [|discriminate H].
  injection H as <-. unfold find_subject. cbn [ctl_algorithm ctl_subjects].
  destruct (parse_subjects_get l [] d (hex (list_identifier E (alg_name a) c)) Ep) as [G F].
  assert (K : dict_get (hex (list_identifier E (alg_name a) c)) d = Some s <-> listed E (alg_name a) l c s).
  { rewrite G. unfold listed.
    transitivity (exists r, is_last (fun r => hex (rs_identifier r) = hex (list_identifier E (alg_name a) c)) l r /\ parse_subject r = Ok s).
    - rewrite <- (fold_last (hex (list_identifier E (alg_name a) c)) l s F).
      destruct (fold_left _ l None); [reflexivity|]. cbn. split; discriminate.
    - split; intros (r & Hl & Hs); exists r; (split; [now apply is_last_hex|assumption]). }
  cbn [In] in Hin. destruct Hin as [Hn|[Hn|[]]]; rewrite <- Hn in *.
  - rewrite String.eqb_refl. unfold sha1_fingerprint. fold (list_identifier E "sha1" c).
    rewrite <- K. split; [intros H; injection H as H; exact H|now intros ->].
  - change (String.eqb "sha256" "sha1") with false. cbn iota. rewrite String.eqb_refl.
    unfold sha256_fingerprint. fold (list_identifier E "sha256" c).
    rewrite <- K. split; [intros H; injection H as H; exact H|now intros ->].
Qed.

Lemma find_subject_unlisted E a l t c :
  parse_ctl a l = Ok t -> In (alg_name a) ["sha1"; "sha256"] ->
  (find_subject E t c = Ok None <->
   Forall (fun r => rs_identifier r <> list_identifier E (alg_name a) c) l).
Proof.
  intros Hp Hin. pose proof (find_subject_listed E a l t c Hp Hin) as L.
  assert (O : exists o, find_subject E t c = Ok o).
  { unfold parse_ctl in Hp. destruct (get_digest_algorithm a) as [n|] eqn:Ea; cbn [rbind] in Hp; [|discriminate Hp].
    apply get_digest_algorithm_ok in Ea. destruct Ea as [<- _].
    destruct (parse_subjects [] l) as [d|] eqn:Ep; cbn [rbind] in Hp; [|discriminate Hp].
    injection Hp as <-. unfold find_subject. cbn [ctl_algorithm].
    cbn [In] in Hin. destruct Hin as [Hn|[Hn|[]]]; rewrite <- Hn in *; eexists; reflexivity. }
  destruct O as [[s|] Ho].
  - rewrite Ho. split; [discriminate|]. intros F. exfalso. apply L in Ho.
    destruct Ho as (r & (pre & post & E' & Hr & _) & _). subst l.
    apply Forall_app in F. destruct F as [_ F]. inversion F; subst. contradiction.
  - rewrite Ho. split; [intros _|reflexivity].
    apply Forall_forall. intros r Hr Hid.
    (* some last entry exists *)
    assert (X : forall m, (exists r, In r m /\ rs_identifier r = list_identifier E (alg_name a) c) ->
                exists r, is_last (fun r => rs_identifier r = list_identifier E (alg_name a) c) m r).
    { clear. induction m as [|x m IH]; intros (r & Hin & Hid); [destruct Hin|].
      destruct (existsb (fun r => bytes_eqb (rs_identifier r) (list_identifier E (alg_name a) c)) m) eqn:Ex.
      - apply existsb_exists in Ex. destruct Ex as (y & Hy & He). apply bytes_eqb_eq in He.
        destruct (IH (ex_intro _ y (conj Hy He))) as (z & pre & post & -> & Hz & Hf).
        exists z, (x :: pre), post. auto.
      - destruct Hin as [->|Hin].
        + exists r, [], m. split; [reflexivity|]. split; [assumption|].
          apply Forall_forall. intros y Hy He.
          assert (existsb (fun r => bytes_eqb (rs_identifier r) (list_identifier E (alg_name a) c)) m = true); [|congruence].
          apply existsb_exists. exists y. split; [assumption|]. now apply bytes_eqb_eq.
        + assert (existsb (fun r => bytes_eqb (rs_identifier r) (list_identifier E (alg_name a) c)) m = true); [|congruence].
          apply existsb_exists. exists r. split; [assumption|]. now apply bytes_eqb_eq. }
    destruct (X l (ex_intro _ r (conj Hr Hid))) as (z & Hz).
    unfold parse_ctl in Hp. destruct (get_digest_algorithm a); cbn [rbind] in Hp; [|discriminate Hp].
    destruct (parse_subjects [] l) as [d|] eqn:Ep; cbn [rbind] in Hp; [|discriminate Hp].
    destruct (parse_subjects_get l [] d "" Ep) as [_ F]. rewrite Forall_forall in F.
    assert (In z l) as Hzl. { destruct Hz as (pre & post & -> & _). apply in_app_iff. cbn. auto. }
    destruct (F z Hzl) as [s Hs].
    assert (find_subject E t c = Ok (Some s)) by (apply L; exists z; auto). congruence.
Qed.
