From Verif Require Import Base Bytes Monad ModelFile ModelX509 SpecX509 ProofsX509 ProofsX509b ModelContext SpecContext ProofsCTL ProofsContext ProofsContext2
  ModelPkcs7 ModelCtl SpecCtl.

(** ** Attributes *)

Lemma states_cons {A} (f : ctl_attr -> option (list A)) a l x :
  states f (a :: l) x <-> states f l x \/ (silent f l /\ exists vs, f a = Some (x :: vs)).
Proof.
  split.
  - intros (pre & b & post & vs & E & Fb & P). destruct pre as [|c pre]; cbn [app] in E; injection E as <- ->.
    + right. split; [exact P|eauto].
    + left. exists pre, b, post, vs. auto.
  - intros [(pre & b & post & vs & -> & Fb & P)|(S & vs & F)].
    + exists (a :: pre), b, post, vs. auto.
    + exists [], a, l, vs. auto.
Qed.
Lemma states_silent {A} (f : ctl_attr -> option (list A)) l x : states f l x -> ~ silent f l.
Proof.
  intros (pre & b & post & vs & -> & Fb & P) S. apply Forall_app in S as [_ S]. inversion S. congruence.
Qed.
Lemma states_fun {A} (f : ctl_attr -> option (list A)) l x y : states f l x -> states f l y -> x = y.
Proof.
  induction l as [|a l IH]; intros X Y.
  - destruct X as ([|] & ? & ? & ? & E & _); discriminate E.
  - apply states_cons in X, Y. destruct X as [X|(SX & vs & X)], Y as [Y|(SY & ws & Y)].
    + auto.
    + exfalso. exact (states_silent _ _ _ X SY).
    + exfalso. exact (states_silent _ _ _ Y SX).
    + congruence.
Qed.

Lemma attrs_field {A B} (get : ctl_subject -> B) (f : ctl_attr -> option (list A)) (conv : A -> B -> Prop) :
  (forall s a s', subject_attr s a = Ok s' -> f a = None -> get s' = get s) ->
  (forall s a s' l, subject_attr s a = Ok s' -> f a = Some l -> exists x vs, l = x :: vs /\ conv x (get s')) ->
  forall l s s', subject_attrs s l = Ok s' ->
  (silent f l /\ get s' = get s) \/ (exists x, states f l x /\ conv x (get s')).
Proof.
  intros H1 H2. induction l as [|a l IH]; intros s s' H; cbn [subject_attrs] in H.
  - injection H as <-. left. split; [constructor|reflexivity].
  - destruct (subject_attr s a) as [s1|] eqn:Ea; cbn [rbind] in H; [|discriminate H].
    destruct (IH _ _ H) as [[S G]|(x & S & C)].
    + destruct (f a) as [vs|] eqn:Fa.
      * destruct (H2 _ _ _ _ Ea Fa) as (x & ws & -> & C). right. exists x. split.
        { apply states_cons. right. eauto. }
        now rewrite G.
      * left. split; [constructor; assumption|]. rewrite G. eapply H1; eassumption.
    + right. exists x. split; [apply states_cons; now left|exact C].
Qed.

Ltac attr_cases H :=
  repeat match type of H with
  | rbind ?r _ = Ok _ => let E := fresh "E" in destruct r eqn:E; cbn [rbind] in H; [|discriminate H]
  end.
Lemma first_value_ok {A} (l : list A) x : first_value l = Ok x <-> exists vs, l = x :: vs.
Proof.
  destruct l as [|y l]; cbn [first_value]; split.
  - discriminate.
  - intros (vs & E). discriminate E.
  - intros E. injection E as ->. eauto.
  - intros (vs & E). now injection E as -> _.
Qed.
Lemma natives_first l n x :
  filetime_natives l = Ok n -> first_value n = Ok x -> exists b vs, l = b :: vs /\ filetime_native b = Ok x.
Proof.
  destruct l as [|b l]; cbn [filetime_natives].
  - intros E. injection E as <-. discriminate.
  - destruct (filetime_native b) as [v|] eqn:Eb; cbn [rbind]; [|discriminate].
    destruct (filetime_natives l) as [vs|]; cbn [rbind]; [|discriminate].
    intros E. injection E as <-. cbn [first_value]. intros E. injection E as <-. eauto.
Qed.

Ltac same_field := let H := fresh "H" in let F := fresh "F" in
  intros ? [] ? H F; cbn [subject_attr] in H; cbn in F; try discriminate F; attr_cases H;
  try (injection H as <-; reflexivity);
  match type of H with match ?n with O => _ | S _ => _ end = _ => destruct n; [discriminate H|]; now injection H as <- end.
Ltac set_field := let H := fresh "H" in let F := fresh "F" in
  intros ? [] ? ? H F; cbn in F; try discriminate F; injection F as <-; cbn [subject_attr] in H; attr_cases H;
  injection H as <-; cbn.

Lemma parse_reads r s : parse_subject r = Ok s -> reads r s.
Proof.
  unfold parse_subject, reads. intros H.
  assert (Eq : forall A (f : ctl_attr -> option (list A)) (get : ctl_subject -> option A),
    (forall s a s', subject_attr s a = Ok s' -> f a = None -> get s' = get s) ->
    (forall s a s' l, subject_attr s a = Ok s' -> f a = Some l -> exists x vs, l = x :: vs /\ get s' = Some x) ->
    get (mkSubject (rs_identifier r) None None [] [] [] None None None None None) = None ->
    says f (rs_attributes r) (get s)).
  { intros A f get H1 H2 H3. destruct (attrs_field get f (fun x o => o = Some x) H1 H2 _ _ _ H) as [[S G]|(x & S & G)].
    - rewrite G, H3. exact S.
    - rewrite G. exact S. }
  assert (Ed : forall A (f : ctl_attr -> option (list A)) (get : ctl_subject -> A) d,
    (forall s a s', subject_attr s a = Ok s' -> f a = None -> get s' = get s) ->
    (forall s a s' l, subject_attr s a = Ok s' -> f a = Some l -> exists x vs, l = x :: vs /\ get s' = x) ->
    get (mkSubject (rs_identifier r) None None [] [] [] None None None None None) = d ->
    says_or f (rs_attributes r) d (get s)).
  { intros A f get d H1 H2 H3. destruct (attrs_field get f (fun x o => o = x) H1 H2 _ _ _ H) as [[S G]|(x & S & G)].
    - right. split; [exact S|]. congruence.
    - left. now rewrite G. }
  assert (Et : forall (f : ctl_attr -> option (list bytes)) (get : ctl_subject -> option Z),
    (forall s a s', subject_attr s a = Ok s' -> f a = None -> get s' = get s) ->
    (forall s a s' l, subject_attr s a = Ok s' -> f a = Some l -> exists b vs, l = b :: vs /\ filetime_native b = Ok (get s')) ->
    get (mkSubject (rs_identifier r) None None [] [] [] None None None None None) = None ->
    says_time f (rs_attributes r) (get s)).
  { intros f get H1 H2 H3.
    destruct (attrs_field get f (fun b o => filetime_native b = Ok o) H1 H2 _ _ _ H) as [[S G]|(x & S & G)].
    - left. split; [exact S|]. congruence.
    - right. eauto. }
  assert (Ei : ts_identifier s = rs_identifier r).
  { destruct (attrs_field ts_identifier (fun _ : ctl_attr => @None (list unit)) (fun _ _ => True)) with
      (l := rs_attributes r) (s := mkSubject (rs_identifier r) None None [] [] [] None None None None None) (s' := s)
      as [[_ G]|(x & S & _)]; [same_field|discriminate|exact H|exact G|].
    destruct S as (? & ? & ? & ? & _ & F & _). discriminate F. }
  split; [exact Ei|].
  split; [apply Eq; [same_field|set_field; apply first_value_ok in E as (vs & ->); eauto|reflexivity]|].
  split; [apply Eq; [same_field|set_field; apply first_value_ok in E as (vs & ->); eauto|reflexivity]|].
  split; [apply Ed; [same_field|set_field; apply first_value_ok in E as (vs & ->); eauto|reflexivity]|].
  split; [apply Ed; [same_field|set_field; apply first_value_ok in E as (vs & ->); eauto|reflexivity]|].
  split; [apply Ed; [same_field|set_field; apply first_value_ok in E as (vs & ->); eauto|reflexivity]|].
  split; [apply Et; [same_field|set_field; eapply natives_first; eassumption|reflexivity]|].
  split; [apply Eq; [same_field|set_field; apply first_value_ok in E as (vs & ->); eauto|reflexivity]|].
  split; [apply Eq; [same_field|set_field; apply first_value_ok in E as (vs & ->); eauto|reflexivity]|].
  split; [apply Et; [same_field|set_field; eapply natives_first; eassumption|reflexivity]|].
  apply Eq; [same_field|set_field; apply first_value_ok in E as (vs & ->); eauto|reflexivity].
Qed.

Lemma natives_ok l : (exists n, filetime_natives l = Ok n) <-> Forall timely l.
Proof.
  induction l as [|b l IH]; cbn [filetime_natives].
  - split; [constructor|eauto].
  - split.
    + intros (n & H). destruct (filetime_native b) as [v|] eqn:Eb; cbn [rbind] in H; [|discriminate H].
      destruct (filetime_natives l) as [vs|] eqn:El; cbn [rbind] in H; [|discriminate H].
      constructor; [now exists v|]. apply IH. eauto.
    + intros F. inversion F as [|? ? (v & Eb) Fl]; subst. destruct (proj2 IH Fl) as (vs & El).
      rewrite Eb, El. cbn [rbind]. eauto.
Qed.
Lemma attr_ok s a : (exists s', subject_attr s a = Ok s') <-> well_formed a.
Proof.
  assert (X : forall A B (v : list A) (k : A -> res B), (forall x, exists b, k x = Ok b) ->
              (exists b, (let? x := first_value v in k x) = Ok b) <-> v <> []).
  { intros A B [|x v] k K; cbn [first_value rbind].
    - split; [intros (b & H); discriminate H|intros H; now elim H].
    - split; [discriminate|auto]. }
  assert (T : forall B (v : list bytes) (k : option Z -> res B), (forall x, exists b, k x = Ok b) ->
              (exists b, (let? n := filetime_natives v in let? x := first_value n in k x) = Ok b) <-> v <> [] /\ Forall timely v).
  { intros B v k K. rewrite <- natives_ok. destruct (filetime_natives v) as [n|] eqn:En; cbn [rbind].
    - rewrite (X _ _ n k K). split.
      + intros N. split; [|eauto]. intros ->. cbn in En. injection En as <-. now elim N.
      + intros [N _] ->. destruct v as [|b v]; [now elim N|]. cbn [filetime_natives] in En.
        destruct (filetime_native b); cbn [rbind] in En; [|discriminate En].
        destruct (filetime_natives v); cbn [rbind] in En; discriminate En.
    - split; [intros (b & H); discriminate H|intros (_ & n & H); discriminate H]. }
  destruct a; cbn [subject_attr well_formed]; try (apply X; eauto); try (apply T; eauto).
  destruct count; split; try discriminate; eauto.
  - intros (s' & H). discriminate H.
  - intros H. now elim H.
Qed.
Lemma parse_ok r : (exists s, parse_subject r = Ok s) <-> Forall well_formed (rs_attributes r).
Proof.
  unfold parse_subject.
  generalize (mkSubject (rs_identifier r) None None [] [] [] None None None None None).
  induction (rs_attributes r) as [|a l IH]; intros s; cbn [subject_attrs].
  - split; [constructor|eauto].
  - destruct (subject_attr s a) as [s1|] eqn:Ea; cbn [rbind].
    + rewrite IH. split; [|now inversion 1]. intros F. constructor; [|exact F]. eapply attr_ok. eauto.
    + split; [intros (s' & H); discriminate H|]. intros F. inversion F as [|? ? W]; subst.
      apply (attr_ok s) in W as (s' & W). congruence.
Qed.

Lemma says_fun {A} (f : ctl_attr -> option (list A)) l o o' : says f l o -> says f l o' -> o = o'.
Proof.
  destruct o, o'; cbn [says]; intros X Y; [|exfalso; exact (states_silent _ _ _ X Y)|exfalso; exact (states_silent _ _ _ Y X)|reflexivity].
  f_equal. eapply states_fun; eassumption.
Qed.
Lemma says_or_fun {A} (f : ctl_attr -> option (list A)) l d x y : says_or f l d x -> says_or f l d y -> x = y.
Proof.
  intros [X|[X ->]] [Y|[Y ->]]; [eapply states_fun; eassumption| | |reflexivity];
    exfalso; [exact (states_silent _ _ _ X Y)|exact (states_silent _ _ _ Y X)].
Qed.
Lemma says_time_fun f l o o' : says_time f l o -> says_time f l o' -> o = o'.
Proof.
  intros [[X ->]|(b & X & Eb)] [[Y ->]|(c & Y & Ec)]; [reflexivity| | |].
  - exfalso. exact (states_silent _ _ _ Y X).
  - exfalso. exact (states_silent _ _ _ X Y).
  - rewrite (states_fun _ _ _ _ X Y) in Eb. congruence.
Qed.
Lemma reads_fun r s s' : reads r s -> reads r s' -> s = s'.
Proof.
  intros (A0 & A1 & A2 & A3 & A4 & A5 & A6 & A7 & A8 & A9 & A10) (B0 & B1 & B2 & B3 & B4 & B5 & B6 & B7 & B8 & B9 & B10).
  destruct s, s'; cbn in *. f_equal; eauto using says_fun, says_or_fun, says_time_fun. congruence.
Qed.

Theorem c60_entry r s : parse_subject r = Ok s <-> Forall well_formed (rs_attributes r) /\ reads r s.
Proof.
  split.
  - intros H. split; [apply parse_ok; eauto|now apply parse_reads].
  - intros [W R]. apply parse_ok in W as (s' & H). rewrite H. f_equal. eapply reads_fun; [|exact R]. now apply parse_reads.
Qed.

(** ** Decisions *)

Lemma filetime_empty b : filetime_native b = Ok None -> b = [].
Proof.
  destruct b as [|x b]; [reflexivity|]. unfold filetime_native. destruct (negb _); [discriminate|].
  destruct (timedelta _); cbn [rbind]; [|discriminate]. destruct (_ <? _); discriminate.
Qed.
Lemma ban_banned time usages l from us t req :
  says_time time l from -> says usages l us ->
  ban_applies from us t req <-> banned time usages l t req.
Proof.
  intros T U. unfold ban_applies, banned.
  assert (C : (exists us', us = Some us' /\ exists u, In u us' /\ In u req) <-> concerns usages l req).
  { split.
    - intros (us' & -> & u & A & B). exists us', u. auto.
    - intros (us' & u & S & A & B). exists us'. split; [|eauto]. apply (says_fun usages l); assumption. }
  split.
  - intros (A & B & D). destruct from as [f|].
    + left. destruct T as [[_ T]|(b & S & Eb)]; [discriminate T|]. destruct (B f eq_refl) as (z & Ez & L). exists b, f, z. split; [exact S|]. split; [exact Eb|].
      split; [exact Ez|]. split; [exact L|]. destruct us as [us|]; [right|now left]. apply C. exists us. auto.
    + right. split.
      * destruct T as [[T _]|(b & S & Eb)]; [now left|right]. apply filetime_empty in Eb. now subst b.
      * apply C. destruct us as [us|]; [|exfalso; tauto]. exists us. auto.
  - intros [(b & f & z & S & Eb & Ez & L & D)|(S & D)].
    + assert (from = Some f) as ->.
      { apply (says_time_fun time l); [exact T|]. right. eauto. }
      split; [left; discriminate|]. split; [intros f' E; injection E as <-; eauto|].
      intros us' ->. destruct D as [D|D]; [exfalso; exact (states_silent _ _ _ U D)|].
      apply C in D as (us1 & E & D). injection E as <-. exact D.
    + apply C in D as (us' & -> & D). split; [right; discriminate|]. split.
      * intros f ->. exfalso. destruct T as [[_ T]|(b & Sb & Eb)]; [discriminate T|].
        destruct S as [S|S]; [exact (states_silent _ _ _ Sb S)|]. rewrite (states_fun _ _ _ _ Sb S) in Eb. discriminate Eb.
      * intros us1 E. injection E as <-. exact D.
Qed.
Lemma comparable_not time l from t : says_time time l from -> comparable from t <-> ~ incomparable time l t.
Proof.
  intros T. unfold comparable, incomparable. split.
  - intros [->|(u & ->)] ((b & f & S & Eb) & v & Ev); [|discriminate Ev].
    destruct T as [[T _]|(b' & Sb & Eb')]; [exact (states_silent _ _ _ S T)|].
    rewrite (states_fun _ _ _ _ Sb S) in Eb'. congruence.
  - intros N. destruct t as [u|u]; [right; now exists u|]. left. destruct from as [f|]; [|reflexivity].
    exfalso. apply N. split; [|eauto]. destruct T as [[_ T]|(b & S & Eb)]; [discriminate T|]. eauto.
Qed.
Theorem c60_decision r s pre ee t req :
  parse_subject r = Ok s ->
  subject_verify_trust s (pre ++ [ee]) t req = Ok true <-> allows r (c_valid_from ee) t req.
Proof.
  intros H. rewrite subject_verify_trust_ok. apply parse_reads in H.
  destruct H as (_ & A1 & _ & _ & _ & _ & A6 & _ & A8 & A9 & A10).
  unfold entry_accepts, covers_usages, allows. rewrite (ban_banned _ _ _ _ _ _ _ A6 A8), (ban_banned _ _ _ _ _ _ _ A9 A10).
  rewrite (comparable_not _ _ _ _ A6), (comparable_not _ _ _ _ A9).
  assert ((forall us, ts_ekus s = Some us -> us <> [] -> incl req us) <->
          (forall us, states at_ekus (rs_attributes r) us -> us <> [] -> incl req us)) as ->; [|reflexivity].
  split; intros G us S; apply G.
  - apply (says_fun at_ekus (rs_attributes r)); assumption.
  - rewrite S in A1. exact A1.
Qed.

(** ** Lists *)

Theorem c60_readable a l :
  (exists t, parse_ctl a l = Ok t) <->
  (exists n, get_digest_algorithm a = Ok n) /\ Forall (fun r => Forall well_formed (rs_attributes r)) l.
Proof.
  unfold parse_ctl. destruct (get_digest_algorithm a) as [n|] eqn:Ea; cbn [rbind].
  2:{ split; [intros (t & H); discriminate H|]. intros ((n & H) & _). discriminate H. }
  assert (P : forall d, (exists d', parse_subjects d l = Ok d') <-> Forall (fun r => Forall well_formed (rs_attributes r)) l).
  { induction l as [|r l IH]; intros d; cbn [parse_subjects]; [split; [constructor|eauto]|].
    destruct (parse_subject r) as [s|] eqn:E; cbn [rbind].
    - rewrite IH. split; [|now inversion 1]. intros F. constructor; [|exact F]. apply parse_ok. eauto.
    - split; [intros (d' & H); discriminate H|]. intros F. inversion F as [|? ? W]; subst.
      apply parse_ok in W as (s & W). congruence. }
  rewrite <- (P []). destruct (parse_subjects [] l) as [d|]; cbn [rbind]; split; eauto.
  - intros (t & H). discriminate H.
  - intros (_ & d & H). discriminate H.
Qed.

Lemma last_entry_is_last l i r : last_entry l i r <-> is_last (fun r => rs_identifier r = i) l r.
Proof. reflexivity. Qed.

Lemma parse_ctl_parts a l t : parse_ctl a l = Ok t -> ctl_algorithm t = alg_name a /\ parse_subjects [] l = Ok (ctl_subjects t).
Proof.
  unfold parse_ctl. destruct (get_digest_algorithm a) as [n|] eqn:Ea; cbn [rbind]; [|discriminate].
  apply get_digest_algorithm_ok in Ea as [-> _].
  destruct (parse_subjects [] l) as [d|]; cbn [rbind]; [|discriminate]. intros H. injection H as <-. auto.
Qed.

Lemma keys_of_set {V} k (v : V) d : exists b : bool, map fst (dict_set k v d) = map fst d ++ (if b then [k] else []) /\
  (b = true <-> dict_get k d = None).
Proof.
  induction d as [|[k' v'] d IH]; cbn [dict_set dict_get map fst].
  - exists true. split; [reflexivity|]. split; auto.
  - destruct (String.eqb_spec k k') as [->|N].
    + exists false. cbn [map fst]. split; [now rewrite app_nil_r|]. split; discriminate.
    + destruct IH as (b & E & I). exists b. cbn [map fst]. now rewrite E.
Qed.
Lemma dict_get_none {V} k (d : dict V) : dict_get k d = None <-> ~ In k (map fst d).
Proof.
  induction d as [|[k' v'] d IH]; cbn [dict_get map fst In]; [tauto|].
  destruct (String.eqb_spec k k') as [->|N].
  - split; [discriminate|]. intros H. exfalso. apply H. now left.
  - rewrite IH. split; [intros H [E|I]; [now symmetry in E|auto]|tauto].
Qed.
Lemma set_nodup {V} k (v : V) d : NoDup (map fst d) -> NoDup (map fst (dict_set k v d)).
Proof.
  intros N. destruct (keys_of_set k v d) as ([] & -> & I).
  - apply proj1 in I. specialize (I eq_refl). apply dict_get_none in I.
    apply (NoDup_Add (a := k) (l := map fst d)); [|auto]. rewrite <- (app_nil_r (map fst d)) at 1. apply Add_app.
  - now rewrite app_nil_r.
Qed.
Lemma set_in {V} k (v : V) d k1 v1 :
  In (k1, v1) (dict_set k v d) -> (k1 = k /\ v1 = v) \/ In (k1, v1) d.
Proof.
  induction d as [|[k' v'] d IH]; cbn [dict_set In].
  - intros [E|[]]. injection E as <- <-. now left.
  - destruct (String.eqb_spec k k') as [->|N]; cbn [In].
    + intros [E|I]; [injection E as <- <-; now left|right; now right].
    + intros [E|I]; [right; now left|]. destruct (IH I) as [D|D]; [now left|right; now right].
Qed.
Lemma get_in {V} k (v : V) d : dict_get k d = Some v -> In (k, v) d.
Proof.
  induction d as [|[k' v'] d IH]; cbn [dict_get In]; [discriminate|].
  destruct (String.eqb_spec k k') as [->|N]; [intros E; injection E as ->; now left|auto].
Qed.
Lemma in_get {V} k (v : V) d : NoDup (map fst d) -> In (k, v) d -> dict_get k d = Some v.
Proof.
  induction d as [|[k' v'] d IH]; cbn [dict_get In map fst]; [intros _ []|].
  intros N. inversion N as [|? ? N1 N2]; subst. intros [E|I].
  - injection E as -> ->. now rewrite String.eqb_refl.
  - destruct (String.eqb_spec k k') as [->|D]; [|auto]. exfalso. apply N1. apply in_map_iff. now exists (k', v).
Qed.
Lemma parse_subjects_shape l : forall d d', parse_subjects d l = Ok d' -> NoDup (map fst d) ->
  Forall (fun ks => fst ks = hex (ts_identifier (snd ks))) d ->
  NoDup (map fst d') /\ Forall (fun ks => fst ks = hex (ts_identifier (snd ks))) d'.
Proof.
  induction l as [|r l IH]; intros d d' H N K; cbn [parse_subjects] in H.
  - injection H as <-. auto.
  - destruct (parse_subject r) as [s|] eqn:E; cbn [rbind] in H; [|discriminate H].
    apply (IH _ _ H); [now apply set_nodup|]. apply Forall_forall. intros [k1 s1] Hin.
    apply set_in in Hin as [[-> ->]|Hin]; [reflexivity|]. rewrite Forall_forall in K. now apply K.
Qed.

Theorem c60_subjects a l t :
  parse_ctl a l = Ok t ->
  NoDup (map ts_identifier (subjects t)) /\
  forall s, In s (subjects t) <-> exists r, last_entry l (rs_identifier r) r /\ reads r s.
Proof.
  intros H. destruct (parse_ctl_parts _ _ _ H) as [_ P]. unfold subjects.
  destruct (parse_subjects_shape l [] _ P) as [N K]; [constructor|constructor|].
  assert (M : map fst (ctl_subjects t) = map hex (map ts_identifier (map snd (ctl_subjects t)))).
  { rewrite !map_map. apply map_ext_in. intros ks Hk. rewrite Forall_forall in K. now apply K. }
  split.
  - rewrite M in N. now apply NoDup_map_inv in N.
  - assert (G : forall i s, dict_get (hex i) (ctl_subjects t) = Some s <-> exists r, last_entry l i r /\ parse_subject r = Ok s).
    { intros i s. destruct (parse_subjects_get l [] _ (hex i) P) as [G F].
      assert (FL := fold_last (hex i) l s F). cbn [dict_get] in G.
      assert (dict_get (hex i) (ctl_subjects t) = Some s <-> (exists r, is_last (fun r => hex (rs_identifier r) = hex i) l r /\ parse_subject r = Ok s)) as ->.
      { rewrite G, <- FL. now destruct (fold_left _ l None). }
      split; intros (r & L & Q); exists r; (split; [|exact Q]); [apply is_last_hex in L|apply is_last_hex]; exact L. }
    intros s. rewrite in_map_iff. split.
    + intros ([k s'] & E & Hin). cbn [snd] in E. subst s'. assert (Ek := proj1 (Forall_forall _ _) K _ Hin). cbn [fst snd] in Ek. subst k.
      apply (in_get _ _ _ N) in Hin. apply G in Hin as (r & L & Q). exists r.
      assert (Ei : rs_identifier r = ts_identifier s) by (symmetry; now apply parse_subject_identifier). rewrite Ei.
      split; [exact L|now apply parse_reads].
    + intros (r & L & R). exists (hex (rs_identifier r), s). split; [reflexivity|]. apply get_in, G.
      exists r. split; [exact L|]. apply c60_entry. split; [|exact R].
      apply parse_ok. destruct (parse_subjects_get l [] _ "" P) as [_ F]. rewrite Forall_forall in F. apply F.
      destruct L as (pre & post & -> & _). apply in_or_app. right. now left.
Qed.

Theorem c60_trust E a l t x c root rest w :
  parse_ctl a l = Ok t -> nth_error (w_contexts w) x = Some c -> stable c ->
  ctl_verify_trust E t (root :: rest) x w = (w, Ok true) <->
  In (alg_name a) ["sha1"; "sha256"] /\
  exists r, last_entry l (list_identifier E (alg_name a) root) r /\
    allows r (c_valid_from (last rest root)) (asked_time E c) (asked_usages c).
Proof.
  intros H Hc St. destruct (parse_ctl_parts _ _ _ H) as [Ha P]. unfold ctl_verify_trust.
  assert (La : exists pre, root :: rest = pre ++ [last rest root]).
  { destruct rest as [|r rest] using rev_ind; [now exists []|]. exists (root :: rest). now rewrite last_last. }
  destruct La as (pre & La).
  unfold mbind at 1, mres. destruct (find_subject_algorithms E t root) as [[Hi Hf]|(Hn & e & Hf & _)].
  - rewrite Ha in Hi. assert (L := find_subject_listed E a l t root H Hi).
    destruct (find_subject E t root) as [[s|]|e] eqn:Fs.
    + destruct (proj1 (L s) eq_refl) as (r & Lr & Q). unfold mbind. rewrite (get_context_ok _ _ _ Hc), (read_ekus_stable _ _ _ Hc St).
      unfold mres. split.
      * intros V. injection V as V. split; [exact Hi|]. exists r. split; [exact Lr|].
        rewrite La in V. eapply c60_decision in V; [|exact Q]. exact V.
      * intros (_ & r' & Lr' & A). f_equal. rewrite La. apply (c60_decision r s); [exact Q|].
        replace r with r'; [exact A|]. destruct Lr as (p1 & q1 & E1 & I1 & F1), Lr' as (p2 & q2 & E2 & I2 & F2).
        rewrite E1 in E2. clear -E2 I1 I2 F1 F2. revert p2 E2. induction p1 as [|y p1 IH]; intros [|z p2] E2; cbn [app] in E2; injection E2 as Ea Eb.
        -- now symmetry.
        -- exfalso. subst q1. rewrite Forall_forall in F1. refine (F1 r' _ I2). apply in_or_app. right. now left.
        -- exfalso. subst q2. rewrite Forall_forall in F2. refine (F2 r _ I1). apply in_or_app. right. now left.
        -- eauto.
    + split.
      * destruct (raise_fmt root CTLCertificateVerificationError _) eqn:Ef; [now apply raise_fmt_not_ok in Ef|discriminate].
      * intros (_ & r & Lr & _). exfalso. apply (proj1 (find_subject_unlisted E a l t root H Hi)) in Fs.
        destruct Lr as (p & q & -> & I & _). apply Forall_app in Fs as [_ Fs]. now inversion Fs.
    + congruence.
  - rewrite Hf. split; [discriminate|]. intros [Hi _]. exfalso. apply Hn. now rewrite Ha.
Qed.

Theorem c60_file load data t :
  from_stl_file load data = Ok t <->
  exists a c certs, load data = Ok (StlSigned [a] "microsoft_ctl" (Some c) certs) /\
    get_digest_algorithm a = Ok (tl_digest_alg t) /\ tl_certificates t = the_certificates certs /\
    tl_usage t = rl_usage c /\ tl_identifier t = rl_identifier c /\ tl_sequence t = rl_sequence c /\
    tl_this_update t = rl_this_update c /\ tl_next_update t = rl_next_update c /\
    parse_ctl (rl_algorithm c) (rl_subjects c) = Ok (tl_ctl t).
Proof.
  unfold from_stl_file, parse_trust_list. split.
  - destruct (load data) as [[algs ty content certs|ty]|e]; cbn [rbind]; try discriminate.
    destruct algs as [|a [|]]; cbn [rbind]; try discriminate.
    destruct (get_digest_algorithm a) as [n|] eqn:Ea; cbn [rbind]; [|discriminate].
    destruct (String.eqb_spec ty "microsoft_ctl") as [->|]; cbn [rbind]; [|discriminate].
    destruct content as [c|]; [|discriminate].
    destruct (parse_ctl _ _) as [d|] eqn:Ec; cbn [rbind]; [|discriminate].
    intros H. injection H as <-. exists a, c, certs. cbn. repeat split; assumption.
  - intros (a & c & certs & -> & Ea & E1 & E2 & E3 & E4 & E5 & E6 & Ec). cbn [rbind]. rewrite Ea, Ec. cbn [rbind]. rewrite String.eqb_refl. cbn [rbind].
    destruct t. cbn in *. now subst.
Qed.
