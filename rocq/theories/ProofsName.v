(** Proofs about names that are decoded on demand. *)
From Verif Require Import Base Bytes ModelX509 ModelContext ModelPkcs7 ModelDer ModelSpc ModelDecode ModelName SpecName ProofsX509.
From Coq Require Import ZifyBool.

Definition comp (a : ava) : string * nval := (rdn_type (a_oid a), a_val a).

Lemma forall2_rev {A B} (R : A -> B -> Prop) l m : Forall2 R l m -> Forall2 R (rev l) (rev m).
Proof. induction 1; [constructor|]. cbn. apply Forall2_app; [assumption|]. now repeat constructor. Qed.
Lemma forall2_map {A B C} (R : A -> C -> Prop) (f : B -> C) l m : Forall2 (fun x y => R x (f y)) l m <-> Forall2 R l (map f m).
Proof.
  split.
  - induction 1; constructor; auto.
  - revert m. induction l as [|x l IH]; intros [|y m] H; inversion H; subst; constructor; auto.
Qed.

Lemma rdn_cases r : (exists x, reads r x) \/ (exists e, fails r e).
Proof.
  destruct r as [[|[[o|e] [v|e']] rest]|e].
  - right. eexists. now apply fails_empty.
  - left. eexists. constructor.
  - right. eexists. apply fails_value.
  - right. eexists. apply fails_type.
  - right. eexists. apply fails_type.
  - right. eexists. apply fails_set.
Qed.
Lemma reads_comp r x : reads r x ->
  first_ava r = Ok (mkLzAva (Ok (a_oid x)) (Ok (a_val x))).
Proof. now intros []. Qed.
Lemma fails_comp {A} r e (k : string -> nval -> res A) : fails r e ->
  (let? a := first_ava r in let? o := la_oid a in let? v := la_value a in k o v) = Err e.
Proof. intros [| | |]; subst; reflexivity. Qed.
Lemma reads_fails r x e : reads r x -> fails r e -> False.
Proof. intros [o v rest] F. inversion F. Qed.
Lemma reads_fun r x y : reads r x -> reads r y -> x = y.
Proof. intros [o v rest] H. inversion H. reflexivity. Qed.
Lemma fails_fun r x y : fails r x -> fails r y -> x = y.
Proof. intros F G. destruct F; inversion G; subst; reflexivity. Qed.

Lemma split_rdns l : exists good xs rest, l = good ++ rest /\ Forall2 reads good xs /\ (rest = [] \/ exists r rest' e, rest = r :: rest' /\ fails r e).
Proof.
  induction l as [|r l (good & xs & rest & -> & F & H)].
  - exists [], [], []. split; [reflexivity|]. split; [constructor|now left].
  - destruct (rdn_cases r) as [[x R]|[e R]].
    + exists (r :: good), (x :: xs), rest. split; [reflexivity|]. split; [now constructor|exact H].
    + exists [], [], (r :: good ++ rest). split; [reflexivity|]. split; [constructor|]. right. now exists r, (good ++ rest), e.
Qed.
Lemma name_cases n : (exists m, stands_for n m) \/ (exists e after, broken_before n e after).
Proof.
  destruct n as [l|e]; [|right; exists e, []; left; now split].
  destruct (split_rdns (rev l)) as (good & xs & rest & E & F & H). apply (f_equal (@rev _)) in E. rewrite rev_involutive, rev_app_distr in E.
  destruct H as [->|(r & rest' & e & -> & R)].
  - cbn in E. left. exists (map (fun x => mkRdn x []) (rev xs)). exists l. split; [reflexivity|].
    apply forall2_map with (f := r_first) (R := reads). rewrite map_map, map_id. rewrite E. now apply forall2_rev.
  - right. exists e, (rev xs). right. exists (rev rest'), r, (rev good). split; [rewrite E; cbn; now rewrite <- app_assoc|].
    split; [exact R|now apply forall2_rev].
Qed.

Lemma component_good good xs rest : Forall2 reads good xs ->
  component_loop (good ++ rest) = (map comp xs ++ fst (component_loop rest), snd (component_loop rest)).
Proof.
  induction 1 as [|r x good xs R F IH]; cbn [app map].
  - now destruct (component_loop rest).
  - cbn [component_loop]. rewrite (reads_comp r x R). cbn [rbind la_oid la_value]. rewrite IH. reflexivity.
Qed.
Lemma components_sound n m : stands_for n m -> lz_components n = (get_components m, None).
Proof.
  intros (l & -> & F). cbn [lz_components]. apply forall2_map in F. apply forall2_rev in F.
  rewrite <- (app_nil_r (rev l)), (component_good _ _ _ F). cbn. rewrite app_nil_r. unfold get_components.
  rewrite <- map_rev, map_map. reflexivity.
Qed.
Lemma components_broken n e after : broken_before n e after -> lz_components n = (map comp (rev after), Some e).
Proof.
  intros [[-> ->]|(front & r & back & -> & R & F)]; [reflexivity|].
  cbn [lz_components]. rewrite rev_app_distr. cbn [rev]. rewrite <- app_assoc.
  rewrite (component_good _ _ _ (forall2_rev _ _ _ F)). cbn [app component_loop]. rewrite (fails_comp r e) by exact R.
  cbn [fst snd]. now rewrite app_nil_r.
Qed.
Lemma components_of_good f t good xs rest : Forall2 reads good xs ->
  component_of_loop f t (good ++ rest) =
  (map a_val (filter (fun x => str_mem t [a_oid x; f (a_oid x); rdn_type (a_oid x)]) xs) ++ fst (component_of_loop f t rest),
   snd (component_of_loop f t rest)).
Proof.
  induction 1 as [|r x good xs R F IH]; cbn [app map filter].
  - now destruct (component_of_loop f t rest).
  - cbn [component_of_loop]. rewrite (reads_comp r x R). cbn [rbind la_oid la_value]. rewrite IH.
    destruct (str_mem t [a_oid x; f (a_oid x); rdn_type (a_oid x)]); reflexivity.
Qed.
Lemma components_of_sound f t n m : stands_for n m -> lz_components_of f t n = (get_components_of f t m, None).
Proof.
  intros (l & -> & F). cbn [lz_components_of]. apply forall2_map in F. apply forall2_rev in F.
  rewrite <- (app_nil_r (rev l)), (components_of_good f t _ _ _ F). cbn [component_of_loop fst snd]. rewrite app_nil_r. unfold get_components_of.
  rewrite <- map_rev. f_equal. induction (rev m) as [|q m' IH]; [reflexivity|]. cbn [map filter].
  destruct (str_mem t [a_oid (r_first q); f (a_oid (r_first q)); rdn_type (a_oid (r_first q))]); cbn [map]; now rewrite IH.
Qed.
Lemma components_of_broken f t n e after : broken_before n e after ->
  lz_components_of f t n =
  (map a_val (filter (fun x => str_mem t [a_oid x; f (a_oid x); rdn_type (a_oid x)]) (rev after)), Some e).
Proof.
  intros [[-> ->]|(front & r & back & -> & R & F)]; [reflexivity|].
  cbn [lz_components_of]. rewrite rev_app_distr. cbn [rev]. rewrite <- app_assoc.
  rewrite (components_of_good f t _ _ _ (forall2_rev _ _ _ F)). cbn [app component_of_loop]. rewrite (fails_comp r e) by exact R.
  cbn [fst snd]. now rewrite app_nil_r.
Qed.

Lemma rdns_sound n m : stands_for n m -> lz_rdns n = Ok (rdns m).
Proof. intros H. unfold lz_rdns, collect. now rewrite (components_sound n m H). Qed.
Lemma rdns_broken n e : broken n e -> lz_rdns n = Err e.
Proof. intros [after H]. unfold lz_rdns, collect. now rewrite (components_broken n e after H). Qed.
Theorem rdns_exact n : (forall x, lz_rdns n = Ok x <-> exists m, stands_for n m /\ x = rdns m) /\ (forall e, lz_rdns n = Err e <-> broken n e).
Proof.
  destruct (name_cases n) as [[m H]|(e0 & after & H)].
  - split; intros z; split.
    + intros Q. exists m. split; [exact H|]. rewrite (rdns_sound n m H) in Q. now injection Q.
    + intros (m' & H' & ->). now apply rdns_sound.
    + intros Q. rewrite (rdns_sound n m H) in Q. discriminate Q.
    + apply rdns_broken.
  - assert (B : broken n e0) by now exists after. split; intros z; split.
    + intros Q. rewrite (rdns_broken n e0 B) in Q. discriminate Q.
    + intros (m' & H' & ->). now apply rdns_sound.
    + intros Q. rewrite (rdns_broken n e0 B) in Q. injection Q as <-. exact B.
    + apply rdns_broken.
Qed.
Lemma sound_or n : (exists m, stands_for n m /\ lz_rdns n = Ok (rdns m)) \/ (exists e, broken n e /\ lz_rdns n = Err e).
Proof.
  destruct (name_cases n) as [[m H]|(e & after & H)].
  - left. exists m. split; [exact H|now apply rdns_sound].
  - right. assert (B : broken n e) by now exists after. exists e. split; [exact B|now apply rdns_broken].
Qed.
Lemma broken_fun n e e' : broken n e -> broken n e' -> e = e'.
Proof. intros B B'. apply rdns_broken in B, B'. congruence. Qed.
Lemma sound_broken n e : sound n -> broken n e -> False.
Proof. intros [m H] B. apply rdns_broken in B. rewrite (rdns_sound n m H) in B. discriminate B. Qed.

(** ** Comparison of names *)
Lemma names_equal a b q : lz_name_eq a b = Ok q <-> (q = true /\ same_name a b) \/ (q = false /\ different_names a b).
Proof.
  unfold lz_name_eq. split.
  - destruct (sound_or a) as [(m & H & ->)|(e & H & ->)]; [|discriminate].
    destruct (sound_or b) as [(m' & H' & ->)|(e & H' & ->)]; [|discriminate]. cbn [rbind]. intros Q. injection Q as <-.
    fold (name_eqb m m'). destruct (name_eqb m m') eqn:E.
    + left. split; [reflexivity|]. exists m, m'. split; [exact H|]. split; [exact H'|]. now apply name_eqb_rdns.
    + right. split; [reflexivity|]. exists m, m'. split; [exact H|]. split; [exact H'|]. intros X. apply name_eqb_rdns in X. congruence.
  - intros [[-> (m & m' & H & H' & E)]|[-> (m & m' & H & H' & E)]]; rewrite (rdns_sound a m H), (rdns_sound b m' H'); cbn [rbind]; f_equal; fold (name_eqb m m').
    + now apply name_eqb_rdns.
    + destruct (name_eqb m m') eqn:X; [|reflexivity]. apply name_eqb_rdns in X. now elim E.
Qed.
Lemma names_error a b e : lz_name_eq a b = Err e <-> name_error a b e.
Proof.
  unfold lz_name_eq, name_error. destruct (sound_or a) as [(m & H & ->)|(x & H & ->)]; cbn [rbind].
  - destruct (sound_or b) as [(m' & H' & ->)|(x & H' & ->)]; cbn [rbind]; split.
    + discriminate.
    + intros [B|[_ B]]; exfalso; [apply (sound_broken a e); [now exists m|exact B]|apply (sound_broken b e); [now exists m'|exact B]].
    + intros Q. injection Q as <-. right. split; [now exists m|exact H'].
    + intros [B|[_ B]]; [exfalso; apply (sound_broken a e); [now exists m|exact B]|]. f_equal. now apply (broken_fun b).
  - split.
    + intros Q. injection Q as <-. now left.
    + intros [B|[S _]]; [f_equal; now apply (broken_fun a)|]. exfalso. now apply (sound_broken a x).
Qed.
Lemma same_not_different a b : same_name a b -> different_names a b -> False.
Proof.
  intros S D. assert (A : lz_name_eq a b = Ok true) by (apply names_equal; now left).
  assert (B : lz_name_eq a b = Ok false) by (apply names_equal; now right). congruence.
Qed.
Lemma name_eq_cases a b : (lz_name_eq a b = Ok true /\ same_name a b) \/ (lz_name_eq a b = Ok false /\ different_names a b) \/
  exists e, lz_name_eq a b = Err e /\ name_error a b e.
Proof.
  destruct (lz_name_eq a b) as [q|e] eqn:Q.
  - apply names_equal in Q. destruct Q as [[-> S]|[-> D]]; [left|right; left]; now split.
  - right. right. exists e. split; [reflexivity|now apply names_error].
Qed.

(** ** Printing *)
Lemma dn_good good xs rest : Forall2 reads good xs -> Forall is_text xs ->
  exists items, dn_items (map comp xs) = Ok items /\ dn_loop (good ++ rest) = (let? more := dn_loop rest in Ok (items ++ more)).
Proof.
  induction 1 as [|r x good xs R F IH]; intros T.
  - exists []. split; [reflexivity|]. cbn [app]. now destruct (dn_loop rest).
  - inversion T as [|? ? [u Hu] T']; subst. destruct (IH T') as (items & I1 & I2).
    exists ((ustr_of (rdn_type (a_oid x)) ++ [61%N] ++ dn_value u) :: items). cbn [map dn_items comp]. rewrite Hu, I1. split; [reflexivity|].
    cbn [app dn_loop]. rewrite (reads_comp r x R). cbn [rbind la_oid la_value]. rewrite Hu, I2. now destruct (dn_loop rest).
Qed.
Lemma text_split xs : Forall is_text xs \/ exists front x back b, xs = front ++ x :: back /\ Forall is_text front /\ a_val x = VBytes b.
Proof.
  induction xs as [|x xs IH]; [left; constructor|]. destruct (a_val x) as [u|b] eqn:V.
  - destruct IH as [IH|(front & y & back & b & -> & T & Y)].
    + left. constructor; [now exists u|exact IH].
    + right. exists (x :: front), y, back, b. split; [reflexivity|]. split; [constructor; [now exists u|exact T]|exact Y].
  - right. exists [], x, xs, b. split; [reflexivity|]. split; [constructor|exact V].
Qed.
Lemma dn_sound n m : stands_for n m -> lz_dn n = dn m.
Proof.
  intros (l & -> & F). unfold lz_dn, dn. cbn [rbind]. apply forall2_map in F. apply forall2_rev in F.
  assert (G : get_components m = map comp (rev (map r_first m))) by (unfold get_components; rewrite <- map_rev, map_map; reflexivity).
  rewrite G. set (xs := rev (map r_first m)) in *. set (k := rev l) in *. clearbody xs k. clear G.
  assert (Q : dn_loop k = dn_items (map comp xs)).
  { induction F as [|r x k xs R F IH]; [reflexivity|]. cbn [dn_loop map dn_items comp]. rewrite (reads_comp r x R).
    cbn [rbind la_oid la_value]. destruct (a_val x); [now rewrite IH|reflexivity]. }
  now rewrite Q.
Qed.
Lemma dn_error n e : lz_dn n = Err e -> unprintable n e.
Proof.
  destruct n as [l|x]; [|cbn; intros H; injection H as ->; now left]. unfold lz_dn. cbn [rbind].
  intros H. assert (Q : dn_loop (rev l) = Err e) by (destruct (dn_loop (rev l)); [discriminate H|cbn [rbind] in H; now injection H as ->]). clear H.
  right. remember (rev l) as k eqn:K.
  assert (S : exists good r rest xs, k = good ++ r :: rest /\ Forall2 reads good xs /\ Forall is_text xs /\
              (fails r e \/ exists o b, reads r (mkAva o (VBytes b)) /\ e_class e = TypeError)).
  { clear K. induction k as [|r k IH]; [discriminate Q|]. destruct (rdn_cases r) as [[x R]|[x R]].
    - cbn [dn_loop] in Q. rewrite (reads_comp r x R) in Q. cbn [rbind la_oid la_value] in Q. destruct x as [o [u|b]]; cbn [a_val a_oid] in Q.
      + destruct (dn_loop k) as [items|e'] eqn:D; [discriminate Q|]. cbn [rbind] in Q. injection Q as ->. destruct (IH eq_refl) as (good & r' & rest & xs & -> & F & T & H).
        exists (r :: good), r', rest, (mkAva o (VStr u) :: xs). split; [reflexivity|]. split; [now constructor|]. split; [constructor; [now exists u|exact T]|exact H].
      + injection Q as <-. exists [], r, k, []. split; [reflexivity|]. split; [constructor|]. split; [constructor|]. right. exists o, b. split; [exact R|reflexivity].
    - exists [], r, k, []. split; [reflexivity|]. split; [constructor|]. split; [constructor|]. left.
      cbn [dn_loop] in Q. rewrite (fails_comp r x) in Q by exact R. injection Q as <-. exact R. }
  destruct S as (good & r & rest & xs & -> & F & T & H). apply (f_equal (@rev _)) in K. rewrite rev_involutive, rev_app_distr in K. cbn [rev] in K.
  exists (rev rest), r, (rev good), (rev xs). split; [rewrite <- K, <- app_assoc; reflexivity|]. split; [now apply forall2_rev|]. split; [now apply Forall_rev|exact H].
Qed.
Lemma dn_unprintable n e : unprintable n e -> exists e', lz_dn n = Err e' /\ e_class e' = e_class e.
Proof.
  intros [->|(front & r & back & after & -> & F & T & H)]; [exists e; now split|]. unfold lz_dn. cbn [rbind]. rewrite rev_app_distr. cbn [rev]. rewrite <- app_assoc.
  destruct (dn_good (rev back) (rev after) ([r] ++ rev front) (forall2_rev _ _ _ F) (Forall_rev T)) as (items & _ & ->). cbn [app dn_loop].
  destruct H as [H|(o & b & R & C)].
  - rewrite (fails_comp r e) by exact H. exists e. now split.
  - rewrite (reads_comp r _ R). cbn [rbind la_oid la_value a_val]. eexists. split; [reflexivity|now rewrite C].
Qed.

(** ** Certificates *)
Lemma key_fields a b :
  String.eqb (lo_alg a) (lo_alg b) && pkparams_eqb (lo_params a) (lo_params b) && bytes_eqb (lo_bits a) (lo_bits b) = true <->
  lo_alg a = lo_alg b /\ lo_params a = lo_params b /\ lo_bits a = lo_bits b.
Proof. rewrite !Bool.andb_true_iff, String.eqb_eq, pkparams_eqb_eq, bytes_eqb_eq. tauto. Qed.
Theorem certs_equal a b :
  (lz_cert_eq a b = Ok true <-> same_certificate a b) /\ (forall e, lz_cert_eq a b = Err e <-> comparison_error a b e).
Proof.
  unfold lz_cert_eq, and_then, same_certificate, comparison_error.
  destruct (name_eq_cases (lo_issuer a) (lo_issuer b)) as [[-> S]|[[-> D]|(x & -> & B)]]; cbn [rbind].
  - destruct (lo_serial a =? lo_serial b) eqn:Z; cbn [rbind].
    + destruct (name_eq_cases (lo_subject a) (lo_subject b)) as [[-> S']|[[-> D']|(x & -> & B')]]; cbn [rbind].
      * split.
        { rewrite <- key_fields. split; [intros H; injection H as ->; repeat split; try assumption; lia|]. intros (_ & _ & _ & ->). reflexivity. }
        intros e. split; [discriminate|]. intros [H|(_ & _ & H)]; apply names_error in H; [rewrite (proj2 (names_equal _ _ true) (or_introl (conj eq_refl S))) in H|rewrite (proj2 (names_equal _ _ true) (or_introl (conj eq_refl S'))) in H]; discriminate H.
      * split; [split; [discriminate|intros (_ & _ & S' & _); exfalso; now apply (same_not_different _ _ S')]|].
        intros e. split; [discriminate|]. intros [H|(_ & _ & H)]; apply names_error in H; [rewrite (proj2 (names_equal _ _ true) (or_introl (conj eq_refl S))) in H|rewrite (proj2 (names_equal _ _ false) (or_intror (conj eq_refl D'))) in H]; discriminate H.
      * split; [split; [discriminate|intros (_ & _ & S' & _)]; apply names_error in B'; rewrite (proj2 (names_equal _ _ true) (or_introl (conj eq_refl S'))) in B'; discriminate B'|].
        intros e. split; [intros H; injection H as <-; right; split; [exact S|split; [lia|exact B']]|].
        intros [H|(_ & _ & H)]; apply names_error in H; [rewrite (proj2 (names_equal _ _ true) (or_introl (conj eq_refl S))) in H; discriminate H|].
        apply names_error in B'. rewrite B' in H. now injection H as ->.
    + split; [split; [discriminate|intros (_ & E & _); lia]|]. intros e. split; [discriminate|]. intros [H|(_ & E & _)]; [|lia].
      apply names_error in H. rewrite (proj2 (names_equal _ _ true) (or_introl (conj eq_refl S))) in H. discriminate H.
  - split; [split; [discriminate|intros (S & _); exfalso; now apply (same_not_different _ _ S)]|].
    intros e. split; [discriminate|]. intros [H|(S & _)]; [|exfalso; now apply (same_not_different _ _ S)].
    apply names_error in H. rewrite (proj2 (names_equal _ _ false) (or_intror (conj eq_refl D))) in H. discriminate H.
  - assert (N : ~ same_name (lo_issuer a) (lo_issuer b)).
    { intros S. apply names_error in B. rewrite (proj2 (names_equal _ _ true) (or_introl (conj eq_refl S))) in B. discriminate B. }
    split; [split; [discriminate|now intros (S & _)]|]. intros e. split; [intros H; injection H as <-; now left|].
    intros [H|(S & _)]; [|now elim N]. apply names_error in H, B. rewrite B in H. now injection H as ->.
Qed.
Theorem cert_in_true c l :
  lz_cert_in c l = Ok true <->
  exists front x back, l = front ++ x :: back /\ (lo_id x = lo_id c \/ same_certificate x c) /\
    Forall (fun y => lo_id y <> lo_id c /\ ~ same_certificate y c /\ forall e, ~ comparison_error y c e) front.
Proof.
  induction l as [|x l IH]; cbn [lz_cert_in].
  - split; [discriminate|]. intros (front & x & back & E & _). now destruct front.
  - destruct (Z.eqb (lo_id x) (lo_id c)) eqn:I.
    + split; [intros _|reflexivity]. exists [], x, l. split; [reflexivity|]. split; [left; lia|constructor].
    + destruct (certs_equal x c) as [Q R]. destruct (lz_cert_eq x c) as [[|]|e] eqn:Eq; cbn [rbind].
      * split; [intros _|reflexivity]. exists [], x, l. split; [reflexivity|]. split; [right; now apply Q|constructor].
      * rewrite IH. assert (NS : ~ same_certificate x c) by (intros S; apply Q in S; discriminate S).
        assert (NE : forall e, ~ comparison_error x c e) by (intros e S; apply R in S; discriminate S).
        split; intros (front & y & back & E & H & F).
        -- exists (x :: front), y, back. rewrite E. split; [reflexivity|]. split; [exact H|]. constructor; [|exact F]. split; [lia|now split].
        -- destruct front as [|z front]; injection E as <- ->; [exfalso; destruct H as [H|H]; [lia|now apply NS]|].
           exists front, y, back. split; [reflexivity|]. split; [exact H|]. now inversion F.
      * split; [discriminate|]. intros (front & y & back & E & H & F). exfalso.
        assert (X : comparison_error x c e) by now apply R.
        destruct front as [|z front]; injection E as <- ->.
        -- destruct H as [H|H]; [lia|]. apply Q in H. discriminate H.
        -- inversion F as [|? ? (_ & _ & N) _]; subst. now apply (N e).
Qed.

(** ** Searches *)
Theorem find_exact q l ys r :
  lz_find q l = (ys, r) <->
  exists good rest, l = good ++ rest /\
    (forall c, In c good -> exists x, lz_matches q c = Ok x) /\
    ys = filter (fun c => match lz_matches q c with Ok x => x | Err _ => false end) good /\
    ((rest = [] /\ r = None) \/ exists c rest' e, rest = c :: rest' /\ lz_matches q c = Err e /\ r = Some e).
Proof.
  revert ys r. induction l as [|c l IH]; intros ys r; cbn [lz_find].
  - split.
    + intros H. injection H as <- <-. exists [], []. split; [reflexivity|]. split; [intros c []|]. split; [reflexivity|]. left. now split.
    + intros (good & rest & E & _ & -> & H). symmetry in E. apply app_eq_nil in E. destruct E as [-> ->].
      destruct H as [[_ ->]|(c & rest' & e & X & _)]; [reflexivity|discriminate X].
  - destruct (lz_matches q c) as [x|e] eqn:M.
    + assert (S : (ys, r) = (if x then yield_then c (lz_find q l) else lz_find q l) <->
                  exists good rest, c :: l = good ++ rest /\ (forall c, In c good -> exists x, lz_matches q c = Ok x) /\
                    ys = filter (fun c => match lz_matches q c with Ok x => x | Err _ => false end) good /\
                    ((rest = [] /\ r = None) \/ exists c rest' e, rest = c :: rest' /\ lz_matches q c = Err e /\ r = Some e)).
      { split.
        - destruct (lz_find q l) as [ys' r'] eqn:L. destruct (proj1 (IH ys' r') eq_refl) as (good & rest & -> & G & -> & H).
          intros Q. exists (c :: good), rest. split; [reflexivity|]. split; [intros y [<-|Y]; [now exists x|now apply G]|].
          cbn [filter]. rewrite M. destruct x; injection Q as -> ->; now split.
        - intros (good & rest & E & G & -> & H). destruct good as [|y good].
          + destruct H as [[-> _]|(y & rest' & e & -> & Y & _)]; [discriminate E|]. injection E as <- _. congruence.
          + injection E as <- ->. assert (L : lz_find q (good ++ rest) = (filter (fun c => match lz_matches q c with Ok x => x | Err _ => false end) good, r)).
            { apply IH. exists good, rest. split; [reflexivity|]. split; [intros y Y; apply G; now right|]. split; [reflexivity|exact H]. }
            rewrite L. cbn [filter]. rewrite M. now destruct x. }
      rewrite <- S. destruct x; split; congruence.
    + split.
      * intros H. injection H as <- <-. exists [], (c :: l). split; [reflexivity|]. split; [intros y []|]. split; [reflexivity|]. right. now exists c, l, e.
      * intros (good & rest & E & G & -> & H). destruct good as [|y good].
        -- destruct H as [[-> _]|(y & rest' & e' & -> & Y & ->)]; [discriminate E|]. injection E as <- _. rewrite M in Y. injection Y as ->. reflexivity.
        -- injection E as <- ->. destruct (G c (or_introl eq_refl)) as [x X]. congruence.
Qed.
(** The search for a signer. *)
Lemma signer_matches n z c :
  (lz_matches (by_issuer n z) c = Ok true <-> lo_serial c = z /\ same_name (lo_issuer c) n) /\
  (forall e, lz_matches (by_issuer n z) c = Err e <-> lo_serial c = z /\ name_error (lo_issuer c) n e).
Proof.
  unfold lz_matches, by_issuer, and_then. cbn [lq_subject lq_serial lq_issuer lq_sha256 rbind].
  destruct (lo_serial c =? z) eqn:S; cbn [rbind].
  - destruct (name_eq_cases (lo_issuer c) n) as [[Q Sm]|[[Q D]|(x & Q & B)]]; rewrite Q; cbn [rbind].
    + split; [split; [split; [lia|exact Sm]|reflexivity]|]. intros e. split; [discriminate|]. intros [_ H]. apply names_error in H. congruence.
    + split; [split; [discriminate|intros [_ X]; exfalso; now apply (same_not_different _ _ X)]|]. intros e. split; [discriminate|]. intros [_ H]. apply names_error in H. congruence.
    + split; [split; [discriminate|]|].
      * intros [_ X]. assert (Y : lz_name_eq (lo_issuer c) n = Ok true) by (apply names_equal; now left). congruence.
      * intros e. split; [intros H; injection H as <-; split; [lia|exact B]|]. intros [_ H]. apply names_error in H. congruence.
  - split; [split; [discriminate|lia]|]. intros e. split; [discriminate|lia].
Qed.
Theorem signer_search n z l : sound n ->
  (snd (lz_find (by_issuer n z) l) = None <-> forall c, In c l -> lo_serial c = z -> sound (lo_issuer c)) /\
  (forall e, snd (lz_find (by_issuer n z) l) = Some e -> exists c, In c l /\ lo_serial c = z /\ broken (lo_issuer c) e) /\
  (forall c, In c (fst (lz_find (by_issuer n z) l)) -> In c l /\ lo_serial c = z /\ same_name (lo_issuer c) n) /\
  (snd (lz_find (by_issuer n z) l) = None ->
   forall c, In c l -> lo_serial c = z -> same_name (lo_issuer c) n -> In c (fst (lz_find (by_issuer n z) l))).
Proof.
  intros Sn. destruct (lz_find (by_issuer n z) l) as [ys r] eqn:Q. cbn [fst snd].
  apply find_exact in Q. destruct Q as (good & rest & -> & G & -> & H).
  assert (K : forall c x, lz_matches (by_issuer n z) c = Ok x -> lo_serial c = z -> sound (lo_issuer c)).
  { intros c x M S. destruct (sound_or (lo_issuer c)) as [(m & X & _)|(e & B & _)]; [now exists m|].
    assert (Y : lz_matches (by_issuer n z) c = Err e) by (apply signer_matches; split; [exact S|now left]). congruence. }
  split; [|split; [|split]].
  - split.
    + intros ->. destruct H as [[-> _]|(c & rest' & e & _ & _ & X)]; [|discriminate X]. rewrite app_nil_r. intros c I S.
      destruct (G c I) as [x M]. now apply (K c x).
    + intros A. destruct H as [[_ ->]|(c & rest' & e & -> & M & ->)]; [reflexivity|]. exfalso.
      apply signer_matches in M. destruct M as [S [B|[_ B]]]; [|now apply (sound_broken n e)].
      apply (sound_broken (lo_issuer c) e); [|exact B]. apply A; [|exact S]. apply in_or_app. right. now left.
  - intros e ->. destruct H as [[_ X]|(c & rest' & e' & -> & M & X)]; [discriminate X|]. injection X as <-.
    apply signer_matches in M. destruct M as [S [B|[_ B]]]; [|exfalso; now apply (sound_broken n e)].
    exists c. split; [apply in_or_app; right; now left|]. now split.
  - intros c I. apply filter_In in I. destruct I as [I M]. destruct (lz_matches (by_issuer n z) c) as [x|] eqn:E; [|discriminate M]. subst x.
    apply signer_matches in E. split; [apply in_or_app; now left|exact E].
  - intros ->. destruct H as [[-> _]|(c & rest' & e & _ & _ & X)]; [|discriminate X]. rewrite app_nil_r. intros c I S N.
    apply filter_In. split; [exact I|]. now rewrite (proj2 (proj1 (signer_matches n z c)) (conj S N)).
Qed.

(** ** Octets *)
Lemma ava_read t x : read_ava t = Ok x <-> lz_read_ava t = decoded x.
Proof.
  unfold read_ava, lz_read_ava, decoded. cbv zeta. destruct (contents_of NameTypeAndValue Untagged t) as [b|e] eqn:C; cbn [rbind].
  - destruct (read NameTypeAndValue (children NameTypeAndValue b) "type" _) as [o|e] eqn:T; cbn [rbind].
    + destruct (read NameTypeAndValue (children NameTypeAndValue b) "value" _) as [v|e] eqn:V; cbn [rbind].
      * split; intros H; [injection H as <-; reflexivity|]. destruct x as [o' v']. cbn in H. injection H as -> ->. reflexivity.
      * split; intros H; [discriminate H|]. injection H as _ H. discriminate H.
    + split; intros H; [discriminate H|]. injection H as H _. discriminate H.
  - split; intros H; [discriminate H|]. unfold read, read_field in H. cbn [rbind] in H. injection H as H _. discriminate H.
Qed.
Lemma map_res_ok {A B} (f : A -> res B) l m : map_res f l = Ok m <-> Forall2 (fun x y => f x = Ok y) l m.
Proof.
  revert m. induction l as [|x l IH]; intros m; cbn [map_res].
  - split; intros H; [injection H as <-; constructor|]. now inversion H.
  - destruct (f x) as [y|e] eqn:F; cbn [rbind].
    + destruct (map_res f l) as [ys|e] eqn:M; cbn [rbind].
      * split; intros H; [injection H as <-; constructor; [exact F|now apply IH]|].
        inversion H as [|? y' ? ys' F' H']; subst. rewrite F in F'. injection F' as ->. apply IH in H'. now injection H' as ->.
      * split; intros H; [discriminate H|]. inversion H as [|? y' ? ys' F' H']; subst. apply IH in H'. discriminate H'.
    + split; intros H; [discriminate H|]. inversion H; congruence.
Qed.
Lemma forall2_eq_map {A B C} (f : A -> C) (g : B -> C) l m : Forall2 (fun x y => f x = g y) l m <-> map f l = map g m.
Proof.
  split.
  - induction 1 as [|x y l m E F IH]; [reflexivity|]. cbn. now rewrite E, IH.
  - revert m. induction l as [|x l IH]; intros [|y m] H; try discriminate H; constructor; [now injection H|]. apply IH. now injection H.
Qed.
Lemma forall2_iff {A B} (P Q : A -> B -> Prop) l m : (forall x y, P x y <-> Q x y) -> Forall2 P l m <-> Forall2 Q l m.
Proof. intros E. split; induction 1; constructor; auto; now apply E. Qed.
Lemma rdn_read t q : read_rdn t = Ok q <-> lz_read_rdn t = Ok (map decoded (r_first q :: r_rest q)).
Proof.
  unfold read_rdn, lz_read_rdn. destruct (items_of (ASetOf NameTypeAndValue) Untagged t) as [l|e]; cbn [rbind]; [|split; discriminate].
  assert (M : forall m, map_res read_ava l = Ok m <-> map lz_read_ava l = map decoded m).
  { intros m. rewrite map_res_ok, <- forall2_eq_map. apply forall2_iff. apply ava_read. }
  destruct (map_res read_ava l) as [[|x rest]|e] eqn:R; cbn [rbind].
  - split; intros H; [discriminate H|]. injection H as H. rewrite (proj1 (M []) eq_refl) in H. discriminate H.
  - split; intros H.
    + injection H as <-. f_equal. now apply M.
    + injection H as H. apply (M (r_first q :: r_rest q)) in H. injection H as -> ->. now destruct q.
  - split; intros H; [discriminate H|]. injection H as H. apply (M (r_first q :: r_rest q)) in H. discriminate H.
Qed.
Theorem name_read a tg t m : read_name a tg t = Ok m <-> wholly (lz_read_name a tg t) m.
Proof.
  unfold read_name, lz_read_name, wholly. destruct (items_of a tg t) as [l|e]; cbn [rbind]; [|split; discriminate].
  etransitivity; [exact (map_res_ok read_rdn l m)|]. rewrite (forall2_iff _ _ _ _ rdn_read).
  rewrite (forall2_eq_map lz_read_rdn (fun q => Ok (map decoded (r_first q :: r_rest q)))). split; [now intros ->|]. intros H. now injection H.
Qed.
Lemma wholly_stands n m : wholly n m -> stands_for n m.
Proof.
  intros ->. eexists. split; [reflexivity|]. induction m as [|q m IH]; [constructor|]. cbn [map]. constructor; [|exact IH].
  destruct q as [[o v] rest]. cbn. constructor.
Qed.
