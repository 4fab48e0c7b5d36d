(** What is read of the octets of a certificate trust list. *)
From Verif Require Import Base Bytes Monad ModelX509 ModelContext ModelPkcs7 ModelLazy ModelCtl ModelDer ModelSpc ModelDecode ModelStl
  SpecPrim SpecTime SpecAsn SpecBer SpecStl ProofsPrim4 ProofsDer ProofsDecode3 ProofsAsn ProofsAsn2 ProofsBer2.
From Verif Require ProofsPkcs7.
From Coq Require Import ZifyBool ZifyNat.

(** ** Lists *)

Lemma decode_all_forall c : forall ts vs, decode_all c ts = Ok vs -> Forall2 (fun t v => decode c Untagged t = Ok v) ts vs.
Proof.
  induction ts as [|t ts IH]; cbn [decode_all]; intros vs H; [injection H as <-; constructor|].
  destruct (decode c Untagged t) as [v|] eqn:D; cbn [rbind] in H; [|discriminate H].
  destruct (decode_all c ts) as [vs'|] eqn:Ds; cbn [rbind] in H; [|discriminate H]. injection H as <-.
  constructor; [exact D|apply IH; reflexivity].
Qed.
Lemma seqof_items c tg t v : decode (ASeqOf c) tg t = Ok v ->
  exists ts vs, v = VList vs /\ items_of (ASeqOf c) tg t = Ok ts /\ Forall2 (fun t v => decode c Untagged t = Ok v) ts vs.
Proof.
  rewrite decode_seqof. unfold items_of. cbn [contents_of].
  destruct (expect tg true 16 t) as [u|]; cbn [rbind]; [|discriminate].
  destruct (parse_all (t_contents u)) as [ts|]; cbn [rbind]; [|discriminate].
  destruct (decode_all c ts) as [vs|] eqn:D; cbn [rbind]; [|discriminate]. intros [= <-].
  exists ts, vs. split; [reflexivity|]. split; [reflexivity|]. apply decode_all_forall. exact D.
Qed.
Lemma setof_items c tg t v : decode (ASetOf c) tg t = Ok v ->
  exists ts vs, v = VList vs /\ items_of (ASetOf c) tg t = Ok ts /\ Forall2 (fun t v => decode c Untagged t = Ok v) ts vs.
Proof.
  rewrite decode_setof. unfold items_of. cbn [contents_of].
  destruct (expect tg true 17 t) as [u|]; cbn [rbind]; [|discriminate].
  destruct (parse_all (t_contents u)) as [ts|]; cbn [rbind]; [|discriminate].
  destruct (decode_all c ts) as [vs|] eqn:D; cbn [rbind]; [|discriminate]. intros [= <-].
  exists ts, vs. split; [reflexivity|]. split; [reflexivity|]. apply decode_all_forall. exact D.
Qed.

Lemma map_res_forall2 {A B C} (f : A -> res B) (P : A -> C -> Prop) (g : C -> B) :
  (forall x y, P x y -> f x = Ok (g y)) ->
  forall l k, Forall2 P l k -> map_res f l = Ok (map g k).
Proof.
  intros H l k F. induction F as [|x y l k Hx F IH]; [reflexivity|]. cbn [map_res map]. rewrite (H _ _ Hx). cbn [rbind].
  rewrite IH. reflexivity.
Qed.
Lemma forall2_map_r {A B C} (P : A -> B -> Prop) (g : C -> B) : forall l k,
  Forall2 P l (map g k) -> Forall2 (fun x y => P x (g y)) l k.
Proof.
  intros l k. revert l. induction k as [|y k IH]; cbn [map]; intros l H; inversion H; subst; constructor; auto.
Qed.

(** ** Key purposes *)

Lemma purposes_decode tg t l : decode ExtKeyUsageSyntax tg t = Ok (VList (map VPrim l)) ->
  purposes ExtKeyUsageSyntax tg t = Ok (map (oid_native key_purposes) l).
Proof.
  intros H. unfold ExtKeyUsageSyntax in *. destruct (seqof_items _ _ _ _ H) as (ts & vs & E & I & F). injection E as <-.
  unfold purposes. rewrite I. cbn [rbind]. apply forall2_map_r in F.
  refine (map_res_forall2 _ _ _ _ _ _ F). intros x y D. unfold read_oid. unfold aObjectIdentifier in *. rewrite (decode_prim _ _ _ _ D). reflexivity.
Qed.
Lemma usages_in_means b us : purposes_in b us -> usages_in b = Ok us.
Proof.
  intros (l & L & ->). apply written_load in L; [|apart]. unfold usages_in. unfold load in L. destruct (parse_tlv b) as [[t r]|]; cbn [rbind] in *; [|discriminate L].
  rewrite map_called. exact (purposes_decode _ _ _ L).
Qed.

(** ** Text *)

Lemma byte_of_Z_id z : 0 <= z < 256 -> Z_of_byte (byte_of_Z z) = z.
Proof. apply Z_of_byte_of_Z. Qed.

Lemma swap_unit z b : swap_octets (unit16 z ++ b) = byte_of_Z (z / 256) :: byte_of_Z (z mod 256) :: swap_octets b.
Proof. reflexivity. Qed.
Lemma unit_value z : 0 <= z < 65536 -> Z_of_byte (byte_of_Z (z / 256)) * 256 + Z_of_byte (byte_of_Z (z mod 256)) = z.
Proof.
  intros H. rewrite !byte_of_Z_id; [lia| |]. apply Z.mod_pos_bound; lia.
  split; [apply Z.div_pos; lia|apply Z.div_lt_upper_bound; lia].
Qed.

Lemma utf16_cons hi x y b : utf16 hi (x :: y :: b) =
  let c := Z_of_byte x * 256 + Z_of_byte y in
  match hi with
  | Some h =>
      if (56320 <=? c) && (c <? 57344)
      then let? l := utf16 None b in Ok (Z.to_N (65536 + (h - 55296) * 1024 + (c - 56320)) :: l)
      else decode_error
  | None =>
      if (55296 <=? c) && (c <? 56320) then utf16 (Some c) b
      else if (56320 <=? c) && (c <? 57344) then decode_error
      else let? l := utf16 None b in Ok (Z.to_N c :: l)
  end.
Proof. reflexivity. Qed.

Lemma utf16_point c b : scalar c ->
  utf16 None (swap_octets (point16 c ++ b)) = let? l := utf16 None (swap_octets b) in Ok (c :: l).
Proof.
  intros S. unfold scalar in S. unfold point16.
  destruct (Z.ltb_spec (Z.of_N c) 65536) as [L|L].
  - rewrite swap_unit, utf16_cons, unit_value by lia. cbv zeta.
    replace ((55296 <=? Z.of_N c) && (Z.of_N c <? 56320)) with false by (symmetry; apply Bool.andb_false_iff; rewrite Z.leb_gt, Z.ltb_ge; lia).
    replace ((56320 <=? Z.of_N c) && (Z.of_N c <? 57344)) with false by (symmetry; apply Bool.andb_false_iff; rewrite Z.leb_gt, Z.ltb_ge; lia).
    rewrite N2Z.id. reflexivity.
  - assert (Q : 0 <= (Z.of_N c - 65536) / 1024 < 1024) by (split; [apply Z.div_pos; lia|apply Z.div_lt_upper_bound; lia]).
    assert (R : 0 <= (Z.of_N c - 65536) mod 1024 < 1024) by (apply Z.mod_pos_bound; lia).
    rewrite <- app_assoc, swap_unit, utf16_cons, unit_value by lia. cbv zeta.
    replace ((55296 <=? 55296 + (Z.of_N c - 65536) / 1024) && (55296 + (Z.of_N c - 65536) / 1024 <? 56320)) with true
      by (symmetry; apply Bool.andb_true_iff; rewrite Z.leb_le, Z.ltb_lt; lia).
    rewrite swap_unit, utf16_cons, unit_value by lia. cbv zeta.
    replace ((56320 <=? 56320 + (Z.of_N c - 65536) mod 1024) && (56320 + (Z.of_N c - 65536) mod 1024 <? 57344)) with true
      by (symmetry; apply Bool.andb_true_iff; rewrite Z.leb_le, Z.ltb_lt; lia).
    replace (65536 + (55296 + (Z.of_N c - 65536) / 1024 - 55296) * 1024 + (56320 + (Z.of_N c - 65536) mod 1024 - 56320)) with (Z.of_N c).
    + rewrite N2Z.id. reflexivity.
    + pose proof (Z.div_mod (Z.of_N c - 65536) 1024 ltac:(lia)). lia.
Qed.
Lemma utf16_text u : Forall scalar u -> utf16 None (swap_octets (utf16_le u)) = Ok u.
Proof.
  intros F. induction F as [|c u S F IH]; [reflexivity|]. cbn [utf16_le flat_map]. fold (utf16_le u).
  rewrite utf16_point by exact S. rewrite IH. reflexivity.
Qed.
Lemma rstrip_nuls n : rstrip_nul (repeat 0%N n) = [].
Proof. induction n as [|n IH]; [reflexivity|]. cbn [repeat rstrip_nul]. rewrite IH. reflexivity. Qed.
Lemma rstrip_text u n : (forall u', u <> u' ++ [0%N]) -> rstrip_nul (u ++ repeat 0%N n) = u.
Proof.
  induction u as [|c u IH]; intros H; [apply rstrip_nuls|]. cbn [app rstrip_nul]. destruct u as [|d u].
  - cbn [app]. rewrite rstrip_nuls. destruct (N.eqb_spec c 0) as [->|]; [|reflexivity]. exfalso. exact (H [] eq_refl).
  - rewrite IH; [reflexivity|]. intros u' E. apply (H (c :: u')). rewrite E. reflexivity.
Qed.
Lemma ctl_string_means b u : text_in b u -> ctl_string b = Ok u.
Proof.
  intros (S & Z & n & ->). unfold ctl_string. rewrite utf16_text; [cbn [rbind]; rewrite rstrip_text by exact Z; reflexivity|].
  apply Forall_app. split; [exact S|]. apply Forall_forall. intros c I. apply repeat_spec in I. subst. left. reflexivity.
Qed.

(** ** Attributes *)

(** Attributes that mean the same to [subject_attr]. *)
Definition same_attr (a a' : ctl_attr) : Prop := forall s, subject_attr s a = subject_attr s a'.

Lemma forall2_map_res {A B} (f : A -> res B) (P : A -> B -> Prop) : (forall x y, P x y -> f x = Ok y) ->
  forall l k, Forall2 P l k -> map_res f l = Ok k.
Proof. intros H l k F. rewrite (map_res_forall2 f P (fun y => y) H l k F), map_id. reflexivity. Qed.

Lemma native_known names oid s : dict_get (dotted oid) names = Some s -> oid_native names oid = s.
Proof. unfold oid_native. intros ->. reflexivity. Qed.

(** The dotted form of an identifier is not a name. *)
Fixpoint plain (s : string) : bool :=
  match s with
  | EmptyString => true
  | String c s' => (let n := nat_of_ascii c in Nat.eqb n 46 || (Nat.leb 48 n && Nat.leb n 57)) && plain s'
  end.
Lemma plain_app s s' : plain s = true -> plain s' = true -> plain (s ++ s')%string = true.
Proof.
  induction s as [|c s IH]; intros H H'; [exact H'|]. cbn [plain append] in *. apply Bool.andb_true_iff in H. destruct H as [H1 H2].
  rewrite H1. cbn [andb]. apply IH; assumption.
Qed.
Lemma plain_uint u : plain (DecimalString.NilEmpty.string_of_uint u) = true.
Proof. induction u; cbn [DecimalString.NilEmpty.string_of_uint plain]; [reflexivity|exact IHu ..]. Qed.
Lemma plain_decimal z : plain (decimal z) = true.
Proof. apply plain_uint. Qed.
Lemma plain_join l : Forall (fun s => plain s = true) l -> plain (sjoin l) = true.
Proof.
  intros F. induction F as [|s l H F IH]; [reflexivity|]. destruct l as [|s' l]; [exact H|].
  change (plain (s ++ ("." ++ sjoin (s' :: l)))%string = true). apply plain_app; [exact H|]. apply plain_app; [reflexivity|exact IH].
Qed.
Lemma plain_dotted b : plain (dotted b) = true.
Proof.
  unfold dotted. destruct (oid_parts 0 b) as [|p l]; [reflexivity|].
  destruct (if 80 <=? p then (2, p - 80) else if 40 <=? p then (1, p - 40) else (0, p)) as [x y].
  apply plain_join. apply Forall_forall. intros s I. apply in_map_iff in I. destruct I as (z & <- & _). apply plain_decimal.
Qed.
Lemma native_other names oid s : plain s = false -> (forall d, In (d, s) names -> dotted oid <> d) -> oid_native names oid <> s.
Proof.
  unfold oid_native. intros P N E. destruct (dict_get (dotted oid) names) as [x|] eqn:G.
  - subst x. assert (I : In (dotted oid, s) names); [|exact (N _ I eq_refl)]. clear - G.
    induction names as [|[k v] names IH]; cbn [dict_get] in G; [discriminate|].
    destruct (String.eqb_spec (dotted oid) k) as [->|]; [injection G as <-; left; reflexivity|right; apply IH; exact G].
  - rewrite <- E, plain_dotted in P. discriminate P.
Qed.

Ltac eqbs :=
  repeat match goal with |- context [String.eqb ?a ?b] => let r := eval vm_compute in (String.eqb a b) in change (String.eqb a b) with r end; cbv iota.

Lemma attr_decode t oid vs a :
  decode SubjectAttribute Untagged t = Ok (VSeq [Some (VPrim oid); Some (VList (map VPrim vs))]) -> attr_means oid vs a ->
  exists a', read_ctl_attr t = Ok a' /\ same_attr a' a.
Proof.
  intros H M. unfold SubjectAttribute in H. destruct (decode_children _ _ _ _ H) as (b & vs' & d & E & C & K & Al). injection E as <-.
  destruct (aligned_read 0 _ _ _ _ _ _ _ _ (read_oid subject_attribute_types) Al ltac:(names) eq_refl eq_refl) as (t1 & D1 & _ & R1).
  destruct (aligned_read 1 _ _ _ _ _ _ _ _ (fun a tg t => let? l := items_of a tg t in map_res (contents_of aOctetString Untagged) l) Al ltac:(names) eq_refl eq_refl) as (t2 & D2 & _ & R2).
  destruct (setof_items _ _ _ _ D2) as (ts & ws & E & I & F). injection E as <-.
  fold SubjectAttribute in *. unfold read_ctl_attr. rewrite C. cbn [rbind]. rewrite K, R1, R2. rewrite I. cbn [rbind].
  apply forall2_map_r in F.
  rewrite (forall2_map_res (contents_of aOctetString Untagged) _ (fun x y D => decode_prim _ _ _ _ D) _ _ F). cbn [rbind].
  unfold read_oid. unfold aObjectIdentifier in *. rewrite (decode_prim _ _ _ _ D1). cbn [rbind].
  clear - M.
  destruct M as [us Hd Hv|us Hd Hv|Hd|Hd|Hd|Hd|us Hd Hv|us Hd Hv|Hd|us Hd Hv|s Hd];
    native_in Hd;
    try (match goal with |- context [oid_native subject_attribute_types oid] =>
           let s := eval vm_compute in (dict_get (dotted oid) subject_attribute_types) in
           rewrite (native_known subject_attribute_types oid _ (eq_trans (f_equal (fun x => dict_get x subject_attribute_types) Hd) ltac:(vm_compute; reflexivity)))
         end; eqbs;
         try rewrite (forall2_map_res usages_in _ usages_in_means _ _ Hv); try rewrite (forall2_map_res ctl_string _ ctl_string_means _ _ Hv);
         cbn [rbind]; eexists; split; [reflexivity|intros s; reflexivity]).
  assert (N : forall n, In n ["microsoft_ctl_enhkey_usage"; "microsoft_ctl_friendly_name"; "microsoft_ctl_key_identifier";
    "microsoft_ctl_subject_name_md5_hash"; "microsoft_ctl_auth_root_sha256_hash"; "microsoft_ctl_disallowed_filetime";
    "microsoft_ctl_root_program_chain_policies"; "microsoft_ctl_disallowed_enhkey_usage"; "microsoft_ctl_not_before_filetime";
    "microsoft_ctl_not_before_enhkey_usage"] -> String.eqb (oid_native subject_attribute_types oid) n = false).
  { intros n I. apply String.eqb_neq. cbn [In] in I.
    repeat (destruct I as [<-|I]; [apply native_other; [reflexivity|];
      intros d J E; apply Hd; rewrite E; clear - J; cbn [In subject_attribute_types] in J;
      repeat (destruct J as [J|J]; [first [discriminate J|injection J as <-; vm_compute; tauto]|]); contradiction|]). contradiction. }
  rewrite !N by (cbn [In]; tauto). eexists. split; [reflexivity|]. intros q. cbn [subject_attr]. reflexivity.
Qed.

(** ** Entries *)

Lemma sole_decode t v a : decode SubjectAttribute Untagged t = Ok v -> sole_attr v a ->
  exists a', read_ctl_attr t = Ok a' /\ same_attr a' a.
Proof. intros D (oid & vs & -> & M). exact (attr_decode _ _ _ _ D M). Qed.

Lemma attrs_decode : forall ts vs, Forall2 (fun t v => decode SubjectAttribute Untagged t = Ok v) ts vs ->
  forall l, Forall2 sole_attr vs l -> forall s, der_attrs s ts = subject_attrs s l.
Proof.
  intros ts vs F. induction F as [|t v ts vs D F IH]; intros l G s; inversion G as [|v' a vs' l0 M G' E1 E2]; subst; [reflexivity|].
  cbn [der_attrs subject_attrs]. destruct (sole_decode _ _ _ D M) as (a' & R & Sa). rewrite R. cbn [rbind]. rewrite (Sa s).
  destruct (subject_attr s a) as [s'|]; cbn [rbind]; [|reflexivity]. apply IH. exact G'.
Qed.

Lemma entry_decode t v r : decode TrustedSubject Untagged t = Ok v -> entry_means v r -> der_subject t = parse_subject r.
Proof.
  intros H (o & -> & M). unfold TrustedSubject in H. destruct (decode_children _ _ _ _ H) as (b & vs' & d & E & C & K & Al). injection E as <-.
  destruct (aligned_read 0 _ _ _ _ _ _ _ _ contents_of Al ltac:(names) eq_refl eq_refl) as (t1 & D1 & _ & R1).
  pose proof (aligned_read 1 _ _ _ _ _ _ _ _ items_of Al ltac:(names) eq_refl eq_refl) as R2.
  fold TrustedSubject in *. unfold der_subject. rewrite C. cbn [rbind]. rewrite K, R1.
  unfold aOctetString in D1 |- *. rewrite (decode_prim _ _ _ _ D1). cbn [rbind]. unfold parse_subject.
  destruct o as [x|].
  - destruct M as (l & -> & F). destruct R2 as (t2 & D2 & R2 & _). rewrite R2. clear R1 R2 K C.
    destruct (setof_items _ _ _ _ D2) as (ts & ws & E & I & F'). injection E as <-. rewrite I. cbn [rbind].
    exact (attrs_decode _ _ F' _ F _).
  - rewrite R2, M. reflexivity.
Qed.

Lemma entries_decode : forall ts vs, Forall2 (fun t v => decode TrustedSubject Untagged t = Ok v) ts vs ->
  forall rs, Forall2 entry_means vs rs -> forall d, der_subjects d ts = parse_subjects d rs.
Proof.
  intros ts vs F. induction F as [|t v ts vs D F IH]; intros rs G d; inversion G as [|v' a vs' l0 M G' E1 E2]; subst; [reflexivity|].
  cbn [der_subjects parse_subjects]. rewrite (entry_decode _ _ _ D M). destruct (parse_subject a) as [s|]; cbn [rbind]; [|reflexivity].
  apply IH. exact G'.
Qed.

(** ** Lists *)

Lemma be_zero b : be_to_Z b = 0 <-> Forall (eq x00) b.
Proof.
  assert (P : forall c, 0 <= be_to_Z c).
  { intros c. induction c as [|x c IH] using rev_ind; [discriminate|]. rewrite ProofsPrim.be_snoc. pose proof (Z_of_byte_range x). lia. }
  induction b as [|x b IH] using rev_ind; [split; [constructor|reflexivity]|].
  rewrite ProofsPrim.be_snoc, Forall_app. pose proof (Z_of_byte_range x) as Rx. pose proof (P b) as Pb.
  split.
  - intros E. split; [apply IH; lia|]. constructor; [|constructor]. apply Z_of_byte_inj. change (Z_of_byte x00) with 0. lia.
  - intros [F G]. apply IH in F. inversion G as [|y l E G' Q]; subst. rewrite F. reflexivity.
Qed.
Lemma truthy_is t : truthy t = false <-> no_value t.
Proof.
  unfold truthy, no_value. destruct (Z.eqb_spec (t_class t) 0) as [C|C]; cbn [negb]; [|split; [discriminate|tauto]].
  destruct (Z.eqb_spec (t_tag t) 5) as [T|T]; [split; [tauto|reflexivity]|].
  destruct ((t_tag t =? 1) || (t_tag t =? 2)) eqn:E.
  - rewrite negb_false_iff, Z.eqb_eq, be_zero. split; [intros F; split; [exact C|right; left; split; [lia|exact F]]|].
    intros (_ & [H|[[_ F]|(H1 & H2 & _)]]); [contradiction|exact F|lia].
  - rewrite negb_false_iff, Z.eqb_eq. unfold zlen. split.
    + intros L. split; [exact C|]. right; right. split; [lia|]. split; [lia|]. destruct (t_contents t); [reflexivity|cbn [length] in L; lia].
    + intros (_ & [H|[[H _]|(_ & _ & ->)]]); [contradiction|lia|reflexivity].
Qed.
Lemma params_is p t : (p = false <-> no_value t) -> p = truthy t.
Proof. rewrite <- truthy_is. destruct p, (truthy t); intuition congruence. Qed.

Lemma alg_decode tg t v a : decode AlgorithmIdentifier tg t = Ok v -> alg_means v a ->
  lz_digest_algorithm (read_algid digest_algorithms AlgorithmIdentifier tg t) = get_digest_algorithm a.
Proof.
  intros H (oid & o & -> & N & P). native_in N. unfold AlgorithmIdentifier in H. destruct (decode_children _ _ _ _ H) as (b & vs' & d & E & C & K & Al). injection E as <-.
  destruct (aligned_read 0 _ _ _ _ _ _ _ _ (read_oid digest_algorithms) Al ltac:(names) eq_refl eq_refl) as (t1 & D1 & _ & R1).
  pose proof (aligned_read 1 _ _ _ _ _ _ _ _ (fun _ _ t => Ok (truthy t)) Al ltac:(names) eq_refl eq_refl) as R2.
  fold AlgorithmIdentifier in *. unfold read_algid. rewrite C. cbn [rbind]. rewrite K. unfold lz_digest_algorithm. cbn [la_name la_params].
  rewrite R1. unfold read_oid. unfold aObjectIdentifier in D1 |- *. rewrite (decode_prim _ _ _ _ D1). cbn [rbind].
  unfold get_digest_algorithm. rewrite <- N. destruct (negb (str_mem (alg_name a) accepted_digest_algorithms)); [reflexivity|].
  destruct o as [x|].
  - destruct P as (u & -> & P). destruct R2 as (t2 & D2 & R2 & _). rewrite R2. cbn [rbind].
    cbn [decode] in D2. cbn [unwrap rbind] in D2. injection D2 as <-. rewrite (params_is _ _ P). reflexivity.
  - rewrite R2, P. reflexivity.
Qed.

Lemma time_decode tg t v z : decode Time tg t = Ok v -> time_means v z -> read_time Time tg t = Ok z.
Proof.
  intros H (n & b & -> & T). apply time_is in T. unfold Time in *. rewrite decode_choice in H. unfold read_time, choice_of.
  destruct (unwrap tg t) as [u|]; cbn [rbind] in *; [|discriminate H].
  cbn [decode_alts find_alt] in *.
  destruct (id_in u (first_ids (APrim 23) Untagged)).
  - destruct (decode (APrim 23) Untagged u) as [w|] eqn:D; cbn [rbind] in H; [|discriminate H]. injection H as <- ->.
    rewrite (decode_prim _ _ _ _ D). exact T.
  - destruct (id_in u (first_ids (APrim 24) Untagged)); [|discriminate H].
    destruct (decode (APrim 24) Untagged u) as [w|] eqn:D; cbn [rbind] in H; [|discriminate H]. injection H as <- ->.
    rewrite (decode_prim _ _ _ _ D). exact T.
Qed.

Lemma list_decode t v r alg certs : decode CertificateTrustList Untagged t = Ok v -> list_means v r ->
  exists b, contents_of CertificateTrustList Untagged t = Ok b /\
    der_list alg certs b =
    (let? x := parse_ctl (rl_algorithm r) (rl_subjects r) in
     Ok (mkTrustList alg certs (rl_usage r) (rl_identifier r) (rl_sequence r) (rl_this_update r) (rl_next_update r) x)).
Proof.
  intros H (version & usages & identifier & sequence & this & next & al & subjects & extensions & -> & Hu & Hi & Hs & Ht & Hn & Ha & He).
  unfold CertificateTrustList in H. destruct (decode_children _ _ _ _ H) as (b & vs' & d & E & C & K & Al). injection E as <-.
  destruct (aligned_read 1 _ _ _ _ _ _ _ _ purposes Al ltac:(names) eq_refl eq_refl) as (t1 & D1 & _ & R1).
  pose proof (aligned_read 2 _ _ _ _ _ _ _ _ contents_of Al ltac:(names) eq_refl eq_refl) as R2.
  pose proof (aligned_read 3 _ _ _ _ _ _ _ _ read_int Al ltac:(names) eq_refl eq_refl) as R3.
  destruct (aligned_read 4 _ _ _ _ _ _ _ _ read_time Al ltac:(names) eq_refl eq_refl) as (t4 & D4 & _ & R4).
  pose proof (aligned_read 5 _ _ _ _ _ _ _ _ read_time Al ltac:(names) eq_refl eq_refl) as R5.
  destruct (aligned_read 6 _ _ _ _ _ _ _ _ (algid_ok digest_algorithms) Al ltac:(names) eq_refl eq_refl) as (t6 & D6 & _ & R6).
  pose proof (aligned_read 7 _ _ _ _ _ _ _ _ items_of Al ltac:(names) eq_refl eq_refl) as R7.
  clear Al. fold CertificateTrustList in *. exists b. split; [exact C|]. clear C H.
  unfold der_list. rewrite K. cbv zeta. rewrite R1, (purposes_decode _ _ _ D1). cbn [rbind]. rewrite <- map_called, <- Hu.
  assert (Q2 : read_field CertificateTrustList (Ok d) "list_identifier" contents_of = Ok (rl_identifier r)).
  { destruct identifier as [x|], (rl_identifier r) as [y|]; try contradiction Hi; [|exact R2].
    cbn [maybe] in Hi. unfold octets_mean in Hi. subst x. destruct R2 as (t2 & D2 & R2 & _). rewrite R2. unfold aOctetString in D2 |- *. rewrite (decode_prim _ _ _ _ D2). reflexivity. }
  rewrite Q2. cbn [rbind].
  assert (Q3 : read_field CertificateTrustList (Ok d) "sequence_number" read_int = Ok (rl_sequence r)).
  { destruct sequence as [x|], (rl_sequence r) as [y|]; try contradiction Hs; [|exact R3].
    destruct Hs as (z & -> & ->). rewrite integer_is. destruct R3 as (t2 & D2 & R3 & _). rewrite R3. unfold read_int. unfold aInteger in D2 |- *. rewrite (decode_prim _ _ _ _ D2). reflexivity. }
  rewrite Q3. cbn [rbind]. rewrite R4, (time_decode _ _ _ _ D4 Ht). cbn [rbind].
  assert (Q5 : read_field CertificateTrustList (Ok d) "ctl_next_update" read_time = Ok (rl_next_update r)).
  { destruct next as [x|], (rl_next_update r) as [y|]; try contradiction Hn; [|exact R5].
    destruct R5 as (t2 & D2 & R5 & _). rewrite R5, (time_decode _ _ _ _ D2 Hn). reflexivity. }
  rewrite Q5. cbn [rbind]. rewrite R6. unfold algid_ok. cbn [rbind]. rewrite (alg_decode _ _ _ _ D6 Ha).
  unfold parse_ctl. destruct (get_digest_algorithm (rl_algorithm r)) as [sa|]; cbn [rbind]; [|reflexivity].
  assert (Q7 : (let? o := read_field CertificateTrustList (Ok d) "trusted_subjects" items_of in
                der_subjects [] (match o with Some l => l | None => [] end)) = parse_subjects [] (rl_subjects r)).
  { destruct subjects as [x|]; red in He.
    - destruct He as (l & -> & F). destruct R7 as (t2 & D2 & R7 & _). rewrite R7.
      destruct (seqof_items _ _ _ _ D2) as (ts & ws & E & I & F'). injection E as <-. rewrite I. cbn [rbind].
      exact (entries_decode _ _ F' _ F _).
    - rewrite R7, He. reflexivity. }
  clear - Q7. destruct (read_field CertificateTrustList (Ok d) "trusted_subjects" items_of) as [o|e]; cbn [rbind] in *.
  - rewrite Q7. destruct (parse_subjects [] (rl_subjects r)); reflexivity.
  - rewrite <- Q7. reflexivity.
Qed.

(** ** Files *)

Definition same_field (f f' : string * (asn * (tagging * presence))) : Prop :=
  fst f = fst f' /\ snd (snd (snd f)) = snd (snd (snd f')) /\
  first_ids (fst (snd f)) (fst (snd (snd f))) = first_ids (fst (snd f')) (fst (snd (snd f'))).
Lemma match_fields_same : forall fs fs', Forall2 same_field fs fs' -> forall l, match_fields fs l = match_fields fs' l.
Proof.
  intros fs fs' F. induction F as [|[n [x [tg p]]] [n' [x' [tg' p']]] fs fs' (E1 & E2 & E3) F IH]; intros l; [reflexivity|].
  cbn [fst snd] in *. subst n' p'. destruct l as [|t l]; destruct p; cbn [match_fields]; rewrite ?IH; try reflexivity; rewrite E3; destruct (id_in t _); rewrite ?IH; reflexivity.
Qed.
Lemma children_same fs fs' b : Forall2 same_field fs fs' -> children (ASeq fs) b = children (ASeq fs') b.
Proof. intros F. unfold children. destruct (parse_all b) as [l|]; cbn [rbind]; [|reflexivity]. exact (match_fields_same _ _ F l). Qed.

Lemma read_at {A} a d n x tg p t (k : asn -> tagging -> tlv -> res A) :
  dict_get n d = Some (Some t) -> dict_get n (seq_fields a) = Some (x, (tg, p)) ->
  read_field a (Ok d) n k = (let? y := k x tg t in Ok (Some y)) /\ read a (Ok d) n k = k x tg t.
Proof.
  intros H H'. unfold read, read_field. cbn [rbind]. rewrite H, H'. split; [reflexivity|].
  destruct (k x tg t); reflexivity.
Qed.
Lemma read_absent {A} a d n (k : asn -> tagging -> tlv -> res A) : dict_get n d = Some None -> read_field a (Ok d) n k = Ok None.
Proof. intros H. unfold read_field. cbn [rbind]. rewrite H. reflexivity. Qed.

Lemma version_one b : String.eqb (version_native 0 b) "v1" = (int_native b =? 1).
Proof.
  unfold version_native. rewrite Z.add_0_r. set (v := int_native b).
  destruct (Z.leb_spec 0 v); cbn [andb].
  - destruct (Z.leb_spec v 5).
    + assert (C : v = 0 \/ v = 1 \/ v = 2 \/ v = 3 \/ v = 4 \/ v = 5) by lia.
      repeat (destruct C as [->|C]; [reflexivity|]). rewrite C. reflexivity.
    + transitivity false; [|symmetry; apply Z.eqb_neq; lia]. apply String.eqb_neq. intros E.
      pose proof (plain_decimal (Z.abs v)) as P. rewrite E in P. discriminate P.
  - transitivity false; [|symmetry; apply Z.eqb_neq; lia]. apply String.eqb_neq. intros E.
    pose proof (plain_decimal (Z.abs v)) as P. rewrite E in P. discriminate P.
Qed.

Lemma expect_explicit n con tag t : expect (Explicit n) con tag t = (let? u := unwrap (Explicit n) t in expect Untagged con tag u).
Proof. unfold expect at 1. destruct (unwrap (Explicit n) t) as [u|]; reflexivity. Qed.

(** A value in an explicit tag. *)
Lemma decode_inside fs n t v : decode (ASeq fs) (Explicit n) t = Ok v ->
  exists u, unwrap (Explicit n) t = Ok u /\ decode (ASeq fs) Untagged u = Ok v.
Proof.
  rewrite !decode_seq, expect_explicit. destruct (unwrap (Explicit n) t) as [u|]; cbn [rbind]; [|discriminate].
  intros H. exists u. split; [reflexivity|]. rewrite decode_seq. exact H.
Qed.

Lemma native_signed o : oid_text o = "1.2.840.113549.1.7.2" -> oid_native content_types o = "signed_data".
Proof. intros H. native. unfold oid_native. rewrite H. reflexivity. Qed.
Lemma native_ctl o : oid_text o = "1.3.6.1.4.1.311.10.1" -> oid_native content_types o = "microsoft_ctl".
Proof. intros H. native. unfold oid_native. rewrite H. reflexivity. Qed.

Lemma any_items l : forall ts, Forall2 (fun t v => decode AAny Untagged t = Ok v) l (map VAny ts) -> l = ts.
Proof.
  induction l as [|t l IH]; intros [|u ts] F; inversion F as [|t' v' l' k' D F' E1 E2]; subst; [reflexivity|].
  cbn [decode unwrap rbind] in D. injection D as ->. f_equal. apply IH. exact F'.
Qed.

Definition encap_fields (body : asn) := [field "content_type" aObjectIdentifier; field_with "content" body (Explicit 0) Optional].

(** The certificates that can be read of those in the file. *)
Definition can_read (ts : list tlv) (cs : list raw_choice) : Prop :=
  exists found, lz_certificates (map read_choice ts) = Ok found /\ SpecPkcs7.certificates_of cs found.

(** What is read of the SignedData, apart from the content. *)
Lemma signed_decode body u b x typ content certs crls signers alg cs :
  decode (StlSignedData body) Untagged u =
    Ok (VSeq [Some (VPrim b); Some (VList [x]); Some (VSeq [Some (VPrim typ); Some content]); certs; crls; signers]) ->
  oid_text typ = "1.3.6.1.4.1.311.10.1" -> alg_means x alg -> certificates_mean can_read certs cs ->
  exists c tc d,
    contents_of SignedData Untagged u = Ok c /\
    decode body (Explicit 0) tc = Ok content /\ dict_get "content" d = Some (Some tc) /\
    der_list_content c =
      (if int_native b =? 1 then
         let? o := read_field ContentInfo (Ok d) "content" (fun _ tg t => unwrap tg t) in
         match o with
         | None => Ok None
         | Some u => let? b := contents_of CertificateTrustList Untagged u in Ok (Some b)
         end
       else
         let? o := read_field EncapsulatedContentInfo (Ok d) "content" contents_of in
         match o with
         | None => Ok None
         | Some octets =>
             let? (u, _) := parse_tlv octets in
             let? b := contents_of CertificateTrustList Untagged u in Ok (Some b)
         end) /\
    der_trust_list c =
      (let? a := get_digest_algorithm alg in
       let? content := der_list_content c in
       match content with
       | None => raise TypeError "'NoValue' object is not subscriptable"
       | Some b => der_list a (the_certificates cs) b
       end).
Proof.
  intros H Ht Ha Hc. unfold StlSignedData in H. destruct (decode_children _ _ _ _ H) as (c & vs' & d & E & C & K & Al). injection E as <-. clear H.
  destruct (aligned_get 0 _ _ _ _ _ _ _ _ Al ltac:(names) eq_refl eq_refl) as (_ & t0 & G0 & D0).
  destruct (aligned_get 1 _ _ _ _ _ _ _ _ Al ltac:(names) eq_refl eq_refl) as (_ & t1 & G1 & D1).
  destruct (aligned_get 2 _ _ _ _ _ _ _ _ Al ltac:(names) eq_refl eq_refl) as (_ & t2 & G2 & D2).
  destruct (aligned_get 3 _ _ _ _ _ _ _ _ Al ltac:(names) eq_refl eq_refl) as (_ & G3).
  clear Al.
  destruct (decode_children _ _ _ _ D2) as (c2 & vs2 & d2 & E & C2 & K2 & Al2). injection E as <-. clear D2.
  destruct (aligned_get 0 _ _ _ _ _ _ _ _ Al2 ltac:(names) eq_refl eq_refl) as (_ & t3 & G4 & D4).
  destruct (aligned_get 1 _ _ _ _ _ _ _ _ Al2 ltac:(names) eq_refl eq_refl) as (_ & tc & G5 & D5).
  clear Al2. exists c, tc, d2. split; [exact C|]. split; [exact D5|]. split; [exact G5|].
  assert (KS : children SignedData c = Ok d).
  { rewrite <- K. apply children_same. repeat (constructor; [split; [reflexivity|split; reflexivity]|]). constructor. }
  assert (KC : children ContentInfo c2 = Ok d2).
  { rewrite <- K2. apply children_same. repeat (constructor; [split; [reflexivity|split; [reflexivity|destruct body; reflexivity]]|]). constructor. }
  assert (KE : children EncapsulatedContentInfo c2 = Ok d2).
  { rewrite <- K2. apply children_same. repeat (constructor; [split; [reflexivity|split; [reflexivity|destruct body; reflexivity]]|]). constructor. }
  split.
  - unfold der_list_content. rewrite KS. cbv zeta. rewrite (proj2 (read_at SignedData d "version" _ _ _ t0 _ G0 eq_refl)). unfold aInteger in D0 |- *.
    rewrite (decode_prim _ _ _ _ D0). cbn [rbind].
    rewrite (proj2 (read_at SignedData d "encap_content_info" _ _ _ t2 _ G2 eq_refl)).
    change (contents_of (ASeq []) Untagged t2) with (contents_of (ASeq (encap_fields body)) Untagged t2). unfold encap_fields.
    rewrite C2. cbn [rbind]. rewrite version_one, KC, KE. reflexivity.
  - unfold der_trust_list. cbn [read_sd]. rewrite KS.
    rewrite (proj2 (read_at SignedData d "version" _ _ _ t0 _ G0 eq_refl)). unfold aInteger in D0 |- *.
    rewrite (decode_prim _ _ _ _ D0). cbn [rbind].
    rewrite (proj2 (read_at SignedData d "digest_algorithms" _ _ _ t1 _ G1 eq_refl)).
    destruct (setof_items _ _ _ _ D1) as (ts & ws & E & I & F). injection E as <-. rewrite I. cbn [rbind].
    inversion F as [|tx x' ts0 ws0 DX F0 E1 E2]. subst. inversion F0. subst. cbn [map].
    rewrite (alg_decode _ _ _ _ DX Ha). destruct (get_digest_algorithm alg) as [a|]; cbn [rbind]; [|reflexivity].
    rewrite (proj2 (read_at SignedData d "encap_content_info" _ _ _ t2 _ G2 eq_refl)).
    change (contents_of (ASeq []) Untagged t2) with (contents_of (ASeq (encap_fields body)) Untagged t2). unfold encap_fields.
    rewrite C2. cbn [rbind]. rewrite KC. rewrite (proj2 (read_at ContentInfo d2 "content_type" _ _ _ t3 _ G4 eq_refl)).
    unfold read_oid. unfold aObjectIdentifier in D4 |- *. rewrite (decode_prim _ _ _ _ D4). cbn [rbind].
    rewrite (native_ctl _ Ht). rewrite String.eqb_refl. cbn [rbind].
    destruct (der_list_content c) as [ct|]; cbn [rbind]; [|reflexivity].
    destruct certs as [xc|].
    + destruct Hc as (us & -> & found & L & Cf). apply ProofsPkcs7.certificates_ok in Cf. subst found. destruct G3 as (t6 & G3 & D6).
      destruct (setof_items _ _ _ _ D6) as (ts & ws & E & I' & F'). injection E as <-. apply any_items in F'. subst ts.
      rewrite (proj1 (read_at SignedData d "certificates" _ _ _ t6 items_of G3 eq_refl)).
      change (items_of (ASetOf CertificateChoices) (Implicit 0) t6) with (items_of (ASetOf AAny) (Implicit 0) t6). rewrite I'. cbn [rbind].
      rewrite L. reflexivity.
    + rewrite (read_absent SignedData d "certificates" items_of G3). cbn [rbind]. red in Hc. subst cs. reflexivity.
Qed.

Lemma load_inv a b v : load a b = Ok v -> exists t r, parse_tlv b = Ok (t, r) /\ decode a Untagged t = Ok v.
Proof. unfold load. destruct (parse_tlv b) as [[t r]|]; cbn [rbind]; [|discriminate]. intros H. exists t, r. split; [reflexivity|exact H]. Qed.

Lemma file_distinct body : distinct body -> distinct (StlFile body).
Proof.
  intros D. unfold StlFile, StlSignedData, field, field_with.
  repeat match goal with
  | |- distinct body => exact D
  | |- Forall _ _ => constructor
  | |- distinct ?x => let y := eval hnf in x in change x with y; constructor
  | |- distinct_fields _ => constructor
  | |- distinct_alts _ => constructor
  end;
  intros; intro; told.
Qed.

(** The whole file. *)
Lemma file_decode other data body version alg content cs :
  distinct body -> stl_file can_read data body version alg content cs ->
  exists c tc d,
    decode body (Explicit 0) tc = Ok content /\ dict_get "content" d = Some (Some tc) /\
    der_list_content c =
      (if version =? 1 then
         let? o := read_field ContentInfo (Ok d) "content" (fun _ tg t => unwrap tg t) in
         match o with
         | None => Ok None
         | Some u => let? b := contents_of CertificateTrustList Untagged u in Ok (Some b)
         end
       else
         let? o := read_field EncapsulatedContentInfo (Ok d) "content" contents_of in
         match o with
         | None => Ok None
         | Some octets =>
             let? (u, _) := parse_tlv octets in
             let? b := contents_of CertificateTrustList Untagged u in Ok (Some b)
         end) /\
    der_open_list other data =
      (let? a := get_digest_algorithm alg in
       let? content := der_list_content c in
       match content with
       | None => raise TypeError "'NoValue' object is not subscriptable"
       | Some b => der_list a (the_certificates cs) b
       end).
Proof.
  intros Db (o & b & x & typ & certs & crls & signers & L & Ho & Ht & Hv & Ha & Hc). rewrite integer_is in Hv.
  apply written_load in L; [|exact (file_distinct body Db)].
  destruct (load_inv _ _ _ L) as (t & r & P & D). clear L. unfold StlFile in D.
  destruct (decode_children _ _ _ _ D) as (c0 & vs' & d0 & E & C & K & Al). injection E as <-. clear D.
  destruct (aligned_get 0 _ _ _ _ _ _ _ _ Al ltac:(names) eq_refl eq_refl) as (_ & t0 & G0 & D0).
  destruct (aligned_get 1 _ _ _ _ _ _ _ _ Al ltac:(names) eq_refl eq_refl) as (_ & t1 & G1 & D1).
  clear Al. unfold StlSignedData in D1. destruct (decode_inside _ _ _ _ D1) as (u & U & D2). fold (StlSignedData body) in D2. clear D1.
  destruct (signed_decode _ _ _ _ _ _ _ _ _ _ _ D2 Ht Ha Hc) as (c & tc & d & Cu & Dc & G & L & T).
  exists c, tc, d. split; [exact Dc|]. split; [exact G|]. split; [rewrite <- Hv; exact L|].
  unfold der_open_list. rewrite P. cbn [rbind].
  change (contents_of ContentInfo Untagged t) with
    (contents_of (ASeq [field "content_type" aObjectIdentifier; field_with "content" (StlSignedData body) (Explicit 0) Optional]) Untagged t).
  rewrite C. cbn [rbind].
  assert (KC : children ContentInfo c0 = Ok d0).
  { rewrite <- K. apply children_same. repeat (constructor; [split; [reflexivity|split; reflexivity]|]). constructor. }
  cbv zeta. rewrite KC. rewrite (proj2 (read_at ContentInfo d0 "content_type" _ _ _ t0 _ G0 eq_refl)).
  unfold read_oid. unfold aObjectIdentifier in D0 |- *. rewrite (decode_prim _ _ _ _ D0). cbn [rbind]. rewrite (native_signed _ Ho).
  rewrite String.eqb_refl. cbn [negb]. unfold der_ci_content.
  rewrite (proj1 (read_at ContentInfo d0 "content" _ _ _ t1 _ G1 eq_refl)). rewrite U. cbn [rbind]. rewrite Cu. cbn [rbind]. exact T.
Qed.

Theorem file_means other data alg cs r : holds_list can_read data alg cs r ->
  der_open_list other data = parse_trust_list [alg] "microsoft_ctl" (Some r) cs.
Proof.
  intros H. unfold parse_trust_list. rewrite String.eqb_refl. cbn [rbind].
  destruct H as [(v & F & M)|(version & b & v & N & F & L & M)].
  - assert (Db : distinct CertificateTrustList) by apart.
    destruct (file_decode other _ _ _ _ _ _ Db F) as (c & tc & d & D & G & Lc & T). rewrite T.
    destruct (get_digest_algorithm alg) as [a|]; cbn [rbind]; [|reflexivity].
    rewrite Lc. cbv [Z.eqb Pos.eqb]. cbv iota.
    unfold CertificateTrustList in D. destruct (decode_inside _ _ _ _ D) as (u & U & D'). fold CertificateTrustList in D'.
    rewrite (proj1 (read_at ContentInfo d "content" _ _ _ tc _ G eq_refl)). rewrite U. cbn [rbind].
    destruct (list_decode _ _ _ a (the_certificates cs) D' M) as (b & Cb & Lb). rewrite Cb. cbn [rbind]. exact Lb.
  - apply written_load in L; [|apart]. assert (Db : distinct aOctetString) by constructor. destruct (file_decode other _ _ _ _ _ _ Db F) as (c & tc & d & D & G & Lc & T). rewrite T.
    destruct (get_digest_algorithm alg) as [a|]; cbn [rbind]; [|reflexivity].
    rewrite Lc. destruct (Z.eqb_spec version 1); [contradiction|].
    rewrite (proj1 (read_at EncapsulatedContentInfo d "content" _ _ _ tc _ G eq_refl)). unfold aOctetString in D |- *.
    rewrite (decode_prim _ _ _ _ D). cbn [rbind]. destruct (load_inv _ _ _ L) as (u & r0 & P & D'). rewrite P. cbn [rbind].
    destruct (list_decode _ _ _ a (the_certificates cs) D' M) as (b' & Cb & Lb). rewrite Cb. cbn [rbind]. exact Lb.
Qed.
