(** Proofs about the parsing of signatures: C51, C53. *)
From Verif Require Import Base Bytes Monad ModelX509 SpecX509 ProofsX509b ModelPkcs7 SpecPkcs7.
From Coq Require Import ZifyBool ZifyNat.

(** ** DER lengths *)

Lemma be_value_app l b : be_value (l ++ [b]) = 256 * be_value l + Z_of_byte b.
Proof. unfold be_value. rewrite fold_left_app. reflexivity. Qed.

Lemma be_bytes_app f n acc : be_bytes f n acc = be_bytes f n [] ++ acc.
Proof.
  revert n acc. induction f as [|f IH]; intros n acc; cbn [be_bytes]; [reflexivity|].
  destruct (n =? 0); [reflexivity|].
  rewrite IH, (IH (n / 256) [_]), <- app_assoc. reflexivity.
Qed.

Lemma be_bytes_step f n :
  n <> 0 -> be_bytes (S f) n [] = be_bytes f (n / 256) [] ++ [byte_of_Z (n mod 256)].
Proof.
  intros Hn. cbn [be_bytes]. destruct (Z.eqb_spec n 0); [contradiction|]. apply be_bytes_app.
Qed.

Lemma be_bytes_spec f n :
  0 < n < 256 ^ Z.of_nat f ->
  exists x l, be_bytes f n [] = x :: l /\ be_value (x :: l) = n /\ Z_of_byte x <> 0 /\
              256 ^ (zlen (x :: l) - 1) <= n < 256 ^ zlen (x :: l).
Proof.
  revert n. induction f as [|f IH]; intros n Hn; [cbn in Hn; lia|].
  rewrite be_bytes_step by lia.
  assert (0 <= n mod 256 < 256) by (apply Z.mod_pos_bound; lia).
  pose proof (Z.div_mod n 256 ltac:(lia)) as Hd.
  assert (Hp : 256 ^ Z.of_nat (S f) = 256 * 256 ^ Z.of_nat f) by
    (rewrite Nat2Z.inj_succ, Z.pow_succ_r by lia; reflexivity).
  rewrite Hp in Hn.
  destruct (Z.eq_dec (n / 256) 0) as [Hz|Hz].
  - exists (byte_of_Z (n mod 256)), []. rewrite Hz.
    assert (be_bytes f 0 [] = []) as -> by (destruct f; reflexivity).
    unfold zlen, be_value; cbn [app length fold_left]. rewrite Z_of_byte_of_Z by lia.
    change (256 ^ (Z.of_nat 1 - 1)) with 1. change (256 ^ Z.of_nat 1) with 256.
    repeat split; lia.
  - assert (0 < n / 256 < 256 ^ Z.of_nat f) as Hq.
    { split; [pose proof (Z.div_pos n 256 ltac:(lia) ltac:(lia)); lia|].
      apply Z.div_lt_upper_bound; lia. }
    destruct (IH _ Hq) as (x & l & E & V & X & B).
    exists x, (l ++ [byte_of_Z (n mod 256)]). rewrite E.
    split; [reflexivity|]. rewrite !app_comm_cons, be_value_app, V, Z_of_byte_of_Z by lia.
    split; [lia|]. split; [assumption|].
    assert (zlen ((x :: l) ++ [byte_of_Z (n mod 256)]) = zlen (x :: l) + 1) as ->
      by (unfold zlen; rewrite app_length; cbn [length]; lia).
    assert (0 < zlen (x :: l)) by (unfold zlen; cbn [length]; lia).
    replace (zlen (x :: l) + 1 - 1) with (Z.succ (zlen (x :: l) - 1)) by lia.
    rewrite Z.pow_succ_r by lia. rewrite Z.pow_add_r by lia. change (256 ^ 1) with 256. lia.
Qed.

Lemma log2_fuel n : 0 < n -> n < 256 ^ Z.of_nat (S (Z.to_nat (Z.log2 n))).
Proof.
  intros Hn. pose proof (Z.log2_nonneg n). pose proof (Z.log2_spec n Hn) as [_ Hu].
  rewrite Nat2Z.inj_succ, Z2Nat.id by lia.
  eapply Z.lt_le_trans; [exact Hu|]. apply Z.pow_le_mono_l. lia.
Qed.

(** The number of length octets. *)
Lemma der_length_spec n :
  0 <= n ->
  (n < 128 /\ der_length n = [byte_of_Z n]) \/
  (128 <= n /\ exists x l, der_length n = byte_of_Z (128 + zlen (x :: l)) :: x :: l /\
     be_value (x :: l) = n /\ Z_of_byte x <> 0 /\
     256 ^ (zlen (x :: l) - 1) <= n < 256 ^ zlen (x :: l)).
Proof.
  intros Hn. unfold der_length. destruct (Z.ltb_spec n 128); [left; auto|right].
  split; [assumption|].
  destruct (be_bytes_spec (S (Z.to_nat (Z.log2 n))) n) as (x & l & E & R).
  { split; [lia|]. apply log2_fuel. lia. }
  exists x, l. rewrite E. auto.
Qed.

Lemma der_length_der n : 0 <= n < 256 ^ 126 -> der_len n (der_length n).
Proof.
  intros Hn. destruct (der_length_spec n) as [[H ->]|(H & x & l & -> & V & X & B)]; [lia| |].
  - apply der_short; [lia|]. apply Z_of_byte_of_Z. lia.
  - assert (zlen (x :: l) <= 126).
    { destruct (Z.le_gt_cases (zlen (x :: l)) 126); [assumption|exfalso].
      assert (256 ^ 126 <= 256 ^ (zlen (x :: l) - 1)) by (apply Z.pow_le_mono_r; lia). lia. }
    assert (0 <= zlen (x :: l)) by (unfold zlen; lia).
    apply der_long; try assumption. apply Z_of_byte_of_Z. lia.
Qed.

Lemma der_length_mono n m : 0 <= n <= m -> zlen (der_length n) <= zlen (der_length m).
Proof.
  intros H.
  destruct (der_length_spec n) as [[Hn ->]|(Hn & x & l & -> & _ & _ & B)]; [lia| |];
    (destruct (der_length_spec m) as [[Hm ->]|(Hm & y & k & -> & _ & _ & C)]; [lia| |]).
  - unfold zlen; cbn [length]; lia.
  - unfold zlen; cbn [length]; lia.
  - lia.
  - destruct (Z.le_gt_cases (zlen (x :: l)) (zlen (y :: k))) as [L|L];
      [unfold zlen in *; cbn [length] in *; lia|exfalso].
    assert (256 ^ zlen (y :: k) <= 256 ^ (zlen (x :: l) - 1)) by (apply Z.pow_le_mono_r; lia). lia.
Qed.

(** Length octets are determined by the length. *)
Lemma be_value_bounds x l :
  Z_of_byte x <> 0 -> 256 ^ (zlen (x :: l) - 1) <= be_value (x :: l) < 256 ^ zlen (x :: l).
Proof.
  intros Hx. induction l as [|b l IH] using rev_ind.
  - unfold be_value, zlen; cbn [fold_left length]. pose proof (Z_of_byte_range x).
    change (256 ^ (Z.of_nat 1 - 1)) with 1. change (256 ^ Z.of_nat 1) with 256. lia.
  - rewrite app_comm_cons, be_value_app. pose proof (Z_of_byte_range b).
    assert (zlen ((x :: l) ++ [b]) = zlen (x :: l) + 1) as -> by (unfold zlen; rewrite app_length; cbn [length]; lia).
    assert (0 < zlen (x :: l)) by (unfold zlen; cbn [length]; lia).
    replace (zlen (x :: l) + 1 - 1) with (Z.succ (zlen (x :: l) - 1)) by lia.
    rewrite Z.pow_succ_r by lia. rewrite Z.pow_add_r by lia. change (256 ^ 1) with 256. lia.
Qed.

Lemma be_value_inj l k : length l = length k -> be_value l = be_value k -> l = k.
Proof.
  revert k. induction l as [|b l IH] using rev_ind; intros k.
  - destruct k; [reflexivity|discriminate].
  - destruct k as [|c k _] using rev_ind; [rewrite app_length; cbn; lia|].
    rewrite !app_length, !be_value_app. cbn [length]. intros Hl Hv.
    pose proof (Z_of_byte_range b). pose proof (Z_of_byte_range c).
    assert (be_value l = be_value k /\ Z_of_byte b = Z_of_byte c) as [Hv1 Hv2] by lia.
    apply Z_of_byte_inj in Hv2. subst c. rewrite (IH k); [reflexivity|lia|assumption].
Qed.

Lemma der_len_det n a b : der_len n a -> der_len n b -> a = b.
Proof.
  intros [m x Hm Hx|m x y l Hm Hv Hy Hx Hl] H; inversion H as [? z Hm' Hz|? z u k Hm' Hv' Hu Hz Hk]; subst; try lia.
  - f_equal. apply Z_of_byte_inj. lia.
  - assert (y :: l = u :: k) as E.
    { apply be_value_inj; [|congruence].
      pose proof (be_value_bounds y l Hy) as B1. pose proof (be_value_bounds u k Hu) as B2.
      rewrite Hv' in B2.
      destruct (Z.lt_trichotomy (zlen (y :: l)) (zlen (u :: k))) as [C|[C|C]].
      - assert (256 ^ zlen (y :: l) <= 256 ^ (zlen (u :: k) - 1)) by (apply Z.pow_le_mono_r; lia). lia.
      - unfold zlen in C. lia.
      - assert (256 ^ zlen (u :: k) <= 256 ^ (zlen (y :: l) - 1)) by (apply Z.pow_le_mono_r; lia). lia. }
    rewrite <- E in Hz |- *. f_equal. apply Z_of_byte_inj. lia.
Qed.

Lemma app_same_tail {A} (a b c d : list A) : length b = length d -> a ++ b = c ++ d -> b = d.
Proof.
  intros Hl H. assert (length a = length c) as Ha.
  { apply (f_equal (@length A)) in H. rewrite !app_length in H. lia. }
  revert c Ha H. induction a as [|x a IH]; intros [|y c] Ha H; try discriminate Ha; [exact H|].
  injection H as _ H. injection Ha as Ha. eauto.
Qed.

Lemma encode_injective a b : encode_attributes a = encode_attributes b -> a = b.
Proof.
  unfold encode_attributes. intros H. injection H as H.
  assert (length a = length b) as Hl.
  { pose proof (f_equal (@length byte) H) as L. rewrite !app_length in L.
    destruct (Z.lt_trichotomy (zlen a) (zlen b)) as [C|[C|C]].
    - pose proof (der_length_mono (zlen a) (zlen b) ltac:(unfold zlen in *; lia)). unfold zlen in *. lia.
    - unfold zlen in C. lia.
    - pose proof (der_length_mono (zlen b) (zlen a) ltac:(unfold zlen in *; lia)). unfold zlen in *. lia. }
  eapply app_same_tail; eassumption.
Qed.

(** ** Attributes *)

Lemma attr_values_none {A} (f : raw_attr -> option A) l : attr_values f l = None <-> no_attr f l.
Proof.
  unfold no_attr. induction l as [|a l IH]; cbn [attr_values].
  - split; auto.
  - destruct (attr_values f l) as [v|].
    + split; [discriminate|]. intros H. inversion H as [|? ? _ H' ]. apply IH in H'. discriminate.
    + split; intros H; [constructor; [assumption|apply IH; reflexivity]|now inversion H].
Qed.

Lemma attr_values_some {A} (f : raw_attr -> option A) l v : attr_values f l = Some v <-> has_attr f l v.
Proof.
  unfold has_attr. revert v. induction l as [|a l IH]; intros v; cbn [attr_values].
  - split; [discriminate|]. intros ([|? ?] & ? & ? & H & _); discriminate H.
  - destruct (attr_values f l) as [u|] eqn:E.
    + split.
      * intros H. injection H as <-. destruct (proj1 (IH u) eq_refl) as (pre & b & post & -> & R).
        exists (a :: pre), b, post. auto.
      * intros (pre & b & post & H & Hb & Hp). apply IH.
        destruct pre as [|p pre]; injection H as -> H.
        -- subst l. apply attr_values_none in Hp. congruence.
        -- exists pre, b, post. auto.
    + split.
      * intros H. exists [], a, l. split; [reflexivity|]. split; [assumption|].
        now apply attr_values_none.
      * intros (pre & b & post & H & Hb & Hp).
        destruct pre as [|p pre]; injection H as -> H; [assumption|].
        assert (None = Some v) as X by (apply IH; exists pre, b, post; auto). discriminate X.
Qed.

Lemma single_ok {A} (v : option (list A)) m o :
  single v m = Ok o <-> v = match o with Some a => Some [a] | None => None end.
Proof.
  destruct v as [[|a [|b l]]|]; cbn [single]; split.
  all: try (intros H; discriminate H).
  all: try (intros H; injection H as <-; reflexivity).
  all: destruct o; intros H; try discriminate H; try (injection H as ->); reflexivity.
Qed.

Lemma single_err {A} (v : option (list A)) m e : single v m = Err e -> is_parse_error e.
Proof.
  destruct v as [[|a [|b l]]|]; cbn [single]; intros H; try discriminate H; injection H as <-; reflexivity.
Qed.

Lemma single_attr {A} (f : raw_attr -> option (list A)) l m o :
  single (attr_values f l) m = Ok o <-> optional_attr f l o.
Proof.
  rewrite single_ok. destruct o; cbn [optional_attr];
    [apply attr_values_some|apply attr_values_none].
Qed.

Lemma accepted_ok a n : get_digest_algorithm a = Ok n <-> accepted a n.
Proof. apply get_digest_algorithm_ok. Qed.

Lemma digest_err a e : get_digest_algorithm a = Err e -> is_parse_error e.
Proof. intros H. apply get_digest_algorithm_err in H. unfold is_parse_error. now rewrite H. Qed.

(** ** Signer infos *)

Lemma present_some {A} (o : option A) : present o = true -> exists a, o = Some a.
Proof. destruct o; [eauto|discriminate]. Qed.

Lemma parse_signer_sound need exp r i : parse_signer need exp r = Ok i -> signer_reads need exp r i.
Proof.
  destruct r as [[issuer serial|k] dalg signed contents salg sg unsigned]; cbn [parse_signer]; [|discriminate].
  destruct (present _ && _ && _) eqn:P; cbn [rbind]; [|discriminate].
  apply andb_prop in P as [P P3]. apply andb_prop in P as [P1 P2].
  destruct (get_digest_algorithm dalg) as [alg|] eqn:D; cbn [rbind]; [|discriminate].
  destruct (single (attr_values as_message_digest signed) _) as [md|] eqn:M; cbn [rbind]; [|discriminate].
  destruct (single (attr_values as_content_type signed) _) as [ct|] eqn:C; cbn [rbind]; [|discriminate].
  destruct (match ct with Some _ => _ | None => _ end) as [[]|] eqn:X; cbn [rbind]; [|discriminate].
  destruct (single (attr_values as_signing_time signed) _) as [t|] eqn:T; cbn [rbind]; [|discriminate].
  intros H. injection H as <-.
  apply single_ok in M, C. rewrite C in P1. rewrite M in P2.
  destruct ct as [ct|]; [|discriminate P1]. destruct md as [md|]; [|discriminate P2].
  apply signer_reads_intro.
  - now apply accepted_ok.
  - now apply attr_values_some.
  - now apply attr_values_some.
  - intros e ->. destruct (String.eqb_spec ct e); [assumption|discriminate X].
  - now apply single_attr in T.
  - intros ->. apply single_ok in T. rewrite T in P3. destruct t; [discriminate|discriminate P3].
Qed.

Lemma parse_signer_complete need exp r i : signer_reads need exp r i -> parse_signer need exp r = Ok i.
Proof.
  intros H. destruct H as [issuer serial dalg signed contents salg sg unsigned alg md ct t Ha Hm Hc He Ht Hn].
  cbn [parse_signer]. apply accepted_ok in Ha. apply attr_values_some in Hm, Hc. rewrite Hm, Hc, Ha.
  assert (attr_values as_signing_time signed = match t with Some a => Some [a] | None => None end) as ->.
  { destruct t; cbn [optional_attr] in Ht; [now apply attr_values_some|now apply attr_values_none]. }
  cbn [present andb].
  assert (negb need || present (match t with Some a => Some [a] | None => None end) = true) as ->.
  { destruct need; [|reflexivity]. destruct t; [reflexivity|]. now elim Hn. }
  cbn [rbind single].
  assert (match exp with
          | Some e => if String.eqb ct e then Ok tt
                      else raise SignerInfoParseError "Unexpected content type for SignerInfo"
          | None => Ok tt
          end = Ok tt) as ->.
  { destruct exp as [e|]; [|reflexivity]. rewrite (He e eq_refl), String.eqb_refl. reflexivity. }
  destruct t; reflexivity.
Qed.

Lemma parse_signer_err need exp r e : parse_signer need exp r = Err e -> is_parse_error e.
Proof.
  destruct r as [[issuer serial|k] dalg signed contents salg sg unsigned]; cbn [parse_signer].
  2: intros H; injection H as <-; reflexivity.
  destruct (present _ && _ && _); cbn [rbind]; [|intros H; injection H as <-; reflexivity].
  destruct (get_digest_algorithm dalg) eqn:D; cbn [rbind];
    [|intros H; injection H as <-; eapply digest_err; eassumption].
  destruct (single (attr_values as_message_digest signed) _) as [md|] eqn:M; cbn [rbind];
    [|intros H; injection H as <-; eapply single_err; eassumption].
  destruct (single (attr_values as_content_type signed) _) as [ct|] eqn:C; cbn [rbind];
    [|intros H; injection H as <-; eapply single_err; eassumption].
  destruct (match ct with Some _ => _ | None => _ end) as [[]|] eqn:X; cbn [rbind].
  - destruct (single (attr_values as_signing_time signed) _) eqn:T; cbn [rbind]; [discriminate|].
    intros H; injection H as <-. eapply single_err; eassumption.
  - intros H; injection H as <-. destruct ct, exp; try discriminate X.
    destruct (String.eqb _ _); [discriminate X|]. injection X as <-. reflexivity.
Qed.

Lemma counter_signature_ok r o :
  counter_signature r = Ok o <-> optional_attr as_counter_signature (unsigned_attrs r) o.
Proof. apply single_attr. Qed.

Lemma parse_countersigner_sound d r i : parse_countersigner d r = Ok i -> counter_reads r i.
Proof.
  revert r i. induction d as [|d IH]; intros r i; cbn [parse_countersigner]; [discriminate|].
  destruct (parse_signer true None r) as [j|] eqn:P; cbn [rbind]; [|discriminate].
  apply parse_signer_sound in P.
  destruct (counter_signature r) as [[c|]|] eqn:C; cbn [rbind]; [| |discriminate];
    apply counter_signature_ok in C; cbn [optional_attr] in C.
  - destruct (parse_countersigner d c) as [k|] eqn:K; cbn [rbind]; [|discriminate].
    intros H; injection H as <-. eapply counter_reads_next; eauto.
  - intros H; injection H as <-. now apply counter_reads_last.
Qed.

Lemma max_fold {A} (h : A -> nat) l a :
  In a l -> (h a <= fold_right (fun x n => Nat.max (h x) n) 0 l)%nat.
Proof. induction l; cbn; [tauto|]. intros [->|H]; [lia|]. specialize (IHl H). lia. Qed.

Lemma height_si_attr r a : In a (unsigned_attrs r) -> (height_attr a < height_si r)%nat.
Proof.
  destruct r as [sid da sg sc sa s u]. cbn [unsigned_attrs height_si]. intros H.
  apply (max_fold height_attr) in H. lia.
Qed.

Lemma has_attr_in {A} (f : raw_attr -> option A) l v :
  has_attr f l v -> exists a, In a l /\ f a = Some v.
Proof.
  intros (pre & a & post & -> & Hf & _). exists a. split; [|assumption].
  apply in_or_app. right. now left.
Qed.

Lemma height_counter r c :
  has_attr as_counter_signature (unsigned_attrs r) [c] -> (height_si c < height_si r)%nat.
Proof.
  intros H. apply has_attr_in in H as (a & Hin & Ha). apply height_si_attr in Hin.
  destruct a; try discriminate Ha. injection Ha as ->. cbn [height_attr fold_right] in Hin. lia.
Qed.

Lemma parse_countersigner_complete d r i :
  counter_reads r i -> (height_si r <= d)%nat -> parse_countersigner d r = Ok i.
Proof.
  intros H. revert d. induction H as [r i Hs Hn|r i c k Hs Hc Hk IH]; intros d Hd.
  - assert (0 < height_si r)%nat by (destruct r; cbn [height_si]; lia).
    destruct d as [|d]; [lia|]. cbn [parse_countersigner].
    rewrite (parse_signer_complete _ _ _ _ Hs). cbn [rbind].
    assert (counter_signature r = Ok None) as -> by now apply counter_signature_ok. reflexivity.
  - destruct d as [|d]; [apply height_counter in Hc; lia|]. cbn [parse_countersigner].
    rewrite (parse_signer_complete _ _ _ _ Hs). cbn [rbind].
    assert (counter_signature r = Ok (Some c)) as -> by now apply counter_signature_ok. cbn [rbind].
    rewrite IH; [reflexivity|]. apply height_counter in Hc. lia.
Qed.

Lemma parse_countersigner_err d r e :
  parse_countersigner d r = Err e ->
  is_parse_error e \/ (e_class e = RecursionError /\ (d < height_si r)%nat).
Proof.
  revert r. induction d as [|d IH]; intros r; cbn [parse_countersigner].
  - intros H; injection H as <-. right. split; [reflexivity|]. destruct r; cbn [height_si]; lia.
  - destruct (parse_signer true None r) eqn:P; cbn [rbind];
      [|intros H; injection H as <-; left; eapply parse_signer_err; eassumption].
    destruct (counter_signature r) as [[c|]|] eqn:C; cbn [rbind];
      [|discriminate|intros H; injection H as <-; left; eapply single_err; eassumption].
    destruct (parse_countersigner d c) eqn:K; cbn [rbind]; [discriminate|].
    intros H; injection H as <-. destruct (IH _ K) as [|[R Hh]]; [auto|right].
    split; [assumption|]. apply counter_signature_ok in C. cbn [optional_attr] in C.
    apply height_counter in C. lia.
Qed.

(** ** Tokens *)

Lemma certificates_ok l m : certificates_of l m <-> m = the_certificates l.
Proof.
  split.
  - induction 1; unfold the_certificates in *; cbn [flat_map app]; congruence.
  - intros ->. induction l as [|[c|k] l IH]; cbn; constructor; exact IH.
Qed.

Lemma parse_signed_data_ok exp r d : parse_signed_data exp r = Ok d <-> data_reads exp r d.
Proof.
  destruct r as [algs ct content certs crls signers]. cbn [parse_signed_data data_reads]. split.
  - destruct algs as [|a [|]]; cbn [rbind]; try discriminate.
    destruct (get_digest_algorithm a) eqn:D; cbn [rbind]; [|discriminate].
    destruct (String.eqb_spec ct exp); cbn [rbind]; [|discriminate].
    intros H; injection H as <-. cbn [sd_digest_alg sd_content_type sd_octets sd_certificates].
    apply accepted_ok in D. rewrite certificates_ok. eauto 10.
  - intros ((a & -> & Ha) & -> & Hc & Ho & Hs). apply certificates_ok in Hs. apply accepted_ok in Ha. rewrite Ha. cbn [rbind].
    rewrite String.eqb_refl. cbn [rbind]. destruct d; cbn in *. congruence.
Qed.

Lemma timedelta_ok us v : timedelta us = Ok v <-> v = us /\ duration us.
Proof.
  unfold timedelta, duration, us_per_day. destruct (_ && _) eqn:E; split.
  - intros H; injection H as <-. split; [reflexivity|lia].
  - intros [-> _]. reflexivity.
  - discriminate.
  - intros [_ H]. lia.
Qed.

Lemma duration_0 : duration 0.
Proof. unfold duration. lia. Qed.

Lemma accuracy_add_ok d f u v :
  duration d ->
  accuracy_add d f u = Ok v <->
  v = d + opt0 f * u /\ duration (opt0 f * u) /\ duration v.
Proof.
  intros Hd. destruct f as [z|]; cbn [opt0].
  - destruct (Z.eq_dec z 0) as [->|Hz].
    + cbn [accuracy_add]. rewrite Z.mul_0_l, Z.add_0_r. split.
      * intros H; injection H as <-. auto using duration_0.
      * intros (-> & _). reflexivity.
    + assert (accuracy_add d (Some z) u =
              let? x := timedelta (z * u) in timedelta (d + x)) as -> by (destruct z; congruence || reflexivity).
      split.
      * destruct (timedelta (z * u)) as [x|] eqn:E; cbn [rbind]; [|discriminate].
        apply timedelta_ok in E as [-> E]. intros H. apply timedelta_ok in H as [-> H]. auto.
      * intros (-> & H1 & H2).
        assert (timedelta (z * u) = Ok (z * u)) as -> by (apply timedelta_ok; auto).
        cbn [rbind]. apply timedelta_ok. auto.
  - cbn [accuracy_add]. rewrite Z.mul_0_l, Z.add_0_r. split.
    + intros H; injection H as <-. auto using duration_0.
    + intros (-> & _). reflexivity.
Qed.

Lemma accuracy_ok a us : accuracy_to_python a = Ok us <-> accuracy_fits a us.
Proof.
  destruct a as [[[s ms] mu]|]; cbn [accuracy_to_python accuracy_fits].
  2: split; [intros H; now injection H as <-|now intros ->].
  change (fun o : option Z => match o with Some v => v | None => 0 end) with opt0.
  cbv zeta beta.
  change (match s with Some v => v | None => 0 end) with (opt0 s).
  change (match ms with Some v => v | None => 0 end) with (opt0 ms).
  change (match mu with Some v => v | None => 0 end) with (opt0 mu).
  split.
  - destruct (accuracy_add 0 s 1000000) as [d1|] eqn:E1; cbn [rbind]; [|discriminate].
    apply accuracy_add_ok in E1 as (-> & A1 & B1); [|apply duration_0].
    destruct (accuracy_add _ ms 1000) as [d2|] eqn:E2; cbn [rbind]; [|discriminate].
    apply accuracy_add_ok in E2 as (-> & A2 & B2); [|assumption].
    intros H. apply accuracy_add_ok in H as (-> & A3 & B3); [|assumption].
    rewrite Z.mul_1_r, Z.add_0_l in *. repeat split; try apply A1; try apply A2; try apply A3; try apply B2; apply B3.
  - intros (-> & A1 & A2 & A3 & B2 & B3).
    assert (accuracy_add 0 s 1000000 = Ok (opt0 s * 1000000)) as ->.
    { apply accuracy_add_ok; [apply duration_0|]. rewrite Z.add_0_l. auto. }
    cbn [rbind].
    assert (accuracy_add (opt0 s * 1000000) ms 1000 = Ok (opt0 s * 1000000 + opt0 ms * 1000)) as ->.
    { apply accuracy_add_ok; auto. }
    cbn [rbind]. apply accuracy_add_ok; [assumption|]. rewrite Z.mul_1_r. auto.
Qed.

Lemma parse_tst_ok v i : parse_tst v = Ok i <-> exists t, v = RVTst t /\ tst_reads t i.
Proof.
  unfold tst_reads. destruct v as [s|t|]; cbn [parse_tst].
  1,3: split; [discriminate|intros (t & H & _); discriminate H].
  split.
  - destruct (String.eqb_spec (rt_version t) "v1"); cbn [negb]; [|discriminate].
    destruct (get_digest_algorithm (rt_hash_alg t)) eqn:D; cbn [rbind]; [|discriminate].
    apply accepted_ok in D.
    destruct (accuracy_to_python (rt_accuracy t)) eqn:A; cbn [rbind]; [|discriminate].
    apply accuracy_ok in A.
    intros H. exists t. split; [reflexivity|].
    destruct (rt_tsa t) eqn:T; cbn [rbind] in H; try discriminate H; injection H as <-;
      cbn [ti_hash_alg ti_accuracy ti_policy ti_message_digest ti_serial ti_signing_time];
      (split; [assumption|]; split; [assumption|]; split; [assumption|]; split; [intros k; discriminate|auto]).
  - intros (u & H & Hv & Ha & Hc & Ht & Hp & Hm & Hs & Hg). injection H as <-.
    rewrite Hv, String.eqb_refl. cbn [negb].
    apply accepted_ok in Ha. apply accuracy_ok in Hc. rewrite Ha. cbn [rbind]. rewrite Hc. cbn [rbind].
    destruct i; cbn in *. subst.
    destruct (rt_tsa t) eqn:T; [reflexivity|reflexivity|]. now elim (Ht kind).
Qed.

Lemma map_res_single {A B} (f : A -> res B) l b :
  map_res f l = Ok [b] <-> exists a, l = [a] /\ f a = Ok b.
Proof.
  split.
  - destruct l as [|a l]; cbn [map_res]; [discriminate|].
    destruct (f a) as [b'|] eqn:F; cbn [rbind]; [|discriminate].
    destruct l as [|a' l]; cbn [map_res rbind].
    + intros H. injection H as <-. eauto.
    + destruct (f a'); cbn [rbind]; [|discriminate].
      destruct (map_res f l); cbn [rbind]; discriminate.
  - intros (a & -> & H). cbn [map_res]. rewrite H. reflexivity.
Qed.

Lemma parse_rfc3161_ok r i :
  parse_rfc3161_signer r = Ok i <->
  signer_reads false (Some "tst_info") r i /\ no_attr as_counter_signature (unsigned_attrs r).
Proof.
  unfold parse_rfc3161_signer. split.
  - destruct (parse_signer _ _ r) as [j|] eqn:P; cbn [rbind]; [|discriminate].
    destruct (counter_signature r) as [[c|]|] eqn:C; cbn [rbind]; try discriminate.
    intros H; injection H as <-. split; [now apply parse_signer_sound|].
    now apply counter_signature_ok in C.
  - intros [H1 H2]. rewrite (parse_signer_complete _ _ _ _ H1). cbn [rbind].
    assert (counter_signature r = Ok None) as -> by now apply counter_signature_ok. reflexivity.
Qed.

Lemma parse_rsd_ok r t : parse_rsd r = Ok t <-> token_reads r t.
Proof.
  unfold parse_rsd, token_reads. split.
  - destruct (parse_signed_data _ r) as [d|] eqn:D; cbn [rbind]; [|discriminate].
    destruct (map_res _ _) as [l|] eqn:L; cbn [rbind]; [|discriminate].
    destruct (parse_tst _) as [i|] eqn:T; cbn [rbind]; [|discriminate].
    destruct l as [|s [|]]; try discriminate. intros H; injection H as <-.
    cbn [r_data r_tst r_signer]. apply parse_signed_data_ok in D. apply parse_tst_ok in T.
    apply map_res_single in L as (a & L & F). apply parse_rfc3161_ok in F.
    split; [exact D|]. split; [exact T|]. exists a. split; [exact L|exact F].
  - intros (D & T & (s & L & S1 & S2)).
    apply parse_signed_data_ok in D. apply parse_tst_ok in T. rewrite D. cbn [rbind].
    assert (map_res parse_rfc3161_signer (raw_signers r) = Ok [r_signer t]) as ->.
    { apply map_res_single. exists s. split; [assumption|]. apply parse_rfc3161_ok. auto. }
    cbn [rbind]. rewrite T. destruct t; reflexivity.
Qed.

(** ** Authenticode *)

Lemma parse_spc_ok v s : parse_spc v = Ok s <-> exists p, v = RVSpc p /\ spc_reads p s.
Proof.
  unfold spc_reads. destruct v as [p|t|]; cbn [parse_spc].
  2,3: split; [discriminate|intros (q & H & _); discriminate H].
  split.
  - destruct (String.eqb_spec (rp_type p) "microsoft_spc_pe_image_data"); cbn [negb]; [|discriminate].
    destruct (rp_value p) eqn:V; cbn [negb]; [|discriminate].
    destruct (get_digest_algorithm _) eqn:D; cbn [rbind]; [|discriminate].
    apply accepted_ok in D. intros H; injection H as <-. eauto 10.
  - intros (q & H & Ht & Hv & Ha & Hd). injection H as <-. rewrite Ht, String.eqb_refl, Hv. cbn [negb].
    apply accepted_ok in Ha. rewrite Ha. cbn [rbind]. destruct s; cbn in *. congruence.
Qed.

Lemma single_count_ok f l m :
  single_count (attr_values f l) m = Ok tt <-> at_most_one f l.
Proof.
  unfold at_most_one. rewrite <- attr_values_none, <- attr_values_some.
  destruct (attr_values f l) as [[|[|n]]|]; cbn [single_count]; split; auto; try discriminate;
    intros [H|H]; discriminate H.
Qed.

Lemma res_tt (r : res unit) u : r = Ok u -> r = Ok tt.
Proof. destruct u. auto. Qed.

(** One nested signature, as in [parse_asi]. *)
Definition nested_one (sub : raw_sd -> res asd) (c : raw_ci) : res asd :=
  if negb (String.eqb (ci_type c) "signed_data") then
    raise AuthenticodeParseError "Nested signature is not a SignedData structure"
  else let? s := ci_content c in sub s.

Lemma nested_one_ok sub c a :
  nested_one sub c = Ok a -> exists s, c = RawSigned s /\ sub s = Ok a.
Proof.
  unfold nested_one. destruct c as [s|t b]; cbn [ci_type ci_content].
  - rewrite String.eqb_refl. cbn [negb rbind]. eauto.
  - destruct (negb _); [discriminate|]. destruct b; discriminate.
Qed.

Lemma map_nested_sound pe sub l m :
  (forall r a, sub r = Ok a -> asd_reads pe r a) ->
  map_res (nested_one sub) l = Ok m -> all_read pe l m.
Proof.
  intros Hsub. revert m. induction l as [|c l IH]; intros m; cbn [map_res].
  - intros H; injection H as <-. constructor.
  - destruct (nested_one sub c) as [a|] eqn:N; cbn [rbind]; [|discriminate].
    destruct (map_res _ l) as [k|] eqn:L; cbn [rbind]; [|discriminate].
    intros H; injection H as <-. apply nested_one_ok in N as (s & -> & N). constructor; auto.
Qed.

Lemma parse_asi_sound pe d sub r s :
  (forall r a, sub r = Ok a -> asd_reads pe r a) ->
  parse_asi d sub r = Ok s ->
  exists i cs nested, s = ASI i cs nested /\
    signer_reads false (Some spc_type) r i /\
    at_most_one as_statement_type (signed_attrs r) /\ at_most_one as_opus_info (signed_attrs r) /\
    cs_reads (unsigned_attrs r) cs /\ nested_reads pe (unsigned_attrs r) nested.
Proof.
  intros Hsub. unfold parse_asi. fold (nested_one sub).
  destruct (parse_signer _ _ r) as [i|] eqn:P; cbn [rbind]; [|discriminate].
  apply parse_signer_sound in P.
  destruct (counter_signature r) as [cs|] eqn:C; cbn [rbind]; [|discriminate].
  apply counter_signature_ok in C.
  destruct (match cs with Some _ => _ | None => _ end) as [plain|] eqn:K; cbn [rbind]; [|discriminate].
  destruct (single_count (attr_values as_statement_type _) _) eqn:S1; cbn [rbind]; [|discriminate].
  destruct (single_count (attr_values as_opus_info _) _) eqn:S2; cbn [rbind]; [|discriminate].
  apply res_tt, single_count_ok in S1. apply res_tt, single_count_ok in S2.
  destruct (match attr_values as_nested _ with Some _ => _ | None => _ end) as [nested|] eqn:N;
    cbn [rbind]; [|discriminate].
  assert (nested_reads pe (unsigned_attrs r) nested) as HN.
  { destruct (attr_values as_nested (unsigned_attrs r)) as [l|] eqn:A.
    - apply attr_values_some in A. eapply nested_some; [eassumption|].
      eapply map_nested_sound; [|exact N]. assumption.
    - injection N as <-. apply nested_none. now apply attr_values_none. }
  destruct (present _ && present _) eqn:B; [discriminate|].
  destruct (attr_values as_token (unsigned_attrs r)) as [l|] eqn:T.
  - destruct l as [|c [|]]; cbn [rbind]; try discriminate.
    apply attr_values_some in T.
    rewrite andb_true_r in B.
    assert (no_attr as_counter_signature (unsigned_attrs r)) as Hno.
    { apply attr_values_none. destruct (attr_values as_counter_signature _); [discriminate B|reflexivity]. }
    destruct c as [t|ty b]; cbn [ci_type ci_content].
    + rewrite String.eqb_refl. cbn [negb rbind].
      destruct (parse_rsd t) as [k|] eqn:R; cbn [rbind]; [|discriminate].
      apply parse_rsd_ok in R. intros H; injection H as <-.
      do 3 eexists. split; [reflexivity|]. do 4 (split; [eassumption|] || split); auto.
      eapply cs_token; eassumption.
    + destruct (negb _); cbn [rbind]; [discriminate|]. destruct b; cbn [rbind]; discriminate.
  - apply attr_values_none in T. cbn [rbind]. intros H; injection H as <-.
    do 3 eexists. split; [reflexivity|]. repeat (split; [assumption|]). split; [|assumption].
    destruct cs as [c|]; cbn [optional_attr] in C.
    + destruct (parse_countersigner d c) as [k|] eqn:PC; cbn [rbind] in K; [|discriminate].
      injection K as <-. apply parse_countersigner_sound in PC. eapply cs_plain; eassumption.
    + injection K as <-. now apply cs_none.
Qed.

Lemma parse_asd_sound d pe r a : parse_asd d pe r = Ok a -> asd_reads pe r a.
Proof.
  revert r a. induction d as [|d IH]; intros r a; cbn [parse_asd]; [discriminate|].
  destruct (parse_signed_data spc_type r) as [data|] eqn:D; cbn [rbind]; [|discriminate].
  destruct (map_res _ _) as [l|] eqn:L; cbn [rbind]; [|discriminate].
  destruct (parse_spc _) as [spc|] eqn:P; cbn [rbind]; [|discriminate].
  destruct l as [|s [|]]; try discriminate. destruct (raw_crls r) eqn:R; [|discriminate].
  intros H; injection H as <-.
  apply parse_signed_data_ok in D. apply parse_spc_ok in P as (v & V & P).
  apply map_res_single in L as (x & X & L).
  apply (parse_asi_sound pe) in L as (i & cs & nested & -> & H1 & H2 & H3 & H4 & H5); [|exact IH].
  eapply asd_reads_intro; eassumption.
Qed.

Lemma height_nested r l c :
  has_attr as_nested (unsigned_attrs r) l -> In c l -> (height_ci c < height_si r)%nat.
Proof.
  intros H Hc. apply has_attr_in in H as (a & Hin & Ha). apply height_si_attr in Hin.
  destruct a; try discriminate Ha. injection Ha as ->. cbn [height_attr] in Hin.
  apply (max_fold height_ci) in Hc. lia.
Qed.

Lemma height_signer r s : In s (raw_signers r) -> (height_si s <= height_sd r)%nat.
Proof.
  destruct r. cbn [raw_signers height_sd]. intros H.
  apply (max_fold (fun s => Nat.pred (height_si s))) in H. cbv beta in H. lia.
Qed.

Lemma map_nested_complete pe sub l m :
  all_read pe l m ->
  (forall s a, In (RawSigned s) l -> asd_reads pe s a -> sub s = Ok a) ->
  map_res (nested_one sub) l = Ok m.
Proof.
  intros H. induction H as [|s a l m Hs Hl IH]; intros Hsub; cbn [map_res]; [reflexivity|].
  assert (nested_one sub (RawSigned s) = Ok a) as ->.
  { unfold nested_one. cbn [ci_type ci_content]. rewrite String.eqb_refl. cbn [negb rbind].
    apply Hsub; [now left|assumption]. }
  cbn [rbind]. rewrite IH; [reflexivity|]. intros s' a' Hin. apply Hsub. now right.
Qed.

Lemma parse_asd_complete d pe r a :
  asd_reads pe r a -> (height_sd r <= d)%nat -> parse_asd d pe r = Ok a.
Proof.
  revert r a. induction d as [|d IH]; intros r a H Hd.
  { destruct r; cbn [height_sd] in Hd; lia. }
  inversion H as [r' data v spc s i cs nested HD HV HS HC HL HI H1 H2 HCS HN Er Ea]. subst r' a.
  cbn [parse_asd].
  assert (parse_signed_data spc_type r = Ok data) as -> by now apply parse_signed_data_ok. cbn [rbind].
  assert (height_si s <= S d)%nat as Hh.
  { eapply Nat.le_trans; [apply height_signer|exact Hd]. rewrite HL. now left. }
  assert (map_res (parse_asi d (parse_asd d pe)) (raw_signers r) = Ok [ASI i cs nested]) as ->.
  { apply map_res_single. exists s. split; [assumption|]. unfold parse_asi. fold (nested_one (parse_asd d pe)).
    change (Some "microsoft_spc_indirect_data_content") with (Some spc_type) in HI.
    rewrite (parse_signer_complete _ _ _ _ HI). cbn [rbind].
    assert (match attr_values as_nested (unsigned_attrs s) with
            | Some l => map_res (nested_one (parse_asd d pe)) l
            | None => Ok []
            end = Ok nested) as HN'.
    { inversion HN as [u HN1 Eu En|u l n HN1 HA Eu En]; subst u.
      - apply attr_values_none in HN1. rewrite HN1. reflexivity.
      - subst n. pose proof HN1 as HN0. apply attr_values_some in HN1. rewrite HN1.
        apply (map_nested_complete pe); [assumption|]. intros s' a' Hin Hs'. apply IH; [assumption|].
        eapply height_nested in HN0; [|eassumption]. cbn [height_ci] in HN0. lia. }
    destruct HCS as [N1 N2|c k N1 N2 N3|t tok N1 N2 N3].
    - assert (counter_signature s = Ok None) as -> by now apply counter_signature_ok. cbn [rbind].
      apply (single_count_ok _ _ "Only one SpcStatementType expected") in H1.
      apply (single_count_ok _ _ "Only one SpcSpOpusInfo expected") in H2.
      rewrite H1. cbn [rbind]. rewrite H2. cbn [rbind]. rewrite HN'. cbn [rbind].
      apply attr_values_none in N1, N2. rewrite N1, N2. reflexivity.
    - assert (counter_signature s = Ok (Some c)) as -> by now apply counter_signature_ok. cbn [rbind].
      rewrite (parse_countersigner_complete d c k N2) by (apply height_counter in N1; lia). cbn [rbind].
      apply (single_count_ok _ _ "Only one SpcStatementType expected") in H1.
      apply (single_count_ok _ _ "Only one SpcSpOpusInfo expected") in H2.
      rewrite H1. cbn [rbind]. rewrite H2. cbn [rbind]. rewrite HN'. cbn [rbind].
      apply attr_values_none in N3. rewrite N3, andb_false_r. reflexivity.
    - assert (counter_signature s = Ok None) as -> by now apply counter_signature_ok. cbn [rbind].
      apply (single_count_ok _ _ "Only one SpcStatementType expected") in H1.
      apply (single_count_ok _ _ "Only one SpcSpOpusInfo expected") in H2.
      rewrite H1. cbn [rbind]. rewrite H2. cbn [rbind]. rewrite HN'. cbn [rbind].
      apply attr_values_none in N1. apply attr_values_some in N2. rewrite N1, N2. cbn [present andb ci_type ci_content].
      rewrite String.eqb_refl. cbn [negb rbind]. apply parse_rsd_ok in N3. rewrite N3. reflexivity. }
  cbn [rbind].
  assert (parse_spc (raw_value_of r) = Ok spc) as ->.
  { apply parse_spc_ok. eauto. }
  cbn [rbind]. rewrite HC. reflexivity.
Qed.

(** ** Errors *)

Lemma map_res_err {A B} (f : A -> res B) l e :
  map_res f l = Err e -> exists a, In a l /\ f a = Err e.
Proof.
  induction l as [|a l IH]; cbn [map_res]; [discriminate|].
  destruct (f a) eqn:F; cbn [rbind].
  - destruct (map_res f l); cbn [rbind]; [discriminate|]. intros H; injection H as <-.
    destruct IH as (x & Hx & He); [reflexivity|]. exists x. split; [now right|assumption].
  - intros H; injection H as <-. exists a. split; [now left|assumption].
Qed.

Lemma parse_signed_data_err exp a ct content certs crls signers e :
  parse_signed_data exp (RawSD [a] ct content certs crls signers) = Err e -> is_parse_error e.
Proof.
  cbn [parse_signed_data]. destruct (get_digest_algorithm a) eqn:D; cbn [rbind].
  - destruct (String.eqb ct exp); cbn [rbind]; [discriminate|]. intros H; injection H as <-. reflexivity.
  - intros H; injection H as <-. eapply digest_err; eassumption.
Qed.

Lemma parse_signed_data_type exp a ct content certs crls signers d :
  parse_signed_data exp (RawSD [a] ct content certs crls signers) = Ok d -> ct = exp.
Proof. intros H. apply parse_signed_data_ok in H. apply H. Qed.

Lemma parse_rsd_err r e : regular_token r -> parse_rsd r = Err e -> is_parse_error e.
Proof.
  intros [a ct content certs crls signers HC HS]. unfold parse_rsd.
  destruct (parse_signed_data _ _) as [d|] eqn:D; cbn [rbind];
    [|intros H; injection H as <-; eapply parse_signed_data_err; eassumption].
  apply parse_signed_data_type in D. cbn [raw_signers raw_value_of].
  destruct (map_res _ _) as [l|] eqn:L; cbn [rbind].
  - destruct (proj2 HC D) as (t & -> & (us & Hus) & Ht). cbn [parse_tst].
    destruct (negb _); cbn [rbind]; [intros H; injection H as <-; reflexivity|].
    destruct (get_digest_algorithm _) eqn:G; cbn [rbind];
      [|intros H; injection H as <-; eapply digest_err; eassumption].
    apply accuracy_ok in Hus. rewrite Hus. cbn [rbind].
    destruct (rt_tsa t) as [| |k] eqn:T; cbn [rbind]; [| |now elim (Ht k)];
      (destruct l as [|x [|]]; intros H; try discriminate H; injection H as <-; reflexivity).
  - intros H; injection H as <-. apply map_res_err in L as (s & Hs & He).
    rewrite Forall_forall in HS. specialize (HS _ Hs).
    unfold parse_rfc3161_signer in He.
    destruct (parse_signer _ _ s) eqn:P; cbn [rbind] in He;
      [|injection He as <-; eapply parse_signer_err; eassumption].
    assert (counter_signature s = Ok None) as C by now apply counter_signature_ok.
    rewrite C in He. discriminate He.
Qed.

Lemma single_count_err n m e : single_count n m = Err e -> is_parse_error e.
Proof. destruct n as [[|[|]]|]; cbn [single_count]; intros H; try discriminate H; injection H as <-; reflexivity. Qed.

Lemma parse_asi_err d sub s e :
  regular_si s -> (height_si s <= S d)%nat ->
  (forall r e, regular_sd r -> (height_sd r <= d)%nat -> sub r = Err e -> is_parse_error e) ->
  parse_asi d sub s = Err e -> is_parse_error e.
Proof.
  intros [r HN HT] Hh Hsub. unfold parse_asi. fold (nested_one sub).
  destruct (parse_signer _ _ r) as [i|] eqn:P; cbn [rbind];
    [|intros H; injection H as <-; eapply parse_signer_err; eassumption].
  destruct (counter_signature r) as [cs|] eqn:C; cbn [rbind];
    [|intros H; injection H as <-; eapply single_err; eassumption].
  apply counter_signature_ok in C.
  destruct (match cs with Some _ => _ | None => _ end) as [plain|] eqn:K; cbn [rbind].
  2:{ intros H; injection H as <-. destruct cs as [c|]; [|discriminate K].
      destruct (parse_countersigner d c) eqn:PC; cbn [rbind] in K; [discriminate K|]. injection K as <-.
      apply parse_countersigner_err in PC as [|[_ Hc]]; [assumption|exfalso].
      cbn [optional_attr] in C. apply height_counter in C. lia. }
  destruct (single_count (attr_values as_statement_type _) _) eqn:S1; cbn [rbind];
    [|intros H; injection H as <-; eapply single_count_err; eassumption].
  destruct (single_count (attr_values as_opus_info _) _) eqn:S2; cbn [rbind];
    [|intros H; injection H as <-; eapply single_count_err; eassumption].
  destruct (match attr_values as_nested _ with Some _ => _ | None => _ end) as [nested|] eqn:N; cbn [rbind].
  2:{ intros H; injection H as <-.
      destruct (attr_values as_nested (unsigned_attrs r)) as [l|] eqn:A; [|discriminate N].
      apply attr_values_some in A. apply map_res_err in N as (c & Hc & He).
      pose proof (height_nested _ _ _ A Hc) as Hhc.
      apply has_attr_in in A as (at1 & Ha & Hal). destruct at1; try discriminate Hal. injection Hal as ->.
      unfold nested_one in He.
      destruct (HN _ _ Ha Hc) as [sd Hsd|t b Ht]; cbn [ci_type ci_content height_ci] in *.
      - rewrite String.eqb_refl in He. cbn [negb rbind] in He. eapply Hsub; [eassumption| |exact He]. lia.
      - destruct (String.eqb_spec t "signed_data"); [contradiction|]. cbn [negb] in He.
        injection He as <-. reflexivity. }
  destruct (present _ && present _); [intros H; injection H as <-; reflexivity|].
  destruct (attr_values as_token (unsigned_attrs r)) as [l|] eqn:T; cbn [rbind]; [|discriminate].
  destruct l as [|c [|]]; cbn [rbind]; try (intros H; injection H as <-; reflexivity).
  apply attr_values_some, has_attr_in in T as (at1 & Ha & Hal). destruct at1; try discriminate Hal.
  injection Hal as ->.
  destruct (HT _ c Ha (or_introl eq_refl)) as [sd Hsd|t b Ht]; cbn [ci_type ci_content].
  - rewrite String.eqb_refl. cbn [negb rbind].
    destruct (parse_rsd sd) eqn:R; cbn [rbind]; [discriminate|].
    intros H; injection H as <-. eapply parse_rsd_err; eassumption.
  - destruct (String.eqb_spec t "signed_data"); [contradiction|]. cbn [negb rbind].
    intros H; injection H as <-. reflexivity.
Qed.

Lemma parse_asd_err d pe r e :
  regular_sd r -> (height_sd r <= d)%nat -> parse_asd d pe r = Err e -> is_parse_error e.
Proof.
  revert r e. induction d as [|d IH]; intros r e HR Hd.
  { destruct r; cbn [height_sd] in Hd; lia. }
  destruct HR as [a ct content certs crls signers HC HS]. cbn [parse_asd].
  destruct (parse_signed_data _ _) as [data|] eqn:D; cbn [rbind];
    [|intros H; injection H as <-; eapply parse_signed_data_err; eassumption].
  apply parse_signed_data_type in D. cbn [raw_signers raw_value_of raw_crls].
  destruct (map_res _ _) as [l|] eqn:L; cbn [rbind].
  - destruct (proj1 HC D) as (p & -> & Hp). cbn [parse_spc].
    destruct (String.eqb_spec (rp_type p) "microsoft_spc_pe_image_data"); cbn [negb rbind];
      [|intros H; injection H as <-; reflexivity].
    rewrite Hp by assumption. cbn [negb rbind].
    destruct (get_digest_algorithm _) eqn:G; cbn [rbind];
      [|intros H; injection H as <-; eapply digest_err; eassumption].
    destruct l as [|s [|]]; try (intros H; injection H as <-; reflexivity).
    destruct crls; [discriminate|]. intros H; injection H as <-. reflexivity.
  - intros H; injection H as <-. apply map_res_err in L as (s & Hs & He).
    eapply parse_asi_err; [| |exact (fun r e => IH r e)|exact He].
    + rewrite Forall_forall in HS. auto.
    + pose proof (height_signer (RawSD [a] ct content certs crls signers) s Hs). lia.
Qed.
