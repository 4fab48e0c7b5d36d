(** Proofs about signature checks, digest algorithms, accuracies and FILETIMEs. *)
From Verif Require Import Base Bytes ModelX509 SpecX509 ProofsX509.
From Coq Require Import ZifyBool ZifyNat.

(** ** Signatures *)

Lemma catches_ordinary e : catches Exception_ e = true <-> ordinary e.
Proof. reflexivity. Qed.

Lemma raise_fmt_not_ok {A} c k m (a : A) : raise_fmt c k m <> Ok a.
Proof.
  unfold raise_fmt. destruct (cert_str c); cbn [rbind raise]; discriminate.
Qed.

Lemma res_unit (r : res unit) x : r = Ok x -> r = Ok tt.
Proof. now destruct x. Qed.

Lemma verify_signature_ok E c sg data alg legacy :
  verify_signature E c sg data alg legacy = Ok tt <->
  scheme_accepts E (c_key c) sg data alg \/
  (legacy = true /\ legacy_accepts E (c_key c) sg data alg).
Proof.
  unfold verify_signature.
  destruct (e_load_key E (c_key c)) as [a|e] eqn:Ek; cbn [rbind].
  2: { split; [discriminate|]. intros [[H|H|H]|[_ [H _]]]; congruence. }
  destruct (String.eqb_spec a "rsa") as [->|N1]; cbn [rbind].
  - destruct (e_rsa_verify E (c_key c) sg data alg) as [[]|e] eqn:Ev.
    + split; [intros _; left; now apply accepts_rsa|reflexivity].
    + destruct (catches Exception_ e) eqn:Ec; cbn [negb].
      * cbn [negb]. rewrite orb_false_r.
        destruct legacy; cbn [negb].
        -- destruct (e_rsa_verify E (c_key c) sg (e_hash E alg data) "raw") as [[]|e'] eqn:Er.
           ++ split; [intros _; right|reflexivity]. split; [reflexivity|].
              split; [assumption|]. split; [eauto|assumption].
           ++ split.
              ** destruct (negb (catches Exception_ e')); [discriminate|].
                 intros H. now apply raise_fmt_not_ok in H.
              ** intros [[H ?|H ?|H ?]|[_ (_ & _ & H)]]; congruence.
        -- split; [intros H; now apply raise_fmt_not_ok in H|].
           intros [[H ?|H ?|H ?]|[H _]]; congruence.
      * split; [discriminate|].
        intros [[H ?|H ?|H ?]|[_ (_ & (e' & H & Ho) & _)]]; try congruence.
        unfold ordinary in Ho. assert (e' = e) as -> by congruence.
        unfold catches in Ec. congruence.
  - destruct (String.eqb_spec a "dsa") as [->|N2]; cbn [rbind].
    + destruct (e_dsa_verify E (c_key c) sg data alg) as [[]|e] eqn:Ev.
      * split; [intros _; left; now apply accepts_dsa|reflexivity].
      * split.
        -- destruct (negb (catches Exception_ e)); [discriminate|].
           cbn [String.eqb Ascii.eqb Bool.eqb negb]. rewrite orb_true_r.
           intros H. now apply raise_fmt_not_ok in H.
        -- intros [[H ?|H ?|H ?]|[_ (H & _)]]; congruence.
    + destruct (String.eqb_spec a "ec") as [->|N3]; cbn [rbind].
      * destruct (e_ecdsa_verify E (c_key c) sg data alg) as [[]|e] eqn:Ev.
        -- split; [intros _; left; now apply accepts_ec|reflexivity].
        -- split.
           ++ destruct (negb (catches Exception_ e)); [discriminate|].
              cbn [String.eqb Ascii.eqb Bool.eqb negb]. rewrite orb_true_r.
              intros H. now apply raise_fmt_not_ok in H.
           ++ intros [[H ?|H ?|H ?]|[_ (H & _)]]; congruence.
      * split.
        -- unfold raise_fmt. destruct (cert_str c); cbn [rbind raise]; discriminate.
        -- intros [[H ?|H ?|H ?]|[_ (H & _)]]; congruence.
Qed.

Lemma raise_fmt_class {A} c k m e :
  (exists s, dn (c_subject c) = Ok s) -> @raise_fmt A c k m = Err e -> e_class e = k.
Proof.
  intros [s Hs]. unfold raise_fmt, cert_str. rewrite Hs. cbn. intros H; injection H as <-.
  reflexivity.
Qed.

Lemma verify_signature_err E c sg data alg legacy e :
  (exists s, dn (c_subject c) = Ok s) ->
  (exists a, e_load_key E (c_key c) = Ok a) ->
  (forall sg data alg, no_interrupt (e_rsa_verify E (c_key c) sg data alg)) ->
  no_interrupt (e_dsa_verify E (c_key c) sg data alg) ->
  no_interrupt (e_ecdsa_verify E (c_key c) sg data alg) ->
  verify_signature E c sg data alg legacy = Err e ->
  e_class e = CertificateVerificationError.
Proof.
  intros Hs [a Ha] Hr Hd Hc. unfold verify_signature. rewrite Ha. cbn [rbind].
  assert (K : forall (vf : spki -> bytes -> bytes -> string -> res unit),
    no_interrupt (vf (c_key c) sg data alg) ->
    match vf (c_key c) sg data alg with
    | Ok _ => Ok tt
    | Err e0 =>
      if negb (catches Exception_ e0) then Err e0
      else if negb legacy || negb (String.eqb a "rsa")
      then raise_fmt c CertificateVerificationError "Invalid signature"
      else match e_rsa_verify E (c_key c) sg (e_hash E alg data) "raw" with
           | Ok _ => Ok tt
           | Err e' => if negb (catches Exception_ e') then Err e'
              else raise_fmt c CertificateVerificationError "Invalid signature (legacy attempted)"
           end
    end = Err e -> e_class e = CertificateVerificationError).
  { intros vf Hv. destruct (vf (c_key c) sg data alg) as [u|e0] eqn:Ev; [discriminate|].
    assert (catches Exception_ e0 = true) as -> by (apply catches_ordinary, Hv; reflexivity).
    cbn [negb]. destruct (negb legacy || negb (String.eqb a "rsa")).
    - now apply raise_fmt_class.
    - destruct (e_rsa_verify E (c_key c) sg (e_hash E alg data) "raw") as [u|e'] eqn:Er; [discriminate|].
      assert (catches Exception_ e' = true) as -> by (apply catches_ordinary; eapply Hr; exact Er).
      cbn [negb]. now apply raise_fmt_class. }
  destruct (String.eqb a "rsa") eqn:E1; cbn [rbind]; [apply K, Hr|].
  destruct (String.eqb a "dsa"); cbn [rbind]; [apply K, Hd|].
  destruct (String.eqb a "ec"); cbn [rbind]; [apply K, Hc|].
  intros H. destruct (raise_fmt c CertificateVerificationError "Signature algorithm is unsupported") eqn:Ef.
  - now apply raise_fmt_not_ok in Ef.
  - cbn [rbind] in H. injection H as <-. now apply raise_fmt_class in Ef.
Qed.

(** Certificates that compare equal accept the same signatures. *)
Lemma verify_signature_identity E a b sg data alg legacy :
  cert_eqb a b = true ->
  verify_signature E a sg data alg legacy = Ok tt <->
  verify_signature E b sg data alg legacy = Ok tt.
Proof.
  rewrite cert_eqb_identity. intros (_ & _ & _ & Hk).
  rewrite !verify_signature_ok, Hk. reflexivity.
Qed.

(** ** Digest algorithms *)

Lemma str_mem_in x l : str_mem x l = true <-> In x l.
Proof.
  unfold str_mem. rewrite existsb_exists. split.
  - intros (y & Hy & He). apply String.eqb_eq in He. now subst.
  - intros H. exists x. split; [assumption|apply String.eqb_refl].
Qed.

Lemma get_digest_algorithm_ok a n :
  get_digest_algorithm a = Ok n <->
  alg_name a = n /\ In n ["md5"; "sha1"; "sha256"; "sha384"; "sha512"] /\ alg_has_params a = false.
Proof.
  unfold get_digest_algorithm. change accepted_digest_algorithms with ["md5"; "sha1"; "sha256"; "sha384"; "sha512"].
  destruct (str_mem (alg_name a) ["md5"; "sha1"; "sha256"; "sha384"; "sha512"]) eqn:E; cbn [negb].
  - apply str_mem_in in E. destruct (alg_has_params a); split.
    + discriminate.
    + intros (_ & _ & H); discriminate H.
    + intros H; injection H as <-. auto.
    + intros (-> & _); reflexivity.
  - split; [discriminate|]. intros (<- & H & _). apply str_mem_in in H. congruence.
Qed.

Lemma get_digest_algorithm_err a e : get_digest_algorithm a = Err e -> e_class e = ParseError.
Proof.
  unfold get_digest_algorithm. destruct (negb _); [|destruct (alg_has_params a)];
    intros H; try discriminate H; injection H as <-; reflexivity.
Qed.

(** ** Accuracy *)

Lemma accuracy_add_spec d f u :
  0 <= d < 1000000000 * 86400000000 -> 0 <= opt0 f -> 0 < u ->
  accuracy_add d f u =
  if d + opt0 f * u <? 1000000000 * 86400000000 then Ok (d + opt0 f * u)
  else raise OverflowError "days out of range".
Proof.
  intros Hd Hf Hu. destruct f as [v|]; cbn [opt0 accuracy_add] in *.
  - destruct v as [|p|p]; [| |lia].
    + rewrite Z.mul_0_l, Z.add_0_r. destruct (Z.ltb_spec d (1000000000 * 86400000000)); [reflexivity|lia].
    + remember (Z.pos p) as v. unfold timedelta, us_per_day.
      assert (0 <= v * u) by nia.
      destruct (Z.ltb_spec (d + v * u) (1000000000 * 86400000000)).
      * replace (_ && (v * u <? 1000000000 * 86400000000)) with true by lia. cbn [rbind].
        replace (_ && _) with true by lia. reflexivity.
      * destruct (Z.ltb_spec (v * u) (1000000000 * 86400000000)).
        -- replace (_ && true) with true by lia. cbn [rbind].
           replace (_ && _) with false by lia. reflexivity.
        -- rewrite andb_false_r. reflexivity.
  - rewrite Z.mul_0_l, Z.add_0_r. destruct (Z.ltb_spec d (1000000000 * 86400000000)); [reflexivity|lia].
Qed.

Lemma accuracy_to_python_spec s ms us :
  0 <= opt0 s -> 0 <= opt0 ms -> 0 <= opt0 us ->
  let total := opt0 s * 1000000 + opt0 ms * 1000 + opt0 us in
  accuracy_to_python (Some (s, ms, us)) =
  if total <? 1000000000 * 86400000000 then Ok total
  else raise OverflowError "days out of range".
Proof.
  intros Hs Hm Hu total. unfold accuracy_to_python. subst total.
  rewrite accuracy_add_spec by lia. rewrite Z.add_0_l.
  destruct (Z.ltb_spec (opt0 s * 1000000) (1000000000 * 86400000000)); cbn [rbind].
  - rewrite accuracy_add_spec by lia.
    destruct (Z.ltb_spec (opt0 s * 1000000 + opt0 ms * 1000) (1000000000 * 86400000000)); cbn [rbind].
    + rewrite accuracy_add_spec by lia. rewrite Z.mul_1_r. reflexivity.
    + destruct (Z.ltb_spec (opt0 s * 1000000 + opt0 ms * 1000 + opt0 us) (1000000000 * 86400000000));
        [lia|reflexivity].
  - destruct (Z.ltb_spec (opt0 s * 1000000 + opt0 ms * 1000 + opt0 us) (1000000000 * 86400000000));
        [lia|reflexivity].
Qed.

(** ** Rounding *)

Lemma round_div_near a b : 0 < b -> Z.abs (2 * (b * round_div a b - a)) <= b.
Proof.
  intros Hb. unfold round_div. pose proof (Z.div_mod a b). pose proof (Z.mod_pos_bound a b).
  set (q := a / b) in *. set (r := a mod b) in *.
  destruct (Z.ltb_spec (2 * r) b); [nia|]. destruct (Z.ltb_spec b (2 * r)); [nia|].
  destruct (Z.even q); nia.
Qed.

Lemma round_div_exact q b : 0 < b -> round_div (b * q) b = q.
Proof.
  intros Hb. unfold round_div. rewrite (Z.mul_comm b q), Z.div_mul, Z.mod_mul by lia.
  destruct (Z.ltb_spec (2 * 0) b); lia.
Qed.

Lemma round_div_mono a a' b : 0 < b -> a <= a' -> round_div a b <= round_div a' b.
Proof.
  intros Hb Ha.
  pose proof (Z.div_mod a b ltac:(lia)) as D1. pose proof (Z.div_mod a' b ltac:(lia)) as D2.
  pose proof (Z.mod_pos_bound a b Hb). pose proof (Z.mod_pos_bound a' b Hb).
  pose proof (Z.div_le_mono a a' b Hb Ha).
  unfold round_div.
  set (q := a / b) in *. set (r := a mod b) in *. set (q' := a' / b) in *. set (r' := a' mod b) in *.
  destruct (Z.eq_dec q q') as [E|E].
  - rewrite <- E in *. assert (r <= r') by nia.
    destruct (Z.ltb_spec (2 * r) b), (Z.ltb_spec (2 * r') b), (Z.ltb_spec b (2 * r)),
      (Z.ltb_spec b (2 * r')), (Z.even q); lia.
  - destruct (Z.ltb_spec (2 * r) b), (Z.ltb_spec (2 * r') b), (Z.ltb_spec b (2 * r)),
      (Z.ltb_spec b (2 * r')), (Z.even q), (Z.even q'); lia.
Qed.

Lemma round_div_pos a b : 0 < b -> 0 <= a -> 0 <= round_div a b.
Proof.
  intros Hb Ha. rewrite <- (round_div_exact 0 b Hb). rewrite Z.mul_0_r. now apply round_div_mono.
Qed.

(** ** FILETIME *)

Definition ft_us (n : Z) : Z := double_round (double_div n 10).

(** Exponent of n/10. *)
Definition ft_exp (n : Z) : Z := Z.log2 (16 * n / 10) - 56.

Lemma double_div_10 n :
  0 < n ->
  double_div n 10 =
  if ft_exp n <? 0 then (round_div (n * 2 ^ (- ft_exp n)) 10, ft_exp n)
  else (round_div n (10 * 2 ^ ft_exp n), ft_exp n).
Proof.
  intros H. unfold double_div. destruct (Z.leb_spec n 0); [lia|].
  change (Z.log2 10 + 1) with 4. change (2 ^ 4) with 16. cbv zeta.
  unfold ft_exp. replace (Z.log2 (16 * n / 10) - 4 - 52) with (Z.log2 (16 * n / 10) - 56) by lia.
  reflexivity.
Qed.

Lemma ft_us_eq n :
  0 < n ->
  ft_us n =
  if ft_exp n <? 0 then round_div (round_div (n * 2 ^ (- ft_exp n)) 10) (2 ^ (- ft_exp n))
  else round_div n (10 * 2 ^ ft_exp n) * 2 ^ ft_exp n.
Proof.
  intros H. unfold ft_us. rewrite double_div_10 by assumption.
  destruct (Z.ltb_spec (ft_exp n) 0) as [L|L]; cbn [double_round];
    destruct (Z.ltb_spec (ft_exp n) 0); try lia; reflexivity.
Qed.

Lemma ft_exp_bounds n :
  0 < n -> 2 ^ (ft_exp n + 56) <= 16 * n / 10 < 2 ^ (ft_exp n + 57).
Proof.
  intros H. unfold ft_exp.
  assert (1 <= 16 * n / 10) by (apply Z.div_le_lower_bound; lia).
  pose proof (Z.log2_spec (16 * n / 10) ltac:(lia)) as [L U].
  replace (Z.log2 (16 * n / 10) - 56 + 56) with (Z.log2 (16 * n / 10)) by lia.
  replace (Z.log2 (16 * n / 10) - 56 + 57) with (Z.succ (Z.log2 (16 * n / 10))) by lia.
  lia.
Qed.

Lemma ft_exp_low n : 0 < n -> -56 <= ft_exp n.
Proof.
  intros H. unfold ft_exp. pose proof (Z.log2_nonneg (16 * n / 10)). lia.
Qed.

Lemma pow_pos k : 0 <= k -> 0 < 2 ^ k.
Proof. intros; apply Z.pow_pos_nonneg; lia. Qed.

Lemma ft_us_accurate n : 0 <= n -> n < 10 * 2 ^ 54 -> within_us 1 (ft_us n) n.
Proof.
  intros H0 H1. unfold within_us. destruct (Z.eq_dec n 0) as [->|Hn].
  { change (ft_us 0) with 0. lia. }
  assert (0 < n) as Hp by lia. rewrite (ft_us_eq n Hp).
  pose proof (ft_exp_bounds n Hp) as [B _].
  assert (E1 : ft_exp n <= 1).
  { destruct (Z.le_gt_cases (ft_exp n) 1) as [|G]; [assumption|exfalso].
    assert (2 ^ 58 <= 2 ^ (ft_exp n + 56)) by (apply Z.pow_le_mono_r; lia).
    assert (16 * n / 10 < 2 ^ 58) by (apply Z.div_lt_upper_bound; lia). lia. }
  pose proof (ft_exp_low n Hp) as E0.
  destruct (Z.ltb_spec (ft_exp n) 0) as [L|L].
  - set (j := - ft_exp n). assert (Hj : 0 < 2 ^ j) by (apply pow_pos; lia).
    pose proof (round_div_near (n * 2 ^ j) 10 ltac:(lia)) as R1.
    set (m := round_div (n * 2 ^ j) 10) in *.
    pose proof (round_div_near m (2 ^ j) Hj) as R2.
    set (u := round_div m (2 ^ j)) in *.
    assert (2 <= 2 ^ j).
    { replace 2 with (2 ^ 1) at 1 by reflexivity. apply Z.pow_le_mono_r; lia. }
    set (p := 2 ^ j) in *.
    assert (Z.abs (10 * u * p - n * p) <= 5 + 5 * p) by lia.
    assert (Z.abs (10 * u * p - n * p) <= 10 * p) by lia.
    replace (10 * u * p - n * p) with ((10 * u - n) * p) in * by ring.
    rewrite Z.abs_mul, (Z.abs_eq p) in * by lia. nia.
  - assert (ft_exp n = 0 \/ ft_exp n = 1) as [->| ->] by lia.
    + pose proof (round_div_near n (10 * 2 ^ 0) ltac:(lia)) as R. lia.
    + pose proof (round_div_near n (10 * 2 ^ 1) ltac:(lia)) as R. lia.
Qed.

Lemma ft_us_small n : 0 <= n < 10 -> 0 <= ft_us n <= 1.
Proof.
  intros H.
  assert (n = 0 \/ n = 1 \/ n = 2 \/ n = 3 \/ n = 4 \/ n = 5 \/ n = 6 \/ n = 7 \/ n = 8 \/ n = 9) as D by lia.
  repeat destruct D as [->|D]; try subst n; vm_compute; split; discriminate.
Qed.

Lemma ft_us_small_mono n n' : 0 <= n <= n' -> n' < 10 -> ft_us n <= ft_us n'.
Proof.
  intros H H'.
  assert (n = 0 \/ n = 1 \/ n = 2 \/ n = 3 \/ n = 4 \/ n = 5 \/ n = 6 \/ n = 7 \/ n = 8 \/ n = 9) as D by lia.
  assert (n' = 0 \/ n' = 1 \/ n' = 2 \/ n' = 3 \/ n' = 4 \/ n' = 5 \/ n' = 6 \/ n' = 7 \/ n' = 8 \/ n' = 9) as D' by lia.
  repeat destruct D as [->|D]; try subst n; repeat destruct D' as [->|D']; try subst n'; try lia;
    vm_compute; discriminate.
Qed.

(** From one microsecond on, the result lies between the powers of two around n/10. *)
Lemma ft_us_binade n :
  10 <= n -> 2 ^ (ft_exp n + 52) <= ft_us n <= 2 ^ (ft_exp n + 53).
Proof.
  intros Hn. assert (Hp : 0 < n) by lia. rewrite (ft_us_eq n Hp).
  pose proof (ft_exp_bounds n Hp) as [B1 B2].
  assert (E52 : -52 <= ft_exp n).
  { unfold ft_exp. assert (16 <= 16 * n / 10) by (apply Z.div_le_lower_bound; lia).
    assert (Z.log2 16 <= Z.log2 (16 * n / 10)) by (apply Z.log2_le_mono; lia).
    change (Z.log2 16) with 4 in *. lia. }
  assert (P0 : 2 ^ (ft_exp n + 56) = 16 * 2 ^ (ft_exp n + 52)).
  { replace (ft_exp n + 56) with (4 + (ft_exp n + 52)) by lia. rewrite Z.pow_add_r by lia. reflexivity. }
  assert (P1 : 2 ^ (ft_exp n + 57) = 16 * 2 ^ (ft_exp n + 53)).
  { replace (ft_exp n + 57) with (4 + (ft_exp n + 53)) by lia. rewrite Z.pow_add_r by lia. reflexivity. }
  assert (Q0 : 10 * 2 ^ (ft_exp n + 52) <= n).
  { rewrite P0 in B1. pose proof (Z.mul_div_le (16 * n) 10 ltac:(lia)). lia. }
  assert (Q1 : n < 10 * 2 ^ (ft_exp n + 53)).
  { rewrite P1 in B2. pose proof (Z.mul_succ_div_gt (16 * n) 10 ltac:(lia)). lia. }
  destruct (Z.ltb_spec (ft_exp n) 0) as [L|L].
  - set (j := - ft_exp n) in *. assert (Hj : 0 < 2 ^ j) by (apply pow_pos; lia).
    assert (S0 : 2 ^ 52 = 2 ^ (ft_exp n + 52) * 2 ^ j).
    { rewrite <- Z.pow_add_r by lia. f_equal. lia. }
    assert (S1 : 2 ^ 53 = 2 ^ (ft_exp n + 53) * 2 ^ j).
    { rewrite <- Z.pow_add_r by lia. f_equal. lia. }
    split.
    + rewrite <- (round_div_exact (2 ^ (ft_exp n + 52)) (2 ^ j) Hj).
      apply round_div_mono; [assumption|].
      rewrite Z.mul_comm. rewrite <- (round_div_exact (2 ^ (ft_exp n + 52) * 2 ^ j) 10) by lia.
      apply round_div_mono; [lia|]. nia.
    + rewrite <- (round_div_exact (2 ^ (ft_exp n + 53)) (2 ^ j) Hj).
      apply round_div_mono; [assumption|].
      rewrite (Z.mul_comm (2 ^ j)). rewrite <- (round_div_exact (2 ^ (ft_exp n + 53) * 2 ^ j) 10) by lia.
      apply round_div_mono; [lia|]. nia.
  - assert (Hk : 0 < 2 ^ ft_exp n) by (apply pow_pos; lia).
    assert (S0 : 2 ^ (ft_exp n + 52) = 2 ^ 52 * 2 ^ ft_exp n).
    { rewrite <- Z.pow_add_r by lia. f_equal. lia. }
    assert (S1 : 2 ^ (ft_exp n + 53) = 2 ^ 53 * 2 ^ ft_exp n).
    { rewrite <- Z.pow_add_r by lia. f_equal. lia. }
    rewrite S0, S1 in *. split.
    + apply Z.mul_le_mono_nonneg_r; [lia|].
      rewrite <- (round_div_exact (2 ^ 52) (10 * 2 ^ ft_exp n)) by lia.
      apply round_div_mono; lia.
    + apply Z.mul_le_mono_nonneg_r; [lia|].
      rewrite <- (round_div_exact (2 ^ 53) (10 * 2 ^ ft_exp n)) by lia.
      apply round_div_mono; lia.
Qed.

Lemma ft_us_mono n n' : 0 <= n <= n' -> ft_us n <= ft_us n'.
Proof.
  intros H. destruct (Z.lt_ge_cases n' 10) as [L|L]; [apply ft_us_small_mono; lia|].
  pose proof (ft_us_binade n' L) as [B' _].
  assert (E' : -52 <= ft_exp n').
  { unfold ft_exp. assert (16 <= 16 * n' / 10) by (apply Z.div_le_lower_bound; lia).
    assert (Z.log2 16 <= Z.log2 (16 * n' / 10)) by (apply Z.log2_le_mono; lia).
    change (Z.log2 16) with 4 in *. lia. }
  destruct (Z.lt_ge_cases n 10) as [G|G].
  - pose proof (ft_us_small n ltac:(lia)).
    assert (1 <= 2 ^ (ft_exp n' + 52)) by (assert (0 < 2 ^ (ft_exp n' + 52)) by (apply pow_pos; lia); lia).
    lia.
  - assert (Hle : ft_exp n <= ft_exp n').
    { unfold ft_exp. assert (16 * n / 10 <= 16 * n' / 10) by (apply Z.div_le_mono; lia).
      assert (Z.log2 (16 * n / 10) <= Z.log2 (16 * n' / 10)) by (apply Z.log2_le_mono; assumption).
      lia. }
    destruct (Z.eq_dec (ft_exp n) (ft_exp n')) as [E|E].
    + rewrite (ft_us_eq n), (ft_us_eq n') by lia. rewrite <- E.
      destruct (Z.ltb_spec (ft_exp n) 0).
      * assert (0 < 2 ^ (- ft_exp n)) by (apply pow_pos; lia).
        apply round_div_mono; [assumption|]. apply round_div_mono; [lia|]. nia.
      * assert (0 < 2 ^ ft_exp n) by (apply pow_pos; lia).
        apply Z.mul_le_mono_nonneg_r; [lia|]. apply round_div_mono; lia.
    + pose proof (ft_us_binade n G) as [_ B].
      assert (2 ^ (ft_exp n + 53) <= 2 ^ (ft_exp n' + 52)) by (apply Z.pow_le_mono_r; lia). lia.
Qed.

Lemma ft_us_nonneg n : 0 <= n -> 0 <= ft_us n.
Proof. intros H. change 0 with (ft_us 0) at 1. apply ft_us_mono. lia. Qed.

Lemma filetime_native_eq c :
  zlen c = 8 ->
  filetime_native c =
  let us := ft_us (le_to_Z c) in
  if datetime_max_us <? us then
    (if us <? 1000000000 * us_per_day then raise OverflowError "date value out of range"
     else raise OverflowError "days out of range")
  else Ok (Some us).
Proof.
  intros H. unfold filetime_native. destruct c as [|x c]; [discriminate H|].
  rewrite H, Z.eqb_refl. cbn [negb]. fold (ft_us (le_to_Z (x :: c))). cbv zeta.
  pose proof (ft_us_nonneg _ (le_to_Z_nonneg (x :: c))) as N.
  set (us := ft_us (le_to_Z (x :: c))) in *. clearbody us.
  unfold timedelta, datetime_max_us, us_per_day.
  destruct (Z.ltb_spec us (1000000000 * 86400000000)).
  - replace (_ && true) with true by lia. reflexivity.
  - rewrite andb_false_r. cbn [rbind raise].
    destruct (Z.ltb_spec (3067671 * 86400000000 - 1) us); [reflexivity|lia].
Qed.

Lemma filetime_accurate c :
  zlen c = 8 -> le_to_Z c < 10 * year_2170_us ->
  exists us, filetime_native c = Ok (Some us) /\ within_us 1 us (le_to_Z c).
Proof.
  intros H B. rewrite (filetime_native_eq c H). cbv zeta. unfold year_2170_us in B.
  pose proof (le_to_Z_nonneg c).
  pose proof (ft_us_accurate (le_to_Z c) ltac:(lia) ltac:(lia)) as A.
  exists (ft_us (le_to_Z c)). split; [|assumption]. unfold within_us in A.
  unfold datetime_max_us, us_per_day.
  destruct (Z.ltb_spec (3067671 * 86400000000 - 1) (ft_us (le_to_Z c))); [lia|reflexivity].
Qed.

Lemma filetime_mono c d a b :
  zlen c = 8 -> zlen d = 8 -> le_to_Z c <= le_to_Z d ->
  filetime_native c = Ok (Some a) -> filetime_native d = Ok (Some b) -> a <= b.
Proof.
  intros Hc Hd L. rewrite (filetime_native_eq c Hc), (filetime_native_eq d Hd). cbv zeta.
  pose proof (le_to_Z_nonneg c). pose proof (ft_us_mono (le_to_Z c) (le_to_Z d) ltac:(lia)) as M.
  destruct (datetime_max_us <? ft_us (le_to_Z c)); [destruct (_ <? _); discriminate|].
  destruct (datetime_max_us <? ft_us (le_to_Z d)); [destruct (_ <? _); discriminate|].
  intros Ea Eb. injection Ea as <-. injection Eb as <-. assumption.
Qed.

(** Failures only beyond the representable years, and upward closed. *)
Lemma filetime_fail c e :
  filetime_native c = Err e ->
  (zlen c <> 8 /\ e_class e = StructError) \/
  (zlen c = 8 /\ e_class e = OverflowError /\ 10 * datetime_max_us < le_to_Z c + 1000).
Proof.
  destruct (Z.eq_dec (zlen c) 8) as [H|H].
  - rewrite (filetime_native_eq c H). cbv zeta. intros F. right. split; [assumption|].
    destruct (Z.ltb_spec datetime_max_us (ft_us (le_to_Z c))) as [L|L]; [|discriminate F].
    split; [destruct (_ <? _); injection F as <-; reflexivity|].
    destruct (Z.le_gt_cases (10 * datetime_max_us) (le_to_Z c + 999)) as [G|G]; [lia|exfalso].
    assert (ft_us (le_to_Z c) <= ft_us (10 * datetime_max_us - 1000)).
    { apply ft_us_mono. pose proof (le_to_Z_nonneg c). lia. }
    assert (ft_us (10 * datetime_max_us - 1000) <= datetime_max_us) by (vm_compute; discriminate).
    lia.
  - intros F. left. split; [assumption|]. unfold filetime_native in F. destruct c as [|x c]; [discriminate F|].
    destruct (Z.eqb_spec (zlen (x :: c)) 8); [contradiction|]. cbn [negb] in F. injection F as <-. reflexivity.
Qed.

(** ** FileTime.set *)

Lemma double_div_exact q b :
  0 < q < 2 ^ 53 -> 0 < b ->
  double_div (q * b) b = (q * 2 ^ (52 - Z.log2 q), Z.log2 q - 52).
Proof.
  intros Hq Hb. unfold double_div. destruct (Z.leb_spec (q * b) 0); [nia|]. cbv zeta.
  pose proof (Z.log2_nonneg b). pose proof (Z.log2_nonneg q).
  assert (Z.log2 q < 53) by (apply Z.log2_lt_pow2; lia).
  rewrite Z.mul_assoc, Z.div_mul by lia. rewrite Z.mul_comm, Z.log2_mul_pow2 by lia.
  replace (Z.log2 q + (Z.log2 b + 1) - (Z.log2 b + 1) - 52) with (Z.log2 q - 52) by lia.
  replace (Z.log2 b + 1 + Z.log2 q - (Z.log2 b + 1) - 52) with (Z.log2 q - 52) by lia.
  destruct (Z.ltb_spec (Z.log2 q - 52) 0).
  - f_equal. replace (- (Z.log2 q - 52)) with (52 - Z.log2 q) by lia.
    replace (q * b * 2 ^ (52 - Z.log2 q)) with (b * (q * 2 ^ (52 - Z.log2 q))) by ring.
    now apply round_div_exact.
  - replace (Z.log2 q - 52) with 0 by lia. replace (52 - Z.log2 q) with 0 by lia.
    change (2 ^ 0) with 1. rewrite !Z.mul_1_r. f_equal.
    rewrite Z.mul_comm. now apply round_div_exact.
Qed.

Lemma double_exact_trunc q :
  0 < q < 2 ^ 53 -> double_trunc (q * 2 ^ (52 - Z.log2 q), Z.log2 q - 52) = q.
Proof.
  intros Hq. pose proof (Z.log2_nonneg q).
  assert (Z.log2 q < 53) by (apply Z.log2_lt_pow2; lia). cbn [double_trunc].
  destruct (Z.ltb_spec (Z.log2 q - 52) 0).
  - replace (- (Z.log2 q - 52)) with (52 - Z.log2 q) by lia.
    rewrite Z.div_mul; [reflexivity|]. apply Z.pow_nonzero; lia.
  - replace (Z.log2 q) with 52 by lia. change (2 ^ (52 - 52)) with 1. lia.
Qed.

Lemma double_exact_round q :
  0 < q < 2 ^ 53 -> double_round (q * 2 ^ (52 - Z.log2 q), Z.log2 q - 52) = q.
Proof.
  intros Hq. pose proof (Z.log2_nonneg q).
  assert (Z.log2 q < 53) by (apply Z.log2_lt_pow2; lia). cbn [double_round].
  destruct (Z.ltb_spec (Z.log2 q - 52) 0).
  - replace (- (Z.log2 q - 52)) with (52 - Z.log2 q) by lia.
    rewrite Z.mul_comm. apply round_div_exact, pow_pos. lia.
  - replace (Z.log2 q) with 52 by lia. change (2 ^ (52 - 52)) with 1. lia.
Qed.

Lemma double_mul_exact q n :
  0 < q < 2 ^ 53 -> 0 < n -> q * n < 2 ^ 53 ->
  double_mul (q * 2 ^ (52 - Z.log2 q), Z.log2 q - 52) n =
  (q * n * 2 ^ (52 - Z.log2 (q * n)), Z.log2 (q * n) - 52).
Proof.
  intros Hq Hn Hqn. pose proof (Z.log2_nonneg q).
  assert (Z.log2 q < 53) by (apply Z.log2_lt_pow2; lia). cbn [double_mul].
  destruct (Z.ltb_spec (Z.log2 q - 52) 0).
  - replace (- (Z.log2 q - 52)) with (52 - Z.log2 q) by lia.
    replace (q * 2 ^ (52 - Z.log2 q) * n) with (q * n * 2 ^ (52 - Z.log2 q)) by ring.
    apply double_div_exact; [nia|]. apply pow_pos; lia.
  - replace (Z.log2 q) with 52 by lia. change (2 ^ (52 - 52)) with 1.
    rewrite !Z.mul_1_r. rewrite <- (Z.mul_1_r (q * n)) at 1. apply double_div_exact; nia.
Qed.

(** A time [s] whole seconds after the epoch is stored as 100 s and read back as 10 s
    microseconds after the epoch. *)
Lemma filetime_set_whole s :
  0 < s <= 300000000000 ->
  filetime_set true (s * 1000000) = Ok (Z_to_le 8 (100 * s)) /\
  filetime_native (Z_to_le 8 (100 * s)) = Ok (Some (10 * s)).
Proof.
  intros Hs. split.
  - unfold filetime_set. cbn [negb]. destruct (Z.leb_spec (s * 1000000) (-10000)); [lia|].
    destruct (Z.ltb_spec (s * 1000000) 0); [lia|].
    rewrite double_div_exact by lia. rewrite double_mul_exact by lia.
    rewrite double_exact_trunc by lia. destruct (Z.leb_spec (2 ^ 64) (s * 100)); [lia|].
    now rewrite Z.mul_comm.
  - rewrite filetime_native_eq by (unfold zlen; now rewrite Z_to_le_length).
    rewrite le_to_Z_to_le by (change (256 ^ Z.of_nat 8) with (2 ^ 64); lia). cbv zeta.
    unfold ft_us. replace (100 * s) with (10 * s * 10) by ring.
    rewrite double_div_exact by lia. rewrite double_exact_round by lia.
    unfold datetime_max_us, us_per_day. destruct (Z.ltb_spec (3067671 * 86400000000 - 1) (10 * s)); [lia|].
    reflexivity.
Qed.

Lemma filetime_epoch :
  filetime_set true 0 = Ok (Z_to_le 8 0) /\ filetime_native (Z_to_le 8 0) = Ok (Some 0).
Proof. split; reflexivity. Qed.

(** Whole multiples of ten ticks are read exactly until 2^53 microseconds (the year 1886). *)
Lemma filetime_exact q :
  0 <= q < 2 ^ 53 -> filetime_native (Z_to_le 8 (10 * q)) = Ok (Some q).
Proof.
  intros Hq. rewrite filetime_native_eq by (unfold zlen; now rewrite Z_to_le_length).
  rewrite le_to_Z_to_le by (change (256 ^ Z.of_nat 8) with (2 ^ 64); lia). cbv zeta.
  destruct (Z.eq_dec q 0) as [->|Hn]; [reflexivity|].
  unfold ft_us. rewrite (Z.mul_comm 10 q). rewrite double_div_exact by lia.
  rewrite double_exact_round by lia. unfold datetime_max_us, us_per_day.
  destruct (Z.ltb_spec (3067671 * 86400000000 - 1) q); [lia|]. reflexivity.
Qed.
