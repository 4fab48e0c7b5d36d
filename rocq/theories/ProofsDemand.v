(** Proofs about names that are decoded on demand during verification. *)
From Verif Require Import Base Monad ModelFile ModelFingerprint ModelPE ModelX509 SpecX509 ProofsX509 ModelContext SpecContext ProofsContext
  ModelPkcs7 ModelAuthenticode SpecExact ModelName SpecName ProofsName ModelDemand SpecDemand.

Lemma not_sound_broken n : ~ sound n -> exists e, broken n e.
Proof. intros N. destruct (name_cases n) as [[m K]|(e & after & K)]; [destruct N; now exists m|]. exists e. now exists after. Qed.
Lemma sound_dec n : sound n \/ exists e, broken n e.
Proof. destruct (name_cases n) as [[m K]|(e & after & K)]; [left; now exists m|right]. exists e. now exists after. Qed.

Lemma dn_loop_sound l items : dn_loop l = Ok items -> exists xs, Forall2 reads l xs.
Proof.
  revert items. induction l as [|r l IH]; intros items K; [exists []; constructor|]. cbn [dn_loop] in K.
  destruct (rdn_cases r) as [[x R]|[e R]].
  - rewrite (reads_comp _ _ R) in K. cbn [rbind la_oid la_value] in K. destruct (a_val x); [|discriminate].
    destruct (dn_loop l) as [y|]; [|discriminate]. destruct (IH y eq_refl) as [xs L]. exists (x :: xs). now constructor.
  - exfalso. rewrite (fails_comp r e (fun o v => match v with
      | VStr u => let? items := dn_loop l in Ok ((ustr_of (rdn_type o) ++ [61%N] ++ dn_value u) :: items)
      | VBytes _ => raise TypeError "cannot use a string pattern on a bytes-like object" end) R) in K. discriminate.
Qed.
Lemma dn_ok_sound n t : lz_dn n = Ok t -> sound n.
Proof.
  unfold lz_dn. destruct n as [l|]; cbn [rbind]; [|discriminate]. destruct (dn_loop (rev l)) as [x|] eqn:D; [|discriminate]. intros _.
  destruct (dn_loop_sound _ _ D) as [xs L]. apply forall2_rev in L. rewrite rev_involutive in L.
  exists (map (fun y => mkRdn y []) (rev xs)). exists l. split; [reflexivity|]. apply forall2_map.
  rewrite map_map. cbn [r_first]. now rewrite map_id.
Qed.

Section demand.
Context (E : env) (U : names) (H : Prop).
Context (F : faithful U) (N : foreign_names U).

Definition bad (e : exn) : Prop := undecodable U e /\ ~ H.

Lemma broken_foreign n e : raises_foreign n -> broken n e -> foreign e.
Proof.
  intros [R1 R2] [after [[B _]|(front & r & back & B & K & _)]]; [now apply R1|].
  eapply R2; [exact B| |exact K]. apply in_or_app. right. now left.
Qed.
Lemma unprintable_foreign n e : raises_foreign n -> unprintable n e -> foreign e.
Proof.
  intros [R1 R2] [B|(front & r & back & after & B & _ & _ & [K|(o & b & _ & K)])]; [now apply R1| |].
  - eapply R2; [exact B| |exact K]. apply in_or_app. right. now left.
  - unfold foreign, ordinary. now rewrite K.
Qed.
Lemma bad_foreign e : bad e -> foreign e.
Proof.
  destruct N as [N1 N2]. intros [[[c [B|[B|[_ B]]]]|[i B]] _].
  - exact (broken_foreign _ _ (proj1 (N1 c)) B).
  - exact (broken_foreign _ _ (proj2 (N1 c)) B).
  - exact (unprintable_foreign _ _ (proj2 (N1 c)) B).
  - exact (broken_foreign _ _ (N2 i) B).
Qed.

(** ** Values *)

Definition req {A} (x y : res A) : Prop := x = y \/ exists e, x = Err e /\ bad e.

Lemma req_refl {A} (x : res A) : req x x.
Proof. now left. Qed.
Lemma req_bind {A B} (x y : res A) (f g : A -> res B) : req x y -> (forall a, req (f a) (g a)) -> req (let? a := x in f a) (let? a := y in g a).
Proof.
  intros [->|(e & -> & B')] K; [|right; exists e; auto]. destruct y as [a|e]; cbn [rbind]; [apply K|now left].
Qed.
Lemma req_name a b m m' :
  (sound a -> stands_for a m) -> (sound b -> stands_for b m') ->
  (forall e, broken a e -> bad e) -> (forall e, broken b e -> bad e) ->
  req (lz_name_eq a b) (Ok (name_eqb m m')).
Proof.
  intros A1 B1 A2 B2. unfold lz_name_eq, name_eqb.
  destruct (sound_dec a) as [Sa|[e Ba]].
  - rewrite (rdns_sound _ _ (A1 Sa)). cbn [rbind]. destruct (sound_dec b) as [Sb|[e Bb]].
    + rewrite (rdns_sound _ _ (B1 Sb)). now left.
    + rewrite (rdns_broken _ _ Bb). right. exists e. auto.
  - rewrite (rdns_broken _ _ Ba). right. exists e. auto.
Qed.

Definition fine (c : cert) : Prop := H -> legible U c.

Lemma issuer_bad c e : fine c -> broken (n_issuer U c) e -> bad e.
Proof. intros K B. split; [left; exists c; auto|]. intros h. exact (sound_broken _ _ (proj1 (K h)) B). Qed.
Lemma subject_bad c e : fine c -> broken (n_subject U c) e -> bad e.
Proof. intros K B. split; [left; exists c; auto|]. intros h. exact (sound_broken _ _ (proj2 (K h)) B). Qed.

Lemma req_and (a a' b b' : res bool) : req a a' -> req b b' -> req (and_then a b) (and_then a' b').
Proof. intros Ha Hb. unfold and_then. apply req_bind; [exact Ha|]. intros [|]; [exact Hb|now left]. Qed.

Lemma req_cert_eq x c : fine x -> fine c -> req (lz_cert_eq (nd_cert E U x) (nd_cert E U c)) (Ok (cert_eqb x c)).
Proof.
  intros Fx Fc. destruct F as (F1 & F2 & _ & _). unfold lz_cert_eq, nd_cert, cert_eqb.
  cbn [lo_issuer lo_serial lo_subject lo_alg lo_params lo_bits].
  match goal with |- req _ ?r => replace r with (and_then (Ok (name_eqb (c_issuer x) (c_issuer c)))
    (and_then (Ok (Z.eqb (c_serial x) (c_serial c))) (and_then (Ok (name_eqb (c_subject x) (c_subject c)))
    (Ok (String.eqb (k_alg (c_key x)) (k_alg (c_key c)) && pkparams_eqb (k_params (c_key x)) (k_params (c_key c)) &&
         bytes_eqb (k_bits (c_key x)) (k_bits (c_key c))))))) end.
  - apply req_and; [|apply req_and; [apply req_refl|apply req_and; [|apply req_refl]]].
    + apply req_name; auto; intros e; apply issuer_bad; assumption.
    + apply req_name; auto; intros e; apply subject_bad; assumption.
  - unfold and_then. cbn [rbind]. destruct (name_eqb (c_issuer x) (c_issuer c)), (Z.eqb (c_serial x) (c_serial c)),
      (name_eqb (c_subject x) (c_subject c)); reflexivity.
Qed.

Lemma req_in c l : fine c -> Forall fine l -> req (nd_in E U c l) (Ok (cert_mem c l)).
Proof.
  intros Fc. unfold nd_in, cert_mem. induction 1 as [|x l Fx Fl IH]; [now left|]. cbn [map lz_cert_in existsb].
  destruct (Z.eqb_spec (lo_id (nd_cert E U x)) (lo_id (nd_cert E U c))) as [K|K].
  - cbn [nd_cert lo_id] in K. apply (proj2 (proj2 (proj2 F))) in K. subst x. rewrite cert_eqb_refl. now left.
  - destruct (req_cert_eq x c Fx Fc) as [->|(e & -> & B)]; [|right; exists e; auto]. cbn [rbind].
    rewrite (cert_eqb_sym c x). destruct (cert_eqb x c); [now left|exact IH].
Qed.

Definition fine_signer (i : sinfo) : Prop := H -> legible_signer U i.

Lemma req_matches i c : fine_signer i ->
  req (lz_matches (nd_by_issuer_serial U i) (nd_cert E U c)) (Ok (query_matches E (by_issuer_serial i) c)).
Proof.
  intros Fi. destruct F as (F1 & _ & F3 & _). unfold lz_matches, nd_by_issuer_serial, query_matches, by_issuer_serial, nd_cert.
  cbn [lq_subject lq_serial lq_issuer lq_sha256 q_subject q_serial q_issuer q_sha256 lo_subject lo_serial lo_issuer lo_sha256].
  unfold and_then at 1 2. cbn [rbind].
  destruct (Z.eqb_spec (c_serial c) (si_serial i)) as [K|K]; [|now left].
  rewrite andb_true_r. unfold and_then. cbn [andb].
  assert (req (lz_name_eq (n_issuer U c) (n_signer U i)) (Ok (name_eqb (c_issuer c) (si_issuer i)))) as R.
  { apply req_name; auto; intros e B.
    - apply (issuer_bad c); [|exact B]. intros h. now apply (proj2 (Fi h)).
    - split; [right; now exists i|]. intros h. exact (sound_broken _ _ (proj1 (Fi h)) B). }
  destruct R as [->|(e & -> & B)]; [|right; exists e; auto]. cbn [rbind].
  destruct (name_eqb (c_issuer c) (si_issuer i)); now left.
Qed.

Lemma req_raise {A} c k m : fine c -> req (@nd_raise A U c k m) (raise_fmt c k m).
Proof.
  intros Fc. destruct F as (_ & F2 & _). unfold nd_raise, raise_fmt, cert_str.
  destruct (sound_dec (n_subject U c)) as [S|[e0 B]].
  - rewrite (dn_sound _ _ (F2 _ S)). destruct (dn (c_subject c)); now left.
  - destruct (lz_dn (n_subject U c)) as [t|e] eqn:D.
    + exfalso. assert (sound (n_subject U c)) as S; [|exact (sound_broken _ _ S B)].
      exact (dn_ok_sound _ _ D).
    + right. exists e. split; [reflexivity|]. split.
      * left. exists c. right. right. split; [|now apply dn_error]. intros S. exact (sound_broken _ _ S B).
      * intros h. exact (sound_broken _ _ (proj2 (Fc h)) B).
Qed.

Lemma req_verify_signature c sg d alg leg : fine c ->
  req (nd_verify_signature E U c sg d alg leg) (verify_signature E c sg d alg leg).
Proof.
  intros Fc. unfold nd_verify_signature, verify_signature. apply req_bind; [apply req_refl|]. intros k. apply req_bind.
  - destruct (String.eqb k "rsa"); [now left|]. destruct (String.eqb k "dsa"); [now left|].
    destruct (String.eqb k "ec"); [now left|]. now apply req_raise.
  - intros f. destruct (f (c_key c) sg d alg) as [|e]; [now left|]. destruct (negb (catches Exception_ e)); [now left|].
    destruct (negb leg || negb (String.eqb k "rsa")); [now apply req_raise|].
    destruct (e_rsa_verify E (c_key c) sg (e_hash E alg d) "raw") as [|e']; [now left|].
    destruct (negb (catches Exception_ e')); [now left|now apply req_raise].
Qed.

Lemma bad_not_caught e : bad e -> catches VerificationError e = false.
Proof. intros B. exact (proj2 (bad_foreign e B)). Qed.
Lemma bad_not_caught' e : bad e -> catches CertificateNotTrustedVerificationError e = false.
Proof.
  intros B. apply bad_not_caught in B. unfold catches in *. destruct (e_class e); try reflexivity; discriminate.
Qed.

Lemma req_verify_issuer_signature i c leg : fine c ->
  req (nd_verify_issuer_signature E U i c leg) (verify_issuer_signature E i c leg).
Proof.
  intros Fc. unfold nd_verify_issuer_signature, verify_issuer_signature.
  destruct (req_verify_signature c (si_signature i) (si_encoded i) (si_digest_alg i) leg Fc) as [->|(e & -> & B)].
  - destruct (verify_signature _ _ _ _ _ _) as [|e]; [now left|]. destruct (catches VerificationError e); [now apply req_raise|now left].
  - rewrite (bad_not_caught _ B). right. exists e. auto.
Qed.
End demand.
