(** Property C64: exactly when signatures and files are accepted. *)
From Verif Require Import Base Bytes Monad ModelFile ModelFingerprint SpecFingerprint ProofsFingerprint ModelPE SpecPE ModelX509 SpecX509
  ModelContext SpecContext ProofsContext ProofsContext2 ModelPkcs7 ModelAuthenticode SpecAuthenticode SpecSignedPE SpecComplete
  SpecFrame SpecExact ProofsExact ProofsExact2 PropertiesFingerprint
  PropertiesX509 PropertiesContext PropertiesPE PropertiesPkcs7 PropertiesSigner PropertiesAuthenticode PropertiesSignedPE PropertiesComplete.

(** A SignedData is accepted for a hash, with these chains, iff it is authentic: with any
    number of candidates, in all modes for countersignatures. *)
Theorem C64_exact :
  forall E fuel a h v w chains, lawful E -> tidy w v a ->
  (snd (asd_verify E fuel a (Some h) v w) = Ok chains <-> authentic E w v a h chains).
Proof. exact c64_exact. Qed.
Print Assumptions C64_exact.

(** The chains are determined, and anything else is an ordinary exception. *)
Theorem C64_decided :
  forall E fuel a h v w, lawful E -> tidy w v a ->
  (exists chains, snd (asd_verify E fuel a (Some h) v w) = Ok chains /\ authentic E w v a h chains /\
     forall other, authentic E w v a h other -> other = chains) \/
  ((forall chains, ~ authentic E w v a h chains) /\
   exists e, snd (asd_verify E fuel a (Some h) v w) = Err e /\ ordinary e).
Proof. exact c64_cases. Qed.
Print Assumptions C64_decided.

(** A file is accepted iff its signatures can be read, there is one, the names of the given
    hashes are known, and the signatures that the mode chooses are authentic: all of them, or
    the first that is. *)
Theorem C64_file :
  forall load E depth mode expected ign v w, lawful E ->
  (forall l, terminates_with (fun k => iterate load depth true ign k (w_file w)) (l, None) ->
     shareable w v l /\ forall a, In a l -> tidy w v a) ->
  forall out, settles load E depth expected ign v mode w (Ok out) <->
  exists l, terminates_with (fun k => iterate load depth true ign k (w_file w)) (l, None) /\ l <> [] /\
    known_names E expected /\ accepted_as E w v expected mode l out.
Proof. exact c64_file. Qed.
Print Assumptions C64_file.

(** ** Examples *)

Lemma ex_lawful E : (forall k, e_load_key E k = e_load_key ex_env k) ->
  (forall k s d a, e_rsa_verify E k s d a = e_rsa_verify ex_env k s d a) ->
  (forall k s d a, e_dsa_verify E k s d a = e_dsa_verify ex_env k s d a) ->
  (forall k s d a, e_ecdsa_verify E k s d a = e_ecdsa_verify ex_env k s d a) ->
  (forall r t o c i, e_mk_validation E r t o c i = Ok tt) ->
  (forall r t o c i ku eku b e, e_validate E r t o c i ku eku b = Err e -> ordinary e) -> lawful E.
Proof.
  intros H1 H2 H3 H4 H5 H6. split; [|split; [|split; [|split; [|split]]]].
  - intros k e. rewrite H1. cbn [ex_env e_load_key]. destruct (String.eqb _ _); [|discriminate]. intros [= <-]. split; reflexivity.
  - intros k s d a e. rewrite H2. cbn [ex_env e_rsa_verify]. destruct (bytes_eqb s d); [discriminate|]. intros [= <-]. reflexivity.
  - intros k s d a e. rewrite H3. cbn [ex_env e_dsa_verify]. destruct (bytes_eqb s d); [discriminate|]. intros [= <-]. reflexivity.
  - intros k s d a e. rewrite H4. cbn [ex_env e_ecdsa_verify]. destruct (bytes_eqb s d); [discriminate|]. intros [= <-]. reflexivity.
  - intros r t o c i e. rewrite H5. discriminate.
  - exact H6.
Qed.

(** Four candidates: of one the key is not supported, of one the validator finds no chain, two
    are accepted, one of them due to the time of the countersignature. *)
Definition ex_third : cert := mkCert 20 [x20] ex_int_name 4 ex_int_name ex_key 0 800 (Some ["code_signing"]).
Definition ex_crowd : list cert := [ex_int; ex_unsupported; ex_lure; ex_third; ex_lifetime; ex_tsa].
Example ex_lure_lawful : lawful ex_lure_env.
Proof.
  apply ex_lawful; try reflexivity. intros r t o c i ku eku b e.
  cbn [ex_lure_env ex_tenv with_validator e_validate]. destruct (c_id c =? 19); [intros [= <-]; reflexivity|].
  destruct t as [[t|t]|]; [destruct (t <=? 800)| |]; try discriminate; intros [= <-]; reflexivity.
Qed.
Example ex_crowd_tidy cs mode : (cs = Some ex_good \/ cs = Some ex_forged \/ cs = None) ->
  tidy ex_w (ex_v None None mode) (ex_asd cs ex_crowd).
Proof.
  intros Cs.
  assert (So : sound [ex_trusted; shipped (ex_data ex_crowd)]).
  { split; [repeat apply Forall_cons; try apply Forall_nil; intros ? H; discriminate H|].
    change (identified [ex_root; ex_int; ex_unsupported; ex_lure; ex_third; ex_lifetime; ex_tsa]). ids. }
  split; [intros x y H; discriminate H|]. split.
  - do 2 eexists. split; [exists ex_trusted; repeat split|]. apply So.
  - intros c [H _]. destruct Cs as [->|[->| ->]]; cbn [ex_asd asd_signer asi_cs] in H; try discriminate H; injection H as <-;
      (do 2 eexists; split; [exists ex_trusted; repeat split|]; apply So).
Qed.
Definition ex_crowd_chains : list (list cert) := [[ex_root; ex_int; ex_third]; [ex_root; ex_int; ex_lifetime]].
Example C64_crowd :
  let v mode := ex_v None None mode in
  authentic ex_lure_env ex_w (v "strict") (ex_asd (Some ex_good) ex_crowd) [x07] ex_crowd_chains /\
  (forall chains, ~ authentic ex_lure_env ex_w (v "ignore") (ex_asd (Some ex_good) ex_crowd) [x07] chains) /\
  (forall chains, ~ authentic ex_lure_env ex_w (v "strict") (ex_asd (Some ex_good) ex_crowd) [x08] chains).
Proof.
  cbv zeta. split; [|split].
  - apply (C64_exact _ 0); [exact ex_lure_lawful|apply ex_crowd_tidy; auto|]. vm_compute. reflexivity.
  - intros chains H. apply (C64_exact _ 0) in H; [|exact ex_lure_lawful|apply ex_crowd_tidy; auto]. vm_compute in H. discriminate H.
  - intros chains H. apply (C64_exact _ 0) in H; [|exact ex_lure_lawful|apply ex_crowd_tidy; auto]. vm_compute in H. discriminate H.
Qed.

(** A countersignature that does not hold, in the two modes that check it: the chains are
    valid without it. *)
Example C64_forged :
  authentic ex_venv ex_w (ex_v None None "permit") (ex_asd (Some ex_forged) ex_crowd) [x07]
    [[ex_root; ex_int; ex_lure]; [ex_root; ex_int; ex_third]; [ex_root; ex_int; ex_lifetime]] /\
  (forall chains, ~ authentic ex_venv ex_w (ex_v None None "strict") (ex_asd (Some ex_forged) ex_crowd) [x07] chains).
Proof.
  assert (L : lawful ex_venv) by (apply ex_lawful; try reflexivity; discriminate). split.
  - apply (C64_exact _ 0); [exact L|apply ex_crowd_tidy; auto|]. vm_compute. reflexivity.
  - intros chains H. apply (C64_exact _ 0) in H; [|exact L|apply ex_crowd_tidy; auto]. vm_compute in H. discriminate H.
Qed.

(** The search in the first example, step by step. *)
Example C64_search :
  let cx := default_context [0; 2]%nat "code_signing" no_kwargs in
  let l := [ex_trusted; shipped (ex_data ex_crowd)] in
  candidate_list ex_asigner (concat (map contents l)) [ex_unsupported; ex_lure; ex_third; ex_lifetime] /\
  declines ex_lure_env false ex_asigner ex_unsupported /\
  signs ex_lure_env false ex_asigner ex_lure /\ refuses ex_lure_env (at_time (Some (Aware 700)) cx) l ex_lure /\
  next_time lifetime (Some (Aware 700)) None ex_lure (Some (Aware 700)) /\
  next_time lifetime (Some (Aware 700)) (Some (Aware 700)) ex_lifetime (Some (Aware 700)) /\ next_time lifetime (Some (Aware 700)) None ex_lifetime None.
Proof.
  cbv zeta. set (cx := default_context _ _ _). set (l := [_; _]).
  assert (CL : candidate_list ex_asigner (concat (map contents l)) [ex_unsupported; ex_lure; ex_third; ex_lifetime]).
  { pose proof (ProofsSigner2.candidates_list ex_lure_env ex_asigner l) as H.
    replace (ProofsSigner2.candidates ex_lure_env ex_asigner l) with [ex_unsupported; ex_lure; ex_third; ex_lifetime] in H by (vm_compute; reflexivity).
    exact H. }
  assert (LT : lifetime ex_lifetime) by (eexists; split; [reflexivity|right; left; reflexivity]).
  assert (NL : ~ lifetime ex_lure).
  { intros (u & H & I). injection H as <-. destruct I as [I|[]]; discriminate I. }
  split; [exact CL|]. split.
  { split; [|split; [eexists; reflexivity|apply ProofsX509.dn_total; vm_compute; eauto]].
    intros H. apply ProofsComplete.issuer_signature_exact in H. vm_compute in H. discriminate H. }
  split; [apply ProofsComplete.issuer_signature_exact; vm_compute; reflexivity|]. split.
  { split; [reflexivity|]. left. split; [eexists; reflexivity|apply ProofsX509.dn_total; vm_compute; eauto]. }
  split; [split; [intros [H|H]; [discriminate H|contradiction]|reflexivity]|].
  split; split; try reflexivity; contradiction.
Qed.

(** Files: two signatures, of which the first is authentic and the second is not. *)
Example C64_pair :
  let load := ex_of "sha1" true "sha256" false in
  let w := ex_worldf ex_pair in
  let v := ex_v None None "strict" in
  lawful ex_venv /\
  (forall l, terminates_with (fun k => iterate load 9 true true k (w_file w)) (l, None) ->
     shareable w v l /\ forall a, In a l -> tidy w v a) /\
  (exists a, settles load ex_venv 9 None true v "first" w (Ok [(a, ex_chain)]) /\
     settles load ex_venv 9 None true v "any" w (Ok [(a, ex_chain)])) /\
  (forall out, ~ settles load ex_venv 9 None true v "all" w (Ok out)) /\
  (forall out, ~ settles load ex_venv 9 None true v "best" w (Ok out)).
Proof.
  cbv zeta. assert (L : lawful ex_venv) by (apply ex_lawful; try reflexivity; discriminate).
  assert (T : exists a b, iterate (ex_of "sha1" true "sha256" false) 9 true true 9 ex_pair = Some ([a; b], None) /\
    asi_cs (asd_signer a) = None /\ asi_cs (asd_signer b) = None /\
    sd_certificates (asd_data a) = ex_certs /\ sd_certificates (asd_data b) = ex_certs /\
    named (asi_info (asd_signer a)) ex_leaf /\ named (asi_info (asd_signer b)) ex_leaf /\
    digest_of a = "sha1" /\ digest_of b = "sha256" /\
    snd (asd_verify ex_venv 0 a (Some (ex_hash "sha1" ex_pair)) (ex_v None None "strict") (ex_worldf ex_pair)) = Ok ex_chain /\
    is_ok (snd (asd_verify ex_venv 0 b (Some (ex_hash "sha256" ex_pair)) (ex_v None None "strict") (ex_worldf ex_pair))) = false).
  { do 2 eexists. split; [vm_compute; reflexivity|]. vm_compute. repeat split. }
  destruct T as (a & b & T & A1 & B1 & A2 & B2 & A3 & B3 & A4 & B4 & A5 & B5).
  assert (Du : forall alg, due ex_venv (f_bytes (w_file (ex_worldf ex_pair))) None alg (ex_hash alg ex_pair)).
  { intros alg. unfold due. cbn [supplied]. eexists. split; [vm_compute; reflexivity|].
    unfold ex_hash. replace (snd (omit_sections ex_pair)) with (snd (omit_sections (mkFile (f_bytes ex_pair) 0)))
      by (vm_compute; reflexivity).
    change (e_hash ex_venv) with (e_hash ex_env). f_equal. vm_compute. reflexivity. }
  pose proof (iterate_done _ _ _ _ _ _ _ T) as Te.
  set (load := ex_of _ _ _ _) in *. set (w := ex_worldf ex_pair) in *. set (v := ex_v None None "strict") in *.
  assert (One : forall l, terminates_with (fun k => iterate load 9 true true k (w_file w)) (l, None) -> l = [a; b]).
  { intros l [N H]. destruct Te as [N0 H0]. specialize (H (N + N0)%nat ltac:(lia)). specialize (H0 (N + N0)%nat ltac:(lia)).
    change (w_file w) with ex_pair in H. congruence. }
  assert (Td : forall c, In c [a; b] -> tidy w v c).
  { intros c Hc. assert (R : exists cx ls, all_regular w v c cx ls) by (destruct Hc as [<-|[<-|[]]]; now apply ex_file_regular).
    destruct R as (cx & ls & _ & Di & Sc & (R1 & _ & R3 & _) & Rc).
    split; [exact Di|]. split; [exists cx, ls; split; [exact Sc|split; auto]|].
    intros k Ck. destruct (Rc k Ck) as (cy & ly & Cc & (Q1 & _ & Q3 & _)). exists cy, ly. split; [exact Cc|split; auto]. }
  assert (Ti : forall l, terminates_with (fun k => iterate load 9 true true k (w_file w)) (l, None) ->
     shareable w v l /\ forall a, In a l -> tidy w v a).
  { intros l Hl. rewrite (One l Hl). split; [split; discriminate|exact Td]. }
  assert (Aa : authentic_for ex_venv w v None a ex_chain).
  { exists (ex_hash "sha1" ex_pair). rewrite A4. split; [apply Du|]. apply (C64_exact _ 0); [exact L|apply Td; now left|exact A5]. }
  assert (Ab : forall ch, ~ authentic_for ex_venv w v None b ch).
  { intros ch (h & D & H). rewrite B4 in D. rewrite (ProofsComplete2.due_fun _ _ _ _ _ _ D (Du "sha256")) in H.
    apply (C64_exact _ 0) in H; [|exact L|apply Td; right; now left]. rewrite H in B5. discriminate B5. }
  assert (Kn : known_names ex_venv None) by (intros d k h H; discriminate H).
  pose proof (fun mode => C64_file load ex_venv 9 mode None true v w L Ti) as F.
  assert (Best : filter (fun x => forallb (fun y => strength (digest_of y) <=? strength (digest_of x)) [a; b]) [a; b] = [b]).
  { cbn [filter forallb]. rewrite A4, B4. vm_compute. reflexivity. }
  split; [exact L|]. split; [exact Ti|]. split; [exists a; split|split].
  - apply F. exists [a; b]. split; [exact Te|]. split; [discriminate|]. split; [exact Kn|]. exists [a]. split.
    { split; [intros _; exists a, [b]; auto|]. split; [discriminate|intros H; now elim H]. }
    split; [intros _; apply Forall2_cons; [auto|apply Forall2_nil]|intros H; elim H; right; reflexivity].
  - apply F. exists [a; b]. split; [exact Te|]. split; [discriminate|]. split; [exact Kn|]. exists [a; b]. split.
    { split; [discriminate|]. split; [discriminate|reflexivity]. }
    split; [intros [H|H]; discriminate H|]. intros _. exists [], a, [b], ex_chain. split; [reflexivity|]. split; [reflexivity|]. split; [exact Aa|intros c []].
  - intros out H. apply F in H. destruct H as (l & Hl & _ & _ & sel & (_ & _ & C) & H & _). rewrite (One l Hl) in C.
    rewrite C in H by discriminate. specialize (H (or_introl eq_refl)).
    inversion H as [|? ? ? ? _ H2]; subst. inversion H2 as [|? ? ? ? [_ H3] _]; subst. exact (Ab _ H3).
  - intros out H. apply F in H. destruct H as (l & Hl & _ & _ & sel & (_ & C & _) & _ & H). rewrite (One l Hl) in C.
    rewrite C, Best in H by reflexivity. destruct H as (pre & c & post & ch & Es & _ & H & _); [intros [Q|Q]; discriminate Q|].
    destruct pre as [|? [|]]; cbn [app] in Es; try discriminate Es. injection Es as <- _. exact (Ab _ H).
Qed.
