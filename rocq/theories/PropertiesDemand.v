(** Property C84: verification when names are decoded as they are compared or shown. *)
From Verif Require Import Base Bytes Monad ModelFile ModelFingerprint SpecFingerprint ModelPE SpecPE ModelX509 SpecX509
  ModelContext SpecContext ModelPkcs7 ModelAuthenticode SpecAuthenticode SpecSignedPE SpecComplete SpecFrame SpecExact
  ModelName ModelDemand SpecDemand ProofsDemand4 ExampleNames
  PropertiesX509 PropertiesContext PropertiesPE PropertiesPkcs7 PropertiesSigner PropertiesAuthenticode PropertiesSignedPE
  PropertiesComplete PropertiesExact.
From Verif Require SpecName ProofsVerify5.

(** If every name can be decoded, it makes no difference when. *)
Theorem C84_decoded_signature :
  forall E U fuel a expected v w, faithful U -> all_legible U ->
  nd_asd_verify E U fuel a expected v w = asd_verify E fuel a expected v w.
Proof. exact decoded_asd. Qed.
Print Assumptions C84_decoded_signature.

Theorem C84_decoded_file :
  forall load E U depth fuel mode expected ign v w, faithful U -> all_legible U ->
  nd_pe_open_verify load E U depth fuel mode expected ign v w = pe_open_verify load E depth fuel mode expected ign v w.
Proof. exact decoded_file. Qed.
Print Assumptions C84_decoded_file.

(** A signer: the same outcome and effects, or the exception of a name that cannot be decoded. *)
Theorem C84_signer :
  forall E U auth i x t w, faithful U -> foreign_names U ->
  nd_signer_verify E U auth i x t w = signer_verify E auth i x t w \/
  exists w' e, nd_signer_verify E U auth i x t w = (w', Err e) /\ undecodable U e.
Proof. exact signer_demand. Qed.
Print Assumptions C84_signer.

(** A signature: the same outcome; or the exception; or, if the names at fault are met in checking
    a countersignature, its refusal in the strict mode and otherwise the outcome that the signature
    would have without it. *)
Theorem C84_signature :
  forall E U fuel a h v w, faithful U -> foreign_names U -> tidy w v a ->
  outcome_demand U v a (snd (asd_verify E fuel a (Some h) v w)) (snd (asd_verify E fuel (with_cs None a) (Some h) v w))
    (snd (nd_asd_verify E U fuel a (Some h) v w)).
Proof. intros E U fuel a h v w F N T. exact (verdict_demand E U fuel a h v w w F N (ProofsVerify5.similar_refl v w) T). Qed.
Print Assumptions C84_signature.

(** Names that cannot be decoded do not make an inauthentic signature or file accepted. *)
Theorem C84_accepted_signature :
  forall E U fuel a h v w w' chains, lawful E -> faithful U -> foreign_names U -> tidy w v a ->
  nd_asd_verify E U fuel a (Some h) v w = (w', Ok chains) -> vouched U v a (fun b => authentic E w v b h chains).
Proof. exact accepted_asd. Qed.
Print Assumptions C84_accepted_signature.

Theorem C84_accepted_file :
  forall load E U depth mode expected ign v w, lawful E -> faithful U -> foreign_names U -> default_contexts v ->
  (forall l, terminates_with (fun k => iterate load depth true ign k (w_file w)) (l, None) -> forall a, In a l -> tidy w v a) ->
  forall fuel w' d' out,
  nd_pe_open_verify load E U depth fuel mode expected ign v w = (w', d', Ok out) ->
  exists l, terminates_with (fun k => iterate load depth true ign k (w_file w)) (l, None) /\ l <> [] /\
    known_names E expected /\ vouched_file E U w v expected mode l out.
Proof. exact accepted_file. Qed.
Print Assumptions C84_accepted_file.

(** The names of certificates that are in no trusted store and that do not have the serial number of a
    signer do not matter, whether they can be decoded or not. *)
Theorem C84_harmless_signature :
  forall E U, faithful U -> foreign_names U -> rooted E -> forall fuel a expected v w, legible_signature U a -> legible_trust U w ->
  nd_asd_verify E U fuel a expected v w = asd_verify E fuel a expected v w.
Proof. intros E U F N R fuel a expected v w La Lt. exact (proj1 (harmless_keep E U F N R fuel a expected v w La Lt)). Qed.
Print Assumptions C84_harmless_signature.

Theorem C84_harmless_file :
  forall E U, faithful U -> foreign_names U -> rooted E -> forall load depth fuel mode expected ign v w, legible_trust U w ->
  (forall l a, iterate load depth true ign fuel (w_file w) = Some (l, None) -> In a l -> legible_signature U a) ->
  nd_pe_open_verify load E U depth fuel mode expected ign v w = pe_open_verify load E depth fuel mode expected ign v w.
Proof. exact harmless_file. Qed.
Print Assumptions C84_harmless_file.

(** ** Examples *)

(** Certificates are valid until the time 800, and chains begin with the root, if it is given. *)
Definition ex_renv : env :=
  with_validator (e_mk_validation ex_venv)
    (fun roots t o c ints ku eku b =>
       if existsb (fun r => c_id r =? 10) roots then e_validate ex_tenv roots t o c ints ku eku b
       else raise (ExtException "PathBuildingError") "no issuer") ex_venv.
Example ex_renv_rooted : rooted ex_renv.
Proof.
  intros rs t o c im ku eku b ids. cbn [ex_renv ex_tenv with_validator e_validate]. destruct (existsb _ rs) eqn:Er; [|discriminate].
  apply existsb_exists in Er as (r & Hr & Q). apply Z.eqb_eq in Q.
  destruct t as [[t|t]|]; try discriminate. destruct (t <=? 800); [|discriminate]. intros [= <-].
  exists 10, [11; c_id c], r. auto.
Qed.
Example ex_renv_lawful : lawful ex_renv.
Proof.
  apply ex_lawful; try reflexivity. intros r t o c i ku eku b e. cbn [ex_renv ex_tenv with_validator e_validate].
  destruct (existsb _ r); [|intros [= <-]; reflexivity]. destruct t as [[t|t]|]; [destruct (t <=? 800)| |]; try discriminate; intros [= <-]; reflexivity.
Qed.
Definition ex_is (c d : cert) : bool := (c_id d =? c_id c) && (c_serial d =? c_serial c).
Definition ex_demand (U : names) (certs : list cert) (mode : string) : res (list (list cert)) :=
  snd (nd_asd_verify ex_renv U 0 (ex_asd (Some ex_good) certs) (Some [x07]) (ex_v None None mode) ex_w).
Definition ex_chain_of (c : cert) : list cert := [ex_root; ex_int; c].
(** An unused root before the one that is used. *)
Definition ex_spare : cert := mkCert 30 [x30] ex_ca 30 ex_ca ex_key 0 5000 None.
Definition ex_two_roots (l : list cert) : world := mkWorld [mkStore l true None None false] [] ex_file.
Definition ex_demand_roots (U : names) (l : list cert) : res (list (list cert)) :=
  snd (nd_asd_verify ex_renv U 0 (ex_asd (Some ex_good) ex_certs) (Some [x07]) (ex_v None None "strict") (ex_two_roots l)).

Example C84_run :
  (* every name can be decoded *)
  ex_demand (some_cut no_cert no_cert) ex_certs "strict" = Ok [ex_chain_of ex_leaf] /\
  (* the intermediate certificate cannot: its names are of no consequence *)
  ex_demand (some_cut (ex_is ex_int) (ex_is ex_int)) ex_certs "strict" = Ok [ex_chain_of ex_leaf] /\
  (* the certificate of the signer cannot, or one with its serial number before it *)
  ex_demand (some_cut (ex_is ex_leaf) no_cert) ex_certs "strict" = Err cut_error /\
  ex_demand (some_cut (ex_is ex_lure) no_cert) (ex_lure :: ex_certs) "strict" = Err cut_error /\
  (* the subject is not compared as long as there is one candidate *)
  ex_demand (some_cut no_cert (ex_is ex_leaf)) ex_certs "strict" = Ok [ex_chain_of ex_leaf] /\
  (* that of the countersigner cannot *)
  (exists e, ex_demand (some_cut (ex_is ex_tsa) no_cert) ex_certs "strict" = Err e /\ e_class e = AuthenticodeCounterSignerError) /\
  (exists e, ex_demand (some_cut (ex_is ex_tsa) no_cert) ex_certs "permit" = Err e /\ e_class e = CertificateVerificationError) /\
  (* a root that is not used cannot, and comes after the one that is, or before it *)
  ex_demand_roots (some_cut (ex_is ex_spare) no_cert) [ex_root; ex_spare] = Ok [ex_chain_of ex_leaf] /\
  ex_demand_roots (some_cut no_cert no_cert) [ex_spare; ex_root] = Ok [ex_chain_of ex_leaf] /\
  (exists e, ex_demand_roots (some_cut (ex_is ex_spare) no_cert) [ex_spare; ex_root] = Err e /\ e_class e = AuthenticodeCounterSignerError).
Proof. vm_compute. repeat split; eexists; split; reflexivity. Qed.

(** The same with certificates that are always valid. *)
Definition ex_lasting : env :=
  with_validator (e_mk_validation ex_venv)
    (fun roots t o c ints ku eku b =>
       if existsb (fun r => c_id r =? 10) roots then Ok [10; 11; c_id c] else raise (ExtException "PathBuildingError") "no issuer") ex_venv.
Example ex_lasting_rooted : rooted ex_lasting /\ lawful ex_lasting.
Proof.
  split.
  - intros rs t o c im ku eku b ids. cbn [ex_lasting with_validator e_validate]. destruct (existsb _ rs) eqn:Er; [|discriminate].
    apply existsb_exists in Er as (r & Hr & Q). apply Z.eqb_eq in Q. intros [= <-]. exists 10, [11; c_id c], r. auto.
  - apply ex_lawful; try reflexivity. intros r t o c i ku eku b e. cbn [ex_lasting with_validator e_validate].
    destruct (existsb _ r); [discriminate|]. intros [= <-]. reflexivity.
Qed.

(** The hypotheses of the theorems, in the cases above. *)
Example C84_hypotheses :
  all_legible (some_cut no_cert no_cert) /\
  (forall f g, faithful (some_cut f g) /\ foreign_names (some_cut f g)) /\
  (forall certs mode, (certs = ex_certs \/ certs = ex_crowd) -> tidy ex_w (ex_v None None mode) (ex_asd (Some ex_good) certs)) /\
  undecodable (some_cut (ex_is ex_leaf) no_cert) cut_error /\
  ~ legible (some_cut (ex_is ex_int) (ex_is ex_int)) ex_int /\
  legible_signature (some_cut (ex_is ex_int) (ex_is ex_int)) (ex_asd (Some ex_good) ex_certs) /\
  legible_trust (some_cut (ex_is ex_int) (ex_is ex_int)) ex_w.
Proof.
  split.
  { split; [intros c; now apply some_cut_legible|apply some_cut_signer]. }
  split; [intros f g; split; [apply some_cut_faithful|apply some_cut_foreign]|].
  split.
  { intros certs mode [-> | ->]; [|apply ex_crowd_tidy; auto].
    assert (So : sound [ex_trusted; shipped (ex_data ex_certs)]).
    { split; [repeat apply Forall_cons; try apply Forall_nil; intros ? H; discriminate H|].
      change (identified [ex_root; ex_int; ex_leaf; ex_tsa]). ids. }
    split; [intros x y H; discriminate H|]. split.
    - do 2 eexists. split; [exists ex_trusted; repeat split|]. apply So.
    - intros c [H _]. injection H as <-. do 2 eexists. split; [exists ex_trusted; repeat split|]. apply So. }
  split; [left; exists ex_leaf; left; exact cut_broken|].
  split; [intros [K _]; exact (cut_unsound K)|].
  split.
  { split.
    - split; [apply some_cut_signer|]. intros c K. cbn [ex_asd asd_signer asi_info ex_asigner si_serial] in K.
      apply some_cut_legible; unfold ex_is; rewrite K; apply andb_false_r.
    - intros c [= <-]. split; [apply some_cut_signer|]. intros c K. cbn [signer_of ex_good ex_stamp si_serial] in K.
      apply some_cut_legible; unfold ex_is; rewrite K; apply andb_false_r. }
  intros [|[|r]] s Hs T; [|injection Hs as <-; discriminate T|now destruct r]. injection Hs as <-.
  constructor; [|constructor]. intros d K. cbn in K. apply some_cut_legible; unfold ex_is; now rewrite K.
Qed.

(** In the modes that pass over a countersignature, one whose names cannot be decoded is passed over:
    the signature is accepted as it would be without it. *)
Example C84_passed_over :
  let U := some_cut (ex_is ex_tsa) no_cert in
  let a := ex_asd (Some ex_good) ex_crowd in
  let v := ex_v None None "permit" in
  let chains := [[ex_root; ex_int; ex_lure]; [ex_root; ex_int; ex_third]; [ex_root; ex_int; ex_lifetime]] in
  snd (nd_asd_verify ex_venv U 0 a (Some [x07]) v ex_w) = Ok chains /\
  vouched U v a (fun b => authentic ex_venv ex_w v b [x07] chains).
Proof.
  cbv zeta. assert (L : lawful ex_venv) by (apply ex_lawful; try reflexivity; discriminate).
  assert (snd (nd_asd_verify ex_venv (some_cut (ex_is ex_tsa) no_cert) 0 (ex_asd (Some ex_good) ex_crowd) (Some [x07]) (ex_v None None "permit") ex_w)
    = Ok [[ex_root; ex_int; ex_lure]; [ex_root; ex_int; ex_third]; [ex_root; ex_int; ex_lifetime]]) as K by (vm_compute; reflexivity).
  split; [exact K|]. destruct (nd_asd_verify _ _ _ _ _ _ _) as [w' r] eqn:R. cbn [snd] in K. subst r.
  eapply C84_accepted_signature; [exact L|apply some_cut_faithful|apply some_cut_foreign|apply C84_hypotheses; auto|exact R].
Qed.

(** A file with two signatures. *)
Example C84_file_run :
  let load := ex_of "sha1" true "sha256" false in
  let run U := snd (nd_pe_open_verify load ex_venv U 9 400 "first" None true (ex_v None None "strict") (ex_worldf ex_pair)) in
  (exists a, run (some_cut (ex_is ex_int) (ex_is ex_int)) = Ok [(a, ex_chain)]) /\
  run (some_cut (ex_is ex_leaf) no_cert) = Err cut_error /\
  default_contexts (ex_v None None "strict") /\
  (forall l, terminates_with (fun k => iterate load 9 true true k (w_file (ex_worldf ex_pair))) (l, None) ->
     forall a, In a l -> tidy (ex_worldf ex_pair) (ex_v None None "strict") a).
Proof.
  cbv zeta. split; [eexists; vm_compute; reflexivity|]. split; [vm_compute; reflexivity|]. split; [split; reflexivity|].
  intros l Hl. exact (proj2 (proj1 (proj2 C64_pair) l Hl)).
Qed.

Example C84_file_harmless :
  let U := some_cut (ex_is ex_int) (ex_is ex_int) in
  legible_trust U (ex_worldf ex_pair) /\
  (forall l a, iterate (ex_of "sha1" true "sha256" false) 9 true true 400 (w_file (ex_worldf ex_pair)) = Some (l, None) -> In a l ->
     legible_signature U a).
Proof.
  cbv zeta. split.
  - intros [|r] s Hs T; [|now destruct r]. injection Hs as <-. constructor; [|constructor]. intros d K. cbn in K.
    apply some_cut_legible; unfold ex_is; now rewrite K.
  - assert (T : exists a b, iterate (ex_of "sha1" true "sha256" false) 9 true true 400 ex_pair = Some ([a; b], None) /\
      asi_cs (asd_signer a) = None /\ asi_cs (asd_signer b) = None /\
      si_serial (asi_info (asd_signer a)) = 4 /\ si_serial (asi_info (asd_signer b)) = 4).
    { do 2 eexists. split; [vm_compute; reflexivity|]. vm_compute. auto. }
    destruct T as (a & b & T & A1 & B1 & A2 & B2). intros l c K Hc. change (w_file (ex_worldf ex_pair)) with ex_pair in K. rewrite T in K.
    injection K as <-. assert (forall i, si_serial i = 4 -> legible_signer (some_cut (ex_is ex_int) (ex_is ex_int)) i) as G.
    { intros i Q. split; [apply some_cut_signer|]. intros d R. rewrite Q in R. apply some_cut_legible; unfold ex_is; rewrite R; apply andb_false_r. }
    destruct Hc as [<-|[<-|[]]]; (split; [now apply G|]; intros k Q; congruence).
Qed.

(** Without the condition on trusted stores this is false: a root that plays no part, with a name that
    cannot be decoded, makes the verification of a signature fail that is authentic. *)
Theorem C84_trust_refuted :
  exists E U a v w h c,
    lawful E /\ rooted E /\ faithful U /\ foreign_names U /\ legible_signature U a /\ tidy w v a /\
    (exists chains, authentic E w v a h chains /\ forall chain, In chain chains -> ~ In c chain) /\
    (forall d, d <> c -> legible U d) /\
    exists e, snd (nd_asd_verify E U 0 a (Some h) v w) = Err e /\ undecodable U e.
Proof.
  set (U := some_cut (fun d => object_of d =? object_of ex_spare) no_cert).
  exists ex_lasting, U, (ex_asd None ex_certs), (ex_v None None "strict"), (ex_two_roots [ex_spare; ex_root]), [x07], ex_spare.
  split; [apply ex_lasting_rooted|]. split; [apply ex_lasting_rooted|]. split; [apply some_cut_faithful|]. split; [apply some_cut_foreign|].
  assert (forall d, d <> ex_spare -> legible U d) as Lg.
  { intros d Nd. apply some_cut_legible; [|reflexivity]. apply Z.eqb_neq. intros K. now apply object_of_inj in K. }
  assert (T : tidy (ex_two_roots [ex_spare; ex_root]) (ex_v None None "strict") (ex_asd None ex_certs)).
  { assert (So : sound [mkStore [ex_spare; ex_root] true None None false; shipped (ex_data ex_certs)]).
    { split; [repeat apply Forall_cons; try apply Forall_nil; intros ? H; discriminate H|].
      change (identified [ex_spare; ex_root; ex_int; ex_leaf; ex_tsa]). ids. }
    split; [intros x y H; discriminate H|]. split.
    - do 2 eexists. split; [exists (mkStore [ex_spare; ex_root] true None None false); repeat split|]. apply So.
    - intros c [H _]. discriminate H. }
  split.
  { split; [|discriminate]. split; [apply some_cut_signer|]. intros c K. apply Lg. intros ->. discriminate K. }
  split; [exact T|]. split.
  { exists [ex_chain_of ex_leaf]. split; [apply (C64_exact _ 0); [apply ex_lasting_rooted|exact T|vm_compute; reflexivity]|].
    intros chain [<-|[]] [K|[K|[K|[]]]]; discriminate K. }
  split; [exact Lg|]. exists cut_error. split; [vm_compute; reflexivity|]. left. exists ex_spare. left. exact cut_broken.
Qed.
Print Assumptions C84_trust_refuted.
