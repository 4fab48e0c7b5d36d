(** Property C16 for [iter_signed_datas]: signatures are listed step by step while the file is used. *)
From Verif Require Import Base Bytes Monad ModelFile ModelFingerprint ModelPE SpecFingerprint SpecPE ModelX509 ModelContext ModelPkcs7
  ModelAuthenticode SpecAuthenticode SpecSignedPE SpecFrame ModelIter SpecIter ProofsFrame ProofsSignedPE ProofsIter
  PropertiesFingerprint PropertiesX509 PropertiesPkcs7 PropertiesSignedPE.

(** A for loop over [iter_signed_datas] sees the signatures that the undisturbed iteration
    lists, in the same order and with the same end, whatever is done to the position of the
    file before the first and between any two steps; and a loop that is left early sees the
    first of them. *)
Theorem C16_signatures :
  forall (act : nat -> file -> file) load depth inc ign f,
  (forall k f, f_bytes (act k f) = f_bytes f) ->
  exists l x, terminates_with (fun k => iterate load depth inc ign k f) (l, x) /\
  exists n, forall inner steps, (n <= inner)%nat -> (n <= steps)%nat ->
    consume act load depth inc ign (file_len f) inner 0 steps (SGLoop GStart false) f = Some (l, x) /\
    (forall m, (m <= length l)%nat ->
       take act load depth inc ign (file_len f) inner 0 m (SGLoop GStart false) f = Some (firstn m l)).
Proof.
  intros act load depth inc ign f Hact.
  destruct (c17 load depth inc f) as (es & tail & n0 & l0 & x0 & Ht & _).
  pose proof (iterate_pure load depth inc ign f es tail Ht) as Hi. cbv zeta in Hi.
  match type of Hi with terminates_with _ ?p => destruct p as [l x] end.
  exists l, x. split; [exact Hi|]. destruct Hi as [N Hi]. exists (N + S (length l))%nat. intros inner steps H1 H2.
  assert (C: consume act load depth inc ign (file_len f) inner 0 steps (SGLoop GStart false) f = Some (l, x)).
  { apply (iterate_consume act load depth inc ign N f l x Hact (Hi N (Nat.le_refl N))); lia. }
  split; [exact C|]. intros m Hm. eapply take_consume; [exact Hact|exact C|exact Hm].
Qed.
Print Assumptions C16_signatures.

(** Verifying a signature in the body of the loop is such an action. *)
Theorem C16_verifying :
  forall E fuel a expected v w, f_bytes (w_file (fst (asd_verify E fuel a expected v w))) = f_bytes (w_file w).
Proof. intros. apply (c61_signature E fuel a expected v w). Qed.
Print Assumptions C16_verifying.

Example C16_steps :
  let act k f := mkFile (f_bytes f) (Z.of_nat k * 13) in
  let show r := option_map (fun lx => (map digest_of (fst lx), snd lx)) r in
  show (consume act ex_tree 9 true false (file_len ex_pair) 9 0 9 (SGLoop GStart false) ex_pair)
  = Some (["sha256"; "sha1"; "sha384"; "md5"; "sha512"], None) /\
  option_map (map digest_of) (take act ex_tree 9 true false (file_len ex_pair) 9 0 3 (SGLoop GStart false) ex_pair)
  = Some ["sha256"; "sha1"; "sha384"] /\
  (** the third entry is broken: the signatures before it are seen first *)
  show (consume act ex_tree 9 true false (file_len ex_revision) 9 0 9 (SGLoop GStart false) ex_revision)
  = Some (["sha512"], Some (mkExn SignedPEParseError "Unknown certificate revision")).
Proof. vm_compute. repeat split. Qed.
