(** Property C37, continued: which certificates and names can be hashed. *)
From Verif Require Import Base Monad ModelX509 SpecX509 ProofsX509 PropertiesX509.

Lemma pairs_hashable l :
  existsb contains_unhashable (map (fun tv : string * nval => HTuple [HStr (fst tv); hash_nval (snd tv)]) l) = false.
Proof. induction l as [|[s v] l IH]; [reflexivity|]. destruct v; exact IH. Qed.

(** Every name can be hashed. *)
Theorem C37_names_hashable : forall pyhash n, exists h, name_hash pyhash n = Ok h.
Proof.
  intros h n. unfold name_hash, hash_call. cbn [contains_unhashable]. rewrite pairs_hashable. eauto.
Qed.
Print Assumptions C37_names_hashable.

(** A certificate can be hashed unless the parameters of its key are a structure (as for DSA);
    then hashing it is a TypeError. *)
Theorem C37_hashable :
  forall pyhash c,
  ((exists h, cert_hash pyhash c = Ok h) <-> forall s, k_params (c_key c) <> PDict s) /\
  (forall e, cert_hash pyhash c = Err e -> e_class e = TypeError).
Proof.
  intros h c. unfold cert_hash. destruct (C37_names_hashable h (c_issuer c)) as (hi & ->). destruct (C37_names_hashable h (c_subject c)) as (hs & ->).
  cbn [rbind]. unfold hash_call. destruct (k_params (c_key c)) as [|s|s]; cbn [contains_unhashable existsb orb]; split; try split.
  - intros _ s. discriminate.
  - eauto.
  - discriminate.
  - intros _ s'. discriminate.
  - eauto.
  - discriminate.
  - intros [x H]. discriminate H.
  - intros H. destruct (H s eq_refl).
  - intros e H. injection H as <-. reflexivity.
Qed.
Print Assumptions C37_hashable.

(** One of each. *)
Example C37_hashed :
  is_ok (cert_hash (fun _ => 5) ex_cert) = true /\
  is_ok (cert_hash (fun _ => 5) (mkCert 1 [] ex_ca 1 ex_ca (mkSpki "dsa" (PDict "p,q,g") []) 0 0 None)) = false.
Proof. vm_compute. split; reflexivity. Qed.
