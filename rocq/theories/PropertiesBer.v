(** The basic encoding rules (C85). *)
From Verif Require Import Base Bytes ModelDer ModelSpc SpecAsn SpecBer ProofsBer ProofsBer2.
From Coq Require Import ZifyBool ZifyNat.

(** ** C85: octets are cut into values exactly as X.690 says *)

Theorem C85_value : forall b t r, parse_tlv b = Ok (t, r) <-> value t /\ b = tlv_dump t ++ r.
Proof. exact parse_tlv_iff. Qed.
Print Assumptions C85_value.

Theorem C85_values : forall b l, parse_all b = Ok l <-> Forall value l /\ b = concat (map tlv_dump l).
Proof. exact parse_all_iff. Qed.
Print Assumptions C85_values.

(** No encoding is the beginning of another one. *)
Theorem C85_prefix : forall t t' r r', value t -> value t' -> tlv_dump t ++ r = tlv_dump t' ++ r' -> t = t' /\ r = r'.
Proof. exact value_prefix. Qed.
Print Assumptions C85_prefix.

(** A tag of two octets; an indefinite length around a definite one; ten levels of indefinite
    lengths in another one, and eleven. *)
Fixpoint ex_levels (n : nat) : bytes :=
  match n with O => [x04; x01; x61] | S n' => [x30; x80] ++ ex_levels n' ++ [x00; x00] end.
Example C85_held :
  value (mkTlv 2 true 128 [xbf; x81; x00; x01] [x05] []) /\
  value (mkTlv 0 true 16 [x30; x80] [x04; x01; x61] [x00; x00]).
Proof.
  split.
  - left. exists [xbf; x81; x00], [x01]. split; [reflexivity|]. split.
    + apply (HighTag 2 true [x81] x00); unfold more; cbn; [lia|repeat constructor; cbn; lia|lia|discriminate|lia].
    + split; [apply (Short 1); lia|reflexivity].
  - right. exists [x30], [mkTlv 0 false 4 [x04; x01] [x61] []]. split; [reflexivity|]. split; [apply (LowTag 0 true 16); lia|].
    split; [reflexivity|]. split; [reflexivity|]. split; [|reflexivity]. constructor; [|constructor]. split; [|discriminate].
    left. exists [x04], [x01]. split; [reflexivity|]. split; [apply (LowTag 0 false 4); lia|]. split; [apply (Short 1); lia|reflexivity].
Qed.
Example C85_run :
  parse_tlv [xbf; x81; x00; x01; x05; x99] = Ok (mkTlv 2 true 128 [xbf; x81; x00; x01] [x05] [], [x99]) /\
  is_ok (parse_tlv (ex_levels 10)) = true /\ is_ok (parse_tlv (ex_levels 11)) = false /\
  is_ok (parse_tlv [xbf; x80; x20; x01; x05]) = false /\ is_ok (parse_tlv [x04; x02; x05]) = false.
Proof. vm_compute. repeat split. Qed.

(** ** C85: declared structures are read exactly from their encodings *)

(** Whether something is read, and what, is decided by the encoding rules alone (with the one
    liberty that C85_refuted shows). *)
Theorem C85_load : forall a b v, In a declarations -> load a b = Ok v <-> written true a v b.
Proof. exact load_declared. Qed.
Print Assumptions C85_load.

(** Not only for the structures at hand. *)
Theorem C85_any_type : forall a b v, distinct a -> taggable a = true -> load a b = Ok v <-> written true a v b.
Proof. exact load_iff. Qed.
Print Assumptions C85_any_type.

Theorem C85_error : forall a b e, load a b = Err e -> e_class e = ValueError.
Proof. exact load_error. Qed.
Print Assumptions C85_error.

(** The encodings with definite lengths (C68) are among them, and strict. *)
Theorem C85_definite : forall loose a v b rest, encodes a Untagged v b -> written loose a v (b ++ rest).
Proof. exact encodes_written. Qed.
Print Assumptions C85_definite.

(** Finding: what follows a value inside an explicit tag is overlooked, so octets are accepted
    that encode nothing. *)
Theorem C85_refuted :
  exists a b v, In a declarations /\ load a b = Ok v /\ forall v', ~ written false a v' b.
Proof.
  exists SpcLink, overlooked, (VChoice "file" (VChoice "unicode" (VPrim []))).
  split; [vm_compute; tauto|]. split; [exact overlooked_read|exact overlooked_never].
Qed.
Print Assumptions C85_refuted.

(** A DigestInfo with indefinite lengths and something after it. *)
Definition ex_indefinite : bytes :=
  [x30; x80; x30; x80; x06; x01; x2a; x05; x00; x00; x00; x04; x81; x02; x61; x62; x00; x00; x77].
Example C85_load_held :
  load DigestInfo ex_indefinite =
    Ok (VSeq [Some (VSeq [Some (VPrim [x2a]); Some (VAny (mkTlv 0 false 5 [x05; x00] [] []))]); Some (VPrim [x61; x62])]) /\
  In DigestInfo declarations.
Proof. split; [vm_compute; reflexivity|vm_compute; tauto]. Qed.
Example C85_written_held :
  written true DigestInfo
    (VSeq [Some (VSeq [Some (VPrim [x2a]); Some (VAny (mkTlv 0 false 5 [x05; x00] [] []))]); Some (VPrim [x61; x62])])
    ex_indefinite.
Proof. apply C85_load; [exact (proj2 C85_load_held)|exact (proj1 C85_load_held)]. Qed.
