(** How long a fingerprinting request can take, for C07. *)
From Verif Require Import Base ModelFile ModelFingerprint SpecFingerprint.

(** One round for every byte asked for and one for every range. *)
Definition range_work (r : range) : Z := Z.max 0 (r_end r - r_start r) + 1.
Definition sum_of (l : list Z) : Z := fold_right Z.add 0 l.
Definition work (h : heap) (len : Z) (cs : list call) : Z :=
  sum_of (map (fun c => sum_of (map range_work (requested h len c))) cs).
