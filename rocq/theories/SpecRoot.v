(** * SpecRoot: which integer the square root through double yields *)
From stdpp Require Import gmap list.
From Coq Require Import ZArith.
From Verif Require Import Base Spec SpecScale.
Open Scope Z_scope.

(** The integer root [n] of [z], or [n + 1] when the double [w] nearest to [z] is so close to the
    next square that its root is nearer to [n + 1] than to the double below. *)
Definition rounded_root (z y : Z) : Prop :=
  exists w, nearest_double z w /\
    let n := Z.sqrt z in
    ((n + 1) * (n + 1) - w) * 2 ^ 52 < (n + 1) * 2 ^ Z.log2 n /\ y = n + 1 \/
    (n + 1) * 2 ^ Z.log2 n <= ((n + 1) * (n + 1) - w) * 2 ^ 52 /\ y = n.
