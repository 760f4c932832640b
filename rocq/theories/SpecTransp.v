(** * SpecTransp: transposed matrices (C80) *)
From stdpp Require Import gmap list.
From Coq Require Import ZArith.
From Verif Require Import Base Mem Spec.
Open Scope Z_scope.

(** [B] has the columns of the matrix [A] as its rows *)
Definition transposed (A B : atensor) : Prop :=
  exists m n, a_type B = a_type A /\ a_dev B = a_dev A /\ a_dims A = [m; n] /\ a_dims B = [n; m] /\
    forall i j, 0 <= i < m -> 0 <= j < n -> at_ B [j; i] = at_ A [i; j].
