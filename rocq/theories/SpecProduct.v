(** * SpecProduct: when a matrix product is defined *)
From stdpp Require Import list.
From Coq Require Import ZArith.
From Verif Require Import Base Mem Spec.
Open Scope Z_scope.

(** The product of an m x k and a k x n matrix, computed by loops that count in
    int: the rows, the elements of the result and, if there are any, the terms of
    each inner product can be counted, and no inner product overflows. *)
Definition product_ok (t : tcode) (m k n : Z) (A B : Z -> Z -> val) : Prop :=
  m <= INT_MAX /\ m * n <= INT_MAX /\ (0 < m * n -> k <= INT_MAX) /\
  forall i j, 0 <= i < m -> 0 <= j < n -> is_Some (inner t k (fun q => A i q) (fun q => B q j)).
