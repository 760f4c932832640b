(** * SpecBatch: when a batched matrix product is defined *)
From stdpp Require Import list.
From Coq Require Import ZArith.
From Verif Require Import Base Mem Spec.
Open Scope Z_scope.

(** The products of m x k and k x n matrices, one for each coordinate of [bd], with
    loops that count in int: the elements of the result and the terms of each inner
    product can be counted, and no inner product overflows. *)
Definition batch_ok (t : tcode) (bd : list Z) (m k n : Z) (A B : list Z -> Z -> Z -> val) : Prop :=
  prodZ bd * (m * n) <= INT_MAX /\ k <= INT_MAX /\
  forall c i j, in_box bd c -> 0 <= i < m -> 0 <= j < n -> is_Some (inner t k (fun q => A c i q) (fun q => B c q j)).
