(** * SpecDot: when the contraction of a tensor with a vector or a tensor is defined *)
From stdpp Require Import list.
From Coq Require Import ZArith.
From Verif Require Import Base Mem Spec.
Open Scope Z_scope.

(** One result for each coordinate of [b], of [sz] bytes: results are counted in int,
    and so is the offset in bytes of the last one. *)
Definition contract_vec_ok (t : tcode) (b : list Z) (k : Z) (A : list Z -> Z -> val) (B : Z -> val) : Prop :=
  prodZ b <= INT_MAX /\ (prodZ b - 1) * Z.of_nat (tsz t) <= INT_MAX /\
  forall c, in_box b c -> is_Some (inner t k (fun q => A c q) B).

(** One result for each coordinate of [b1] and each of [b2 ++ [n]]; both are counted in
    int. *)
Definition contract_ok (t : tcode) (b1 b2 : list Z) (n k : Z) (A : list Z -> Z -> val) (B : list Z -> Z -> Z -> val) : Prop :=
  prodZ b1 <= INT_MAX /\ prodZ b2 * n <= INT_MAX /\
  forall c e j, in_box b1 c -> in_box b2 e -> 0 <= j < n -> is_Some (inner t k (fun q => A c q) (fun q => B e q j)).
