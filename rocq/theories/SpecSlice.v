(** * SpecSlice: when one axis of a slice is in order; the extents of a duplicate *)
From stdpp Require Import list.
From Coq Require Import ZArith.
From Verif Require Import Base.
Open Scope Z_scope.

(** Extent [d], first index [b], length [z], step [t]. *)
Definition axis_fine (d b z t : Z) : Prop := 0 <= b < d /\ 0 <= z /\ b + z <= d /\ b + z <= INT_MAX /\ 1 <= t.

(** (int)d *)
Definition int32 (d : Z) : Z := (d + 2 ^ 31) mod 2 ^ 32 - 2 ^ 31.
(** Coordinates of a duplicate in the original: axes of which no extent is left
    after the conversion to int are absent. *)
Fixpoint spread (ds c : list Z) : list Z :=
  match ds with
  | [] => []
  | d :: ds =>
      if int32 d =? 0 then 0 :: spread ds c
      else match c with i :: c => i :: spread ds c | [] => [] end
  end.
