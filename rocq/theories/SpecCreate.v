(** * SpecCreate: element counts that 64 bits can hold *)
From stdpp Require Import list.
From Coq Require Import ZArith.
From Verif Require Import Base Mem Spec.
Open Scope Z_scope.

(** The products of the extents from the left, and the size in bytes, are int64. *)
Definition countable (sz : Z) (dims : list Z) : Prop :=
  (forall k, INT64_MIN <= prodZ (take k dims) <= INT64_MAX) /\ INT64_MIN <= sz * prodZ dims <= INT64_MAX.
