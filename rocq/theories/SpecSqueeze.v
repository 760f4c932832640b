(** * SpecSqueeze: what squeezing asks for *)
From stdpp Require Import list.
From Coq Require Import ZArith.
From Verif Require Import Base Spec.
Open Scope Z_scope.

(** How often the list of axes names a unit extent, repetitions counted. *)
Definition unit_hits (dims : list Z) (axis : list nat) : nat :=
  length (filter (fun a => dims !! a = Some 1) axis).
(** What is left of the dims when the named unit extents and all empty extents go. *)
Definition squeeze_rest (dims : list Z) (axis : list nat) : list Z :=
  filter (fun d => d <> 0) (squeeze_dims (fun i => bool_decide (i ∈ axis)) dims).
