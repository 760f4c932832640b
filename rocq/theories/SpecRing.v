(** * SpecRing: matrices of integers and what it means for an operation to give a matrix *)
From stdpp Require Import list.
From Coq Require Import ZArith.
From Verif Require Import Base Mem Spec.
Open Scope Z_scope.

(** [A] is a valid, initialised [m] by [n] matrix of elements of type [t] on the CPU. *)
Definition matrix (t : tcode) (m n : Z) (A : atensor) : Prop :=
  valid A /\ init A /\ a_type A = t /\ dev_type (a_dev A) = 0 /\ a_dims A = [m; n].
(** The [n] by [n] matrix of type [t] on device [d] with ones on the diagonal and zeros elsewhere. *)
Definition unit_matrix (t : tcode) (d : device) (n : Z) (U : atensor) : Prop :=
  valid U /\ a_type U = t /\ a_dev U = d /\ a_dims U = [n; n] /\
  forall i j, 0 <= i < n -> 0 <= j < n -> at_ U [i; j] = VI (if i =? j then 1 else 0).
(** Whenever tensors equal to [A] and [B] are in memory, at whatever addresses and whatever else is there, [f] applied to
    them succeeds with a new tensor equal to [C]. *)
Definition gives (f : hval -> hval -> hval -> M (status * hval)) (A B C : atensor) : Prop :=
  forall p1 p2 o E s, wf s -> alloc_all E -> holds (heap s) p1 A -> holds (heap s) p2 B -> makes (f (HPtr p1) (HPtr p2) o) E s C.
