(** * SpecUnit: vocabulary for pooling with windows of one element *)
From stdpp Require Import list.
From Coq Require Import ZArith Floats.SpecFloat.
From Verif Require Import Base Mem Spec.
Open Scope Z_scope.

(** The elements a double holds exactly: all floats (infinities and NaN too), integers up to 2^53 *)
Definition in_double (v : val) : Prop :=
  match v with VI z => Z.abs z <= 2 ^ 53 | VF _ => True | VU => False end.
(** -0 becomes +0, everything else stays. *)
Definition unsign_zero (v : val) : val :=
  match v with VF (S754_zero _) => VF (S754_zero false) | v => v end.
(** A finite float *)
Definition finite_elem (v : val) : Prop :=
  match v with VF (S754_zero _) | VF (S754_finite _ _ _) => True | _ => False end.
(** [n] ones or zeros: extents, strides and dilations, and paddings of such windows *)
Definition ones (n : nat) : list Z := replicate n 1.
Definition zeros (n : nat) : list Z := replicate n 0.
(** The [n] by [n] matrix of floats with ones on the diagonal and (positive) zeros elsewhere *)
Definition unit_matrix_float (t : tcode) (d : device) (n : Z) (U : atensor) : Prop :=
  valid U /\ a_type U = t /\ a_dev U = d /\ a_dims U = [n; n] /\
  forall i j, 0 <= i < n -> 0 <= j < n -> at_ U [i; j] = VF (flt_of_Z t (if i =? j then 1 else 0)).
