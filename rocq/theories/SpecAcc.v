(** * SpecAcc: how far average pooling and batch normalisation may be from the real formulas *)
From stdpp Require Import list.
From Coq Require Import ZArith Reals Floats.SpecFloat.
From Flocq Require Core.
From Flocq Require Import IEEE754.BinarySingleNaN.
From Verif Require Import Base Mem Spec SpecReal SpecNN SpecError SpecSoft.
Open Scope Z_scope.

Definition abs_sum (l : list val) : R := foldr (fun v a => (Rabs (val_real v) + a)%R) 0%R l.

(** The error of an average of [m] elements whose absolute values average [A]: m + 1
    roundings to double and one to the element type. *)
Definition pool_error (t : tcode) (m : nat) (A : R) : R :=
  (((1 + uround F64) ^ (m + 1) * (1 + uround t) - 1) * A + tiny F64 * (1 + uround t) + tiny t)%R.

(** [w] is the sum of [xs] over [n], as well as type [t] allows: if it is finite so are
    the elements and it is close to the quotient; it is finite if the elements are and neither
    the sum nor the quotient comes near the end of the range of double and [t]. *)
Definition pool_accurate (t : tcode) (n : Z) (xs : list val) (w : val) : Prop :=
  let A := (abs_sum xs / IZR n)%R in
  (finite_val w -> Forall finite_val xs /\
     (Rabs (val_real w - sum_real xs / IZR n) <= pool_error t (length xs) A)%R) /\
  (Forall finite_val xs -> (abs_sum xs * (1 + uround F64) ^ length xs < Raux.bpow Zaux.radix2 1024)%R ->
   (A + pool_error t (length xs) A < Raux.bpow Zaux.radix2 (femax t))%R -> finite_val w).

(** Batch normalisation: the formula, the bound on the error and the sizes of the
    intermediate results. *)
Definition bn_quot (eps : spec_float) (va me x : val) : R :=
  ((val_real x - val_real me) / sqrt (val_real va + RV eps))%R.
Definition bn_real (eps : spec_float) (va sc bi me x : val) : R :=
  (val_real sc * bn_quot eps va me x + val_real bi)%R.
Definition bn_error (t : tcode) (eps : spec_float) (va sc bi me x : val) : R :=
  let u := uround t in
  (((1 + u) ^ 4 / (1 - u) ^ 2 - 1) * Rabs (val_real sc * bn_quot eps va me x)
   + u * Rabs (val_real bi) + (Rabs (val_real sc) * (1 + u) + 1) * (1 + u) * tiny t)%R.
Definition bn_safe (t : tcode) (eps : spec_float) (va sc bi me x : val) : Prop :=
  let u := uround t in
  let top := Raux.bpow Zaux.radix2 (femax t) in
  let z := ((1 + u) ^ 2 / (1 - u) ^ 2 * Rabs (bn_quot eps va me x) + tiny t)%R in
  let y := ((1 + u) * (Rabs (val_real sc) * z) + tiny t)%R in
  ((1 + u) * Rabs (val_real x - val_real me) < top)%R /\ (z < top)%R /\ (y < top)%R /\
  ((1 + u) * (y + Rabs (val_real bi)) < top)%R.
(** [eps] is at least the smallest normal number of [t], and the sum with the variance
    does not overflow. *)
Definition bn_range (t : tcode) (eps : spec_float) (va : val) : Prop :=
  is_finite_SF eps = true /\ (Raux.bpow Zaux.radix2 (2 - femax t) <= RV eps)%R /\
  finite_val va /\ (0 <= val_real va)%R /\
  ((1 + uround t) ^ 2 * (val_real va + RV eps) < Raux.bpow Zaux.radix2 (femax t))%R.
Definition bn_accurate (t : tcode) (eps : spec_float) (va sc bi me x w : val) : Prop :=
  (finite_val w -> Forall finite_val [sc; bi; me; x] /\
     (Rabs (val_real w - bn_real eps va sc bi me x) <= bn_error t eps va sc bi me x)%R) /\
  (Forall finite_val [sc; bi; me; x] -> bn_safe t eps va sc bi me x -> finite_val w).
