(** * SpecSoft: what softmax should be, up to rounding *)
From stdpp Require Import list.
From Coq Require Import ZArith Reals Floats.SpecFloat.
From Flocq Require Core.
From Flocq Require Import IEEE754.BinarySingleNaN.
From Verif Require Import Base Mem Spec SpecReal SpecNN SpecError.
Open Scope Z_scope.

(** The exponentials of the elements of a lane, in the element type *)
Definition exp_lane (ex : spec_float -> spec_float) (t : tcode) (xs : list val) : option (list val) :=
  mapM (fun v => d ← to_double t v; of_double t (ex d)) xs.

(** The sum of the numbers that the elements stand for *)
Definition sum_real (l : list val) : R := foldr (fun v a => (val_real v + a)%R) 0%R l.

(** Exponentials that softmax can divide by their sum: finite, not negative, not all
    0, and without overflow in their sum; up to 2^51 of them. *)
Definition exps_ok (es : list val) : Prop :=
  Forall (fun e => finite_val e /\ (0 <= val_real e)%R) es /\ (0 < sum_real es)%R /\
  (2 * sum_real es < Raux.bpow Zaux.radix2 (femax F64))%R /\ Z.of_nat (length es) <= 2 ^ 51.

(** Relative error of each quotient of a lane of [n] elements: [n] roundings in the
    sum, one of the quotient, one conversion to type [t]; and the absolute error due to
    underflow. *)
Definition soft_rel (t : tcode) (n : nat) : R :=
  ((1 + uround t) * (1 + uround F64) / (2 - (1 + uround F64) ^ n) - 1)%R.
Definition soft_abs (t : tcode) : R := (tiny t + tiny F64 * (1 + uround t))%R.

(** [ws] are the [es] divided by their sum: each a number from 0 to 1 close to the
    quotient, in the same order, and all of them adding up to nearly 1. *)
Definition distribution (t : tcode) (es ws : list val) : Prop :=
  Forall2 (fun e w => finite_val w /\ (0 <= val_real w <= 1)%R /\
    (Rabs (val_real w - val_real e / sum_real es)
     <= soft_rel t (length es) * (val_real e / sum_real es) + soft_abs t)%R) es ws /\
  (forall i j e e' w w', es !! i = Some e -> es !! j = Some e' -> ws !! i = Some w -> ws !! j = Some w' ->
    (val_real e <= val_real e')%R -> (val_real w <= val_real w')%R) /\
  (Rabs (sum_real ws - 1) <= soft_rel t (length es) + INR (length es) * soft_abs t)%R.

(** What becomes of a lane [xs], [es] being its exponentials: usually a distribution; but
    an exponential that overflows to infinity, or exponentials that are all 0, give NaN. *)
Definition soft_lane (ex : spec_float -> spec_float) (t : tcode) (xs es ws : list val) : Prop :=
  exp_lane ex t xs = Some es /\ length ws = length es /\
  (exps_ok es -> distribution t es ws) /\
  (forall j, es !! j = Some (VF (S754_infinity false)) -> ws !! j = Some (VF S754_nan)) /\
  (Forall (fun e => exists b, e = VF (S754_zero b)) es -> Forall (fun w => w = VF S754_nan) ws).
