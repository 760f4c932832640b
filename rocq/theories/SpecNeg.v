(** * SpecNeg: negated tensors of floats, compared up to the sign of zeros (C79) *)
From stdpp Require Import gmap list.
From Coq Require Import ZArith Floats.SpecFloat.
From Verif Require Import Base Mem Spec SpecUnit.
Open Scope Z_scope.

(** The element with the other sign: zeros, infinities and finite floats; a NaN stays a NaN *)
Definition neg_val (v : val) : val :=
  match v with
  | VF (S754_zero s) => VF (S754_zero (negb s))
  | VF (S754_infinity s) => VF (S754_infinity (negb s))
  | VF (S754_finite s m e) => VF (S754_finite (negb s) m e)
  | v => v
  end.
Definition negated (T : atensor) : atensor := AT (a_type T) (a_dev T) (a_dims T) (neg_val <$> a_vals T).
(** [B] is the negative of [A], except that a zero may have either sign in both *)
Definition opposite (A B : atensor) : Prop :=
  a_type B = a_type A /\ a_dev B = a_dev A /\ a_dims B = a_dims A /\
  unsign_zero <$> a_vals B = unsign_zero <$> (neg_val <$> a_vals A).
(** The element without its sign *)
Definition abs_val (v : val) : val :=
  match v with
  | VF (S754_zero _) => VF (S754_zero false)
  | VF (S754_infinity _) => VF (S754_infinity false)
  | VF (S754_finite _ m e) => VF (S754_finite false m e)
  | v => v
  end.
