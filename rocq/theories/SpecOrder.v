(** * SpecOrder: the order on elements and tensors *)
From stdpp Require Import list.
From Coq Require Import ZArith Reals Floats.SpecFloat.
From Verif Require Import Base Mem Spec SpecReal.
Open Scope Z_scope.

(** The order of the floats that are not NaN: -infinity, the real numbers, +infinity. *)
Definition fle (f g : spec_float) : Prop :=
  match f, g with
  | S754_nan, _ | _, S754_nan => False
  | S754_infinity true, _ | _, S754_infinity false => True
  | S754_infinity false, _ | _, S754_infinity true => False
  | _, _ => (RV f <= RV g)%R
  end.
Definition vle (v w : val) : Prop :=
  match v, w with VI a, VI b => a <= b | VF f, VF g => fle f g | _, _ => False end.
(** Same type and shape, and every element of [A] is at most the one of [B] in its place. *)
Definition below (A B : atensor) : Prop :=
  a_type A = a_type B /\ a_dims A = a_dims B /\ Forall2 vle (a_vals A) (a_vals B).
(** An integer or a finite float *)
Definition bounded (v : val) : Prop :=
  match v with VI _ | VF (S754_zero _) | VF (S754_finite _ _ _) => True | _ => False end.
(** An implementation of exp that preserves the order and is nowhere negative. *)
Definition exp_mono (ex : spec_float -> spec_float) : Prop :=
  (forall x y, valid_binary 53 1024 x = true -> valid_binary 53 1024 y = true -> fle x y -> fle (ex x) (ex y)) /\
  (forall x, valid_binary 53 1024 x = true -> valid_binary 53 1024 (ex x) = true /\
     (x <> S754_nan -> fle (S754_zero false) (ex x))).

(** Both calls succeed, and the result of the first is below that of the second. *)
Definition ordered (m : M (status * hval)) (E : env) (s : st) (m' : M (status * hval)) (E' : env) (s' : st) : Prop :=
  exists X Y, makes m E s X /\ makes m' E' s' Y /\ below X Y.
