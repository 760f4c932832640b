(** * SpecScale: what scaling by an integer scalar does *)
From stdpp Require Import gmap list.
From Coq Require Import ZArith Reals.
From Verif Require Import Base Mem Spec SpecReal.
Open Scope Z_scope.

(** [z] as a double: the nearest one, ties to even. *)
Definition nearest_double (z w : Z) : Prop := IZR w = rnd F64 (IZR z).

(** [m] multiplies every element of [T] by [w], which fails in two ways: [w] does
    not fit the type, or there are too many elements or a product overflows. *)
Record scales (m : M (status * hval)) (E : env) (s : st) (t : tcode) (dev : device) (T : atensor) (w : Z) : Prop := Scales {
  sc_value : tmin t <= w <= tmax t -> prodZ (a_dims T) <= INT_MAX -> Forall (op_defined t OpMul (VI w)) (a_vals T) ->
    exists ws, Forall2 (fun y r => bin_spec t OpMul (VI w) y (Some r)) (a_vals T) ws /\
      makes m E s (AT t dev (a_dims T) ws);
  sc_overflow : tmin t <= w <= tmax t -> ~ (prodZ (a_dims T) <= INT_MAX /\ Forall (op_defined t OpMul (VI w)) (a_vals T)) ->
    m E s = UB UB_overflow;
  sc_range : ~ tmin t <= w <= tmax t -> m E s = UB UB_fconv
}.
