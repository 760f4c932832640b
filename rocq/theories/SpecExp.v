(** * SpecExp: accurate exponentials, the logistic function and the hyperbolic tangent *)
From stdpp Require Import list.
From Coq Require Import ZArith Reals Floats.SpecFloat.
From Flocq Require Core.
From Flocq Require Import IEEE754.BinarySingleNaN.
From Verif Require Import Base Mem Spec SpecReal SpecNN SpecError SpecSoft.
Open Scope Z_scope.

(** A usable implementation of exp on double: finite arguments give numbers within a
    relative error [eps] of the exponential (and an absolute one of the smallest double),
    or infinity if the exponential is near the largest double; special arguments are
    treated as C11 F.10.3.1 says. *)
Definition exp_close (ex : spec_float -> spec_float) (eps : R) : Prop :=
  (forall x, valid_binary 53 1024 x = true -> is_finite_SF x = true ->
     valid_binary 53 1024 (ex x) = true /\
     (is_finite_SF (ex x) = true /\ (0 <= RV (ex x))%R /\
      (Rabs (RV (ex x) - exp (RV x)) <= eps * exp (RV x) + Raux.bpow Zaux.radix2 (-1074))%R \/
      ex x = S754_infinity false /\ (Raux.bpow Zaux.radix2 1023 <= exp (RV x))%R)) /\
  ex (S754_infinity false) = S754_infinity false /\ ex (S754_infinity true) = S754_zero false /\
  ex S754_nan = S754_nan.

(** The correctly rounded exp *)
Definition exp_rounded (x : spec_float) : spec_float :=
  match x with
  | S754_infinity false => S754_infinity false
  | S754_infinity true => S754_zero false
  | S754_nan => S754_nan
  | _ => let r := rnd F64 (exp (RV x)) in
         let fe := SpecFloat.fexp 53 1024 in
         SpecFloat.binary_normalize 53 1024
           (Raux.Ztrunc (Generic_fmt.scaled_mantissa Zaux.radix2 fe r)) (Generic_fmt.cexp Zaux.radix2 fe r) false
  end.

(** The mathematical functions *)
Definition logistic (x : R) : R := (1 / (1 + exp (- x)))%R.
Definition tanh_real (x : R) : R := ((exp x - exp (- x)) / (exp x + exp (- x)))%R.

(** Relative and absolute error of sigmoid in type [t], with an exp accurate to [eps] *)
Definition sig_rel (t : tcode) (eps : R) : R :=
  ((1 + uround t) * (1 + uround F64) /
   ((1 - uround F64) * (1 - eps - Raux.bpow Zaux.radix2 (-1074))) - 1)%R.
Definition sig_abs (t : tcode) : R :=
  (tiny t + tiny F64 * (1 + uround t) + Raux.bpow Zaux.radix2 (-1022))%R.

(** [w] is the logistic function of [v], up to rounding. *)
Definition sigmoid_close (t : tcode) (eps : R) (v w : val) : Prop :=
  exists x y, v = VF x /\ w = VF y /\
  (is_finite_SF x = true -> is_finite_SF y = true /\ (0 <= RV y <= 1)%R /\
     (Rabs (RV y - logistic (RV x)) <= sig_rel t eps * logistic (RV x) + sig_abs t)%R) /\
  (x = S754_infinity false -> is_finite_SF y = true /\ RV y = 1%R) /\
  (x = S754_infinity true -> is_finite_SF y = true /\ RV y = 0%R) /\
  (x = S754_nan -> y = S754_nan).

(** Absolute error of tanh *)
Definition tanh_abs (t : tcode) (eps : R) : R :=
  let h := Raux.bpow Zaux.radix2 (-1074) in
  let q := ((1 + uround F64) / (1 - uround F64))%R in
  ((q * (1 + uround F64) * (1 + uround t) - 1) + (eps + h) / (1 - eps - h)
   + tiny t + tiny F64 * (1 + uround t))%R.

(** [w] is the hyperbolic tangent of [v], up to rounding, if [v] is from -709 to 709;
    from 710 on it is NaN. In between, where exp passes the largest double, it is one of the two. *)
Definition tanh_close (t : tcode) (eps : R) (v w : val) : Prop :=
  exists x y, v = VF x /\ w = VF y /\
  (is_finite_SF x = true ->
     (Rabs (RV x) < 710)%R /\ is_finite_SF y = true /\ (-1 <= RV y <= 1)%R /\
     (Rabs (RV y - tanh_real (RV x)) <= tanh_abs t eps)%R \/
     (709 < Rabs (RV x))%R /\ y = S754_nan) /\
  (is_finite_SF x = false -> y = S754_nan).

(** ** Softmax *)

(** The sum of the exponentials of the elements of a lane *)
Definition sum_exp (l : list val) : R := foldr (fun v a => (exp (val_real v) + a)%R) 0%R l.

(** Elements whose exponentials neither overflow nor underflow in type [t]; [soft_exp] and
    [soft_low] bound their binary logarithms from above and (negated) from below. *)
Definition soft_max (t : tcode) : R := match t with F32 => 88%R | _ => 672%R end.
Definition soft_exp (t : tcode) : Z := match t with F32 => 127 | _ => 970 end.
Definition soft_min (t : tcode) : R := match t with F32 => (-80)%R | _ => (-600)%R end.
Definition soft_low (t : tcode) : Z := match t with F32 => 116 | _ => 866 end.
Definition soft_range (t : tcode) (v : val) : Prop :=
  finite_val v /\ (soft_min t <= val_real v <= soft_max t)%R.

(** Relative error of such an exponential in type [t] *)
Definition soft_eta (t : tcode) (eps : R) : R :=
  ((1 + eps + Raux.bpow Zaux.radix2 (-200)) * (1 + uround t) - 1
   + tiny t * Raux.bpow Zaux.radix2 (soft_low t))%R.

(** [ws] is the softmax of [xs] up to rounding, with an exp accurate to [eps]. *)
Definition softmax_close (t : tcode) (eps : R) (xs ws : list val) : Prop :=
  Forall2 (fun x w =>
    let p := (exp (val_real x) / sum_exp xs)%R in
    let e := soft_eta t eps in
    finite_val w /\ (0 <= val_real w <= 1)%R /\
    (Rabs (val_real w - p) <= ((1 + e) / (1 - e) * (1 + soft_rel t (length xs)) - 1) * p + soft_abs t)%R)
    xs ws.

(** Elements from here on have infinite exponentials. *)
Definition soft_inf (t : tcode) : R := match t with F32 => 89%R | _ => 710%R end.
