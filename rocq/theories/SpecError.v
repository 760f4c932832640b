(** * SpecError: how far floating-point results may be from the real ones *)
From stdpp Require Import list.
From Coq Require Import ZArith Reals Floats.SpecFloat.
From Flocq Require Core.
From Flocq Require Import IEEE754.BinarySingleNaN.
From Verif Require Import Base Mem Spec SpecReal SpecNN.
Open Scope Z_scope.

(** Half the distance from 1 to the next number of the float type [t], and half
    its smallest positive number. *)
Definition uround (t : tcode) : R := Raux.bpow Zaux.radix2 (- fprec t).
Definition tiny (t : tcode) : R := Raux.bpow Zaux.radix2 (2 - femax t - fprec t).

(** The sum of the absolute values of the products of pairs of elements *)
Definition dot_abs (l : list (val * val)) : R :=
  foldr (fun p a => (Rabs (val_real p.1 * val_real p.2) + a)%R) 0%R l.

(** How far a sum of [n] products may be off, [A] being the sum of their absolute
    values: n + 1 relative roundings, and an underflow in each product. *)
Definition dot_error (t : tcode) (n : nat) (A : R) : R :=
  (((1 + uround t) ^ (n + 1) - 1) * A + INR n * tiny t * (1 + uround t) ^ n)%R.

Definition finite_val (v : val) : Prop := exists f, v = VF f /\ is_finite_SF f = true.

(** [v] is an acceptable sum of the products [l] in type [t]. *)
Definition dot_close (t : tcode) (l : list (val * val)) (v : val) : Prop :=
  (Rabs (val_real v - dot_real l) <= dot_error t (length l) (dot_abs l))%R.
(** ... that cannot have overflowed. *)
Definition dot_safe (t : tcode) (l : list (val * val)) : Prop :=
  (dot_abs l + dot_error t (length l) (dot_abs l) < Raux.bpow Zaux.radix2 (femax t))%R.

(** [v] is the sum of the products [l] as well as type [t] allows: if it is finite it
    is close to the real sum of products, and it is finite if all the elements are and the
    sum is safely below the largest number of the type. *)
Definition accurate (t : tcode) (l : list (val * val)) (v : val) : Prop :=
  (finite_val v -> Forall (fun p => finite_val p.1 /\ finite_val p.2) l /\ dot_close t l v) /\
  (Forall (fun p => finite_val p.1 /\ finite_val p.2) l -> dot_safe t l -> finite_val v).

(** The terms of an inner product *)
Definition terms (k : Z) (f g : Z -> val) : list (val * val) :=
  (fun q => (f (Z.of_nat q), g (Z.of_nat q))) <$> seq 0 (Z.to_nat k).
