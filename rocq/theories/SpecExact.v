(** * SpecExact: vocabulary for exact characterisations (C60-C62) *)
From stdpp Require Import gmap list.
From Coq Require Import ZArith Reals Floats.SpecFloat.
From Flocq Require Import IEEE754.BinarySingleNaN.
From Verif Require Import Base Mem Spec SpecReal.
Open Scope Z_scope.

(** [y] is the integer square root of the element or one more, and in the second
    case the element lies just below the square of [y]. *)
Definition near_root (v : val) (y : Z) : Prop :=
  exists z, v = VI z /\ (y = Z.sqrt z \/ y = Z.sqrt z + 1 /\ 0 < y * y - z <= 2 ^ 13).

(** The element has a value in type [t2] (C11 6.3.1.4). *)
Definition convertible (t2 : tcode) (v : val) : Prop :=
  match v with
  | VI _ => True
  | VF f => is_float t2 = true \/
      is_finite_SF f = true /\ tmin t2 <= Raux.Ztrunc (RV f) <= tmax t2
  | VU => False
  end.

