(** * SpecAuto2: what the harness for one operand should do *)
From stdpp Require Import gmap list.
From Coq Require Import ZArith Reals Floats.SpecFloat.
From Flocq Require Core.
From Verif Require Import Base Mem Spec SpecReal.
Open Scope Z_scope.

(** Under [E], [op] on the tensor [T] always makes [V]. *)
Definition computes1 (E : env) (op : hval -> hval -> M (status * hval)) (T V : atensor) : Prop :=
  forall s p o, wf s -> holds (heap s) p T -> makes (op (HPtr p) o) E s V.

(** A float other than NaN as a number, infinity being 2^128 *)
Definition a_float (x : spec_float) : Prop := valid_binary 24 128 x = true /\ x <> S754_nan.
Definition place (x : spec_float) : R :=
  match x with
  | S754_infinity s => if s then (- Raux.bpow Zaux.radix2 128)%R else Raux.bpow Zaux.radix2 128
  | _ => RV x
  end.
(** Fewer than four floats lie strictly between [x] and [y]: they are at most four
    units in the last place apart. *)
Definition adjacent (x y : spec_float) : Prop :=
  ~ exists a b c d, a_float a /\ a_float b /\ a_float c /\ a_float d /\
    (Rmin (place x) (place y) < place a < place b)%R /\
    (place b < place c < place d)%R /\ (place d < Rmax (place x) (place y))%R.
