(** * SpecNorm2: when a denominator of batch normalisation does not exist *)
From stdpp Require Import gmap list.
From Coq Require Import ZArith Floats.SpecFloat.
From Verif Require Import Base Mem Spec SpecReal SpecNorm.
Open Scope Z_scope.

(** va + eps is undefined (signed overflow), or exists and is negative. *)
Definition bn_undef (t : tcode) (eps : spec_float) (va : val) : Prop :=
  exists e, of_double t eps = Some e /\ bin_val t OpAdd va e = None.
Definition bn_neg (t : tcode) (eps : spec_float) (va : val) : Prop :=
  exists e a, of_double t eps = Some e /\ bin_val t OpAdd va e = Some a /\ negative a.
