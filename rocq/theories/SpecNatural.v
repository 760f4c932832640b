(** * SpecNatural: when a naturally assigned arithmetic sample can be computed *)
From Coq Require Import ZArith.
From Verif Require Import Base Mem Spec ModelAuto.
Open Scope Z_scope.

(** On the elements 1, 2, ..., [n] reduced to the type [t], the operation [o] of each element with itself is defined:
    no zero divisor (the element 2^bits wraps to 0) and no product beyond int. *)
Definition natural_def (t : tcode) (o : binop) (n : Z) : Prop :=
  n <= INT_MAX /\
  match o with
  | OpDiv => is_float t = false -> n < 2 ^ bits t
  | OpMul => t = I32 \/ t = U16 -> n * n < 2 ^ 31
  | OpAdd | OpSub => True
  end.
