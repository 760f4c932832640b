(** * SpecTypes: operands of a product that conform *)
From stdpp Require Import list.
From Coq Require Import ZArith.
From Verif Require Import Base Mem Spec.
Open Scope Z_scope.

(** The shapes of two operands that have a matrix product, and the shape of the product:
    vectors, matrices, and stacks of matrices with a common batch shape. *)
Inductive conform : list Z -> list Z -> list Z -> Prop :=
| conf_vv k : conform [k] [k] [1]
| conf_mv m k : conform [m; k] [k] [m]
| conf_vm k n : conform [k] [k; n] [n]
| conf_mm m k n : conform [m; k] [k; n] [m; n]
| conf_tv b m k : b <> [] -> conform (b ++ [m; k]) [k] (b ++ [m])
| conf_vt b k n : b <> [] -> conform [k] (b ++ [k; n]) (b ++ [n])
| conf_tt b1 b2 b m k n : b1 <> [] \/ b2 <> [] -> bcast b1 b2 = Some b -> conform (b1 ++ [m; k]) (b2 ++ [k; n]) (b ++ [m; n]).

(** The first element has been written. *)
Definition started (vs : list val) : Prop := match vs with v :: _ => v <> VU | [] => False end.
