(** * SpecDet: what an operation may depend on besides its arguments and the memory *)
From stdpp Require Import gmap list.
From Coq Require Import ZArith Floats.SpecFloat.
From Verif Require Import Base Mem SpecHeap.
Open Scope Z_scope.

(** The same environment with other random numbers, another exponential, other values
    in the registers read as return values, or another bound on the iterations. *)
Definition with_rand (r : nat -> Z) (E : env) : env :=
  Env (e_alloc_ok E) (e_alloc E) (e_dealloc E) r (e_exp E) (e_garbage E) (e_fuel E).
Definition with_exp (f : spec_float -> spec_float) (E : env) : env :=
  Env (e_alloc_ok E) (e_alloc E) (e_dealloc E) (e_rand E) f (e_garbage E) (e_fuel E).
Definition with_garbage (g : nat -> status) (E : env) : env :=
  Env (e_alloc_ok E) (e_alloc E) (e_dealloc E) (e_rand E) (e_exp E) g (e_fuel E).
Definition with_fuel (n : nat) (E : env) : env :=
  Env (e_alloc_ok E) (e_alloc E) (e_dealloc E) (e_rand E) (e_exp E) (e_garbage E) n.

(** The operations that draw random numbers, that exponentiate, and that end without a
    return statement. *)
Definition draws (x : oper) : bool := match x with ODropout _ _ => true | _ => false end.
Definition exponentiates (x : oper) : bool :=
  match x with OSigmoid _ | OTanh _ | OSoftmax _ _ => true | _ => false end.
Definition forgets_return (x : oper) : bool :=
  match x with OConv _ _ _ _ _ _ | OConv2d _ _ _ _ _ _ | OConv3d _ _ _ _ _ _ => true | _ => false end.

(** Two outcomes that agree but for the status reported. *)
Definition alike {A} (x y : res (status * A)) : Prop :=
  match x, y with
  | Done (_, a) s, Done (_, b) t => a = b /\ s = t
  | UB u, UB v => u = v
  | Abort, Abort => True
  | Diverge, Diverge => True
  | _, _ => False
  end.

(** The same memory with another position in the stream of random numbers, and an
    outcome at another position. *)
Definition seek (n : nat) (s : st) : st := St (heap s) (ctr s) n.
Definition found {A} (n : nat) (r : res A) : res A :=
  match r with Done a s => Done a (seek n s) | UB u => UB u | Abort => Abort | Diverge => Diverge end.
