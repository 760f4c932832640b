(** * SpecLeak: what a call leaves allocated *)
From stdpp Require Import gmap list.
From Coq Require Import ZArith.
From Verif Require Import Base Mem Spec ModelCore SpecHeap SpecFault.
Open Scope Z_scope.

Definition live (s : st) (b : nat) : Prop := is_Some (heap s !! b).

(** Blocks are numbered by the request that created them.  From [s] to [s'] the [n]
    requests following number [ctr s] were granted and nothing was given back. *)
Definition hoarded (s s' : st) (n : nat) : Prop :=
  forall b, live s' b <-> live s b \/ (ctr s <= b < ctr s + n)%nat.
(** So many requests were made. *)
Definition asked (s s' : st) (n : nat) : Prop := ctr s' = (ctr s + n)%nat.

(** The operations that release nothing, whatever happens. *)
Definition hoarder (x : oper) : Prop :=
  match x with
  | OCreate _ _ _ _ _ _ | OFull _ _ _ _ _ | OCast _ _ | OReshape _ _ _ | OSqrt _ | ORelu _
  | OSigmoid _ | OTanh _ => True
  | _ => False
  end.
