(** * SpecConvInput: who owns the arrays of the convolution samples *)
From stdpp Require Import gmap list.
From Coq Require Import ZArith.
From Verif Require Import Base Mem Spec ModelSample SpecSample ModelConvInput.
Open Scope Z_scope.

(** The arrays an object refers to, and the blocks that live as long as it does:
    the arrays and the counter. *)
Definition arrays (o : cobj) : list hval := o_bufs (c_base o) ++ c_arrs o.
Definition has (o : cobj) (b : nat) : Prop := HPtr b ∈ arrays o \/ o_count (c_base o) = HPtr b.
Definition held (V : cobjs) (b : nat) : Prop := exists x o, V !! x = Some o /\ has o b.

(** A pointer that the program may hand over. *)
Definition cgivable (V : cobjs) (h : gmap nat block) (p : hval) : Prop :=
  p = HNull \/ exists b c, p = HPtr b /\ h !! b = Some (Blk ARR c) /\ ~ held V b.

(** The discipline: objects are neither copied nor assigned, the vectors are as long
    as the constructor expects, and an array has one owner. *)
Definition clegal (op : cop) (V : cobjs) (h : gmap nat block) : Prop :=
  match op with
  | CNewArr _ _ => True
  | CDelArr p => cgivable V h p
  | CDefault x => V !! x = None
  | CPtrs x _ bs ps _ =>
      V !! x = None /\ length bs = 4%nat /\ length ps = 3%nat /\
      Forall (cgivable V h) (bs ++ ps) /\ distinct (bs ++ ps)
  | CVec x n1 v1 n2 v2 _ d1 d2 st pa di _ =>
      V !! x = None /\ n1 <= Z.of_nat (length v1) /\ n2 <= Z.of_nat (length v2) /\
      n1 - 2 <= Z.of_nat (length st) /\ n1 - 2 <= Z.of_nat (length pa) /\ n1 - 2 <= Z.of_nat (length di) /\
      n1 - 2 <= INT_MAX /\
      cgivable V h d1 /\ cgivable V h d2 /\ (d1 = d2 -> d1 = HNull)
  | CCopy _ _ | CAssign _ _ => False
  | CSetData x i p _ =>
      cgivable V h p /\ exists o, V !! x = Some o /\ o_bufs (c_base o) !! i = Some HNull
  | CUse x i => exists o b, V !! x = Some o /\ c_arrs o !! i = Some (HPtr b)
  | CDestroy x => is_Some (V !! x)
  end.
(** Requests that a machine with enough memory grants. *)
Definition croomy (op : cop) : Prop :=
  match op with
  | CNewArr n _ => n <= PTRDIFF_MAX
  | CVec _ n1 _ n2 _ _ _ _ _ _ _ _ => 2 <= n1 /\ 8 * n1 <= PTRDIFF_MAX /\ 0 <= 8 * n2 <= PTRDIFF_MAX
  | _ => True
  end.
Fixpoint clegal_run (E : env) (h : list cop) (V : cobjs) (s : st) : Prop :=
  match h with
  | [] => True
  | op :: h => clegal op V (heap s) /\
      forall V' s', cstep op V E s = Done V' s' -> clegal_run E h V' s'
  end.
Definition creach (E : env) (V : cobjs) (s : st) : Prop :=
  exists h s0, wf s0 /\ clegal_run E h ∅ s0 /\ csteps h ∅ E s0 = Done V s.

(** What a step does to memory: a block that stays with an object or was in
    nobody's hands is as before, one that loses its object is released, and every new
    block belongs to an object, unless the program asked for it. *)
Record exact_step (op : cop) (V : cobjs) (s : st) (V' : cobjs) (s' : st) : Prop := ExactStep {
  x_kept : forall b, held V' b -> is_Some (heap s !! b) -> heap s' !! b = heap s !! b;
  x_gone : forall b, held V b -> ~ held V' b -> heap s' !! b = None;
  x_other : forall b, ~ held V b -> is_Some (heap s !! b) -> op <> CDelArr (HPtr b) -> heap s' !! b = heap s !! b;
  x_new : forall b, heap s !! b = None -> is_Some (heap s' !! b) -> held V' b \/ exists n c, op = CNewArr n c
}.
