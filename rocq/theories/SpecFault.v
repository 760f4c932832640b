(** * SpecFault: allocators that refuse requests *)
From stdpp Require Import gmap list.
From Coq Require Import ZArith.
From Verif Require Import Base Mem Spec ModelCore SpecHeap.
Open Scope Z_scope.

(** The surroundings [E] with an allocator that grants request number [k] iff
    [ok k]; with one that never refuses. *)
Definition schedule (E : env) (ok : nat -> bool) : env :=
  Env (fun _ k _ => ok k) (e_alloc E) (e_dealloc E) (e_rand E) (e_exp E) (e_garbage E) (e_fuel E).
Definition plenty (E : env) : env := schedule E (fun _ => true).

(** A call made in state [s] and ending in [s'] made the requests number
    [ctr s] to [ctr s' - 1]. *)
Definition requested (s s' : st) (k : nat) : Prop := (ctr s <= k < ctr s')%nat.

(** No request of the call was refused and it ran as if memory were plentiful. *)
Definition undisturbed (m : M (status * hval)) (E : env) (ok : nat -> bool) (s : st) : Prop :=
  m (schedule E ok) s = m (plenty E) s /\
  forall r s', m (schedule E ok) s = Done r s' -> forall k, requested s s' k -> ok k = true.

(** A request of the call was refused.  It returned STATUS_ALLOC_FAILED, with
    *output as [out] says, and everything that was in memory is still there. *)
Definition reported (m : M (status * hval)) (E : env) (ok : nat -> bool) (s : st) (out : hval -> Prop) : Prop :=
  exists k h s', m (schedule E ok) s = Done (ALLOC_FAILED, h) s' /\ out h /\
    requested s s' k /\ ok k = false /\ heap s ⊆ heap s' /\ wf s'.

(** Whichever requests are refused. *)
Definition reports (m : M (status * hval)) (E : env) (ok : nat -> bool) (s : st) (out : hval -> Prop) : Prop :=
  undisturbed m E ok s \/ reported m E ok s out.

(** The first [n] requests of a call made in [s] are granted, the next is not. *)
Definition refuses_nth (ok : nat -> bool) (s : st) (n : nat) : Prop :=
  (forall k, (ctr s <= k < ctr s + n)%nat -> ok k = true) /\ ok (ctr s + n)%nat = false.

(** The numbers of axes of two operands, if they have any, satisfy [P]. *)
Definition axes (s : st) (t1 t2 : hval) (P : Z -> Z -> Prop) : Prop :=
  forall E n1 n2 s1 s2, tensor_ndim t1 E s = Done n1 s1 -> tensor_ndim t2 E s = Done n2 s2 -> P n1 n2.
(** The operations that test every pointer they get from the allocator.
    aitisa_squeeze releases scratch arrays on its error paths too. *)
Definition careful (x : oper) (E : env) (s : st) : Prop :=
  match x with
  | OCreate _ _ _ _ _ _ | OFull _ _ _ _ _ | OCast _ _ | OReshape _ _ _ | OSqrt _ | ORelu _
  | OSigmoid _ | OTanh _ | OSoftmax _ _ => True
  | OSqueeze _ _ _ => hooks_ok E
  | OMatmul t1 t2 => axes s t1 t2 (fun n1 n2 => n1 <= 2 /\ n2 <= 2)
  | ODot t1 t2 => axes s t1 t2 (fun n1 n2 => (n1 = 1 /\ n2 = 1) \/ (n1 = 2 /\ n2 = 2))
  | _ => False
  end.
(** All of them leave *output alone, except aitisa_softmax. *)
Definition kept_output (x : oper) (o h : hval) : Prop :=
  match x with OSoftmax _ _ => True | _ => h = o end.
