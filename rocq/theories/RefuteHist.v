(** * RefuteHist: allocator hooks, counterexamples *)
From stdpp Require Import gmap list.
From Coq Require Import ZArith Floats.SpecFloat.
From Verif Require Import Base Mem Spec SpecHeap SpecHist ModelCore ModelBasic ModelMath ModelNN Fixture.
Open Scope Z_scope.

(** An installed allocator with plenty of memory beside a malloc() that has none. *)
Definition Ehook : env :=
  Env (fun g _ _ => negb (g =? 0)%nat) 7 7 (fun k => Z.of_nat k) (fun x => x) (fun _ => SUCCESS) 1000.

Lemma libc_used : exists E s p1 p2 T1 T2,
  wf s /\ (forall k n, e_alloc_ok E (e_alloc E) k n = true) /\ hooks_ok E /\
  holds (heap s) p1 T1 /\ holds (heap s) p2 T2 /\ init T1 /\ init T2 /\
  a_type T1 = a_type T2 /\ a_dims T1 = a_dims T2 /\
  aitisa_add (HPtr p1) (HPtr p2) HNull E s = UB UB_null.
Proof.
  exists Ehook, (fx [T_i32; T_i32']), 0%nat, 5%nat, T_i32, T_i32'.
  split_and!; [apply fx_wf|done|done|apply (fx_holds [T_i32; T_i32'] 0 T_i32 eq_refl); lit_valid
    |apply (fx_holds [T_i32; T_i32'] 1 T_i32' eq_refl); lit_valid|by repeat constructor|by repeat constructor|done|done|vm_compute; reflexivity].
Qed.

Lemma hooks_changed_alive : exists E s o p s' a,
  hooks_ok E /\ aitisa_create (dtype_of F32) cpu [2; 3] 2 HNull 0 o E s = Done (SUCCESS, HPtr p) s' /\
  aitisa_destroy (HPtr p) (with_hooks a E) s' = UB UB_free.
Proof.
  exists E0, s_empty, HNull. do 2 eexists. exists 1%nat. split_and!; [done|vm_compute; reflexivity|vm_compute; reflexivity].
Qed.

Lemma hooks_not_together : exists E s o p s',
  ~ hooks_ok E /\ aitisa_create (dtype_of F32) cpu [2; 3] 2 HNull 0 o E s = Done (SUCCESS, HPtr p) s' /\
  aitisa_destroy (HPtr p) E s' = UB UB_free.
Proof.
  exists (Ehooks 0 1), s_empty, HNull. do 2 eexists. split_and!; [done|vm_compute; reflexivity|vm_compute; reflexivity].
Qed.
