(** * PropHist: the memory part of C04, and C50 *)
From stdpp Require Import gmap list.
From Coq Require Import ZArith Floats.SpecFloat.
From Verif Require Import Base Mem Spec SpecHeap SpecHist ModelCore ModelBasic ModelMath ModelNN Fixture.
From Verif Require Import ProofHist ProofHook RefuteHist.
Open Scope Z_scope.

(** C04, memory: after any history, with arbitrary arguments and any pattern of
    refused allocations, no two tensors or buffers of the client share a block, and
    memory consists exactly of them and of what was leaked by failed calls or by
    forgetting a tensor.  Every one of them came from the installed allocator. *)
Theorem C04_memory : forall c, reachable c ->
  NoDup (owned c) /\
  (forall b, is_Some (heap (c_mem c) !! b) <-> b ∈ owned c \/ b ∈ c_lost c) /\
  (forall b, b ∈ owned c -> b ∉ c_lost c /\ b_tag <$> heap (c_mem c) !! b = Some (e_alloc (c_env c))).
Proof. exact history_memory. Qed.
Print Assumptions C04_memory.

(** C50: after any history in which the two hooks are replaced together while
    nothing is alive, no call releases a block to the wrong allocator (or twice),
    every tensor can be destroyed, which removes exactly its blocks, and every
    buffer can be released. *)
Theorem C50_release : forall c, reachable c ->
  (forall x o, run_op x o (c_env c) (c_mem c) <> UB UB_free) /\
  (forall p, p ∈ c_live c -> exists s', aitisa_destroy (HPtr p) (c_env c) (c_mem c) = Done (SUCCESS, HNull) s' /\
     forall b, heap s' !! b = if decide (b ∈ parts (heap (c_mem c)) p) then None else heap (c_mem c) !! b) /\
  (forall b, b ∈ c_bufs c -> exists s', raw_dealloc (HPtr b) (c_env c) (c_mem c) = Done tt s').
Proof. exact history_release. Qed.
Print Assumptions C50_release.

(** No operation, in any memory and with any arguments, releases a block that is
    not alive or belongs to another allocator. *)
Theorem C50_no_bad_free : forall E s x o, wf s -> hooks_ok E -> run_op x o E s <> UB UB_free.
Proof. exact run_no_bad_free. Qed.
Print Assumptions C50_no_bad_free.

(** All operations but the elementwise ones, dot and batch normalisation obtain
    memory through the installed hook only: what any other allocator would have
    answered is irrelevant.  Missing: those three families, see below. *)
Theorem C50_only_the_hook_partial : forall x o E E' s,
  (forall op t1 t2, x <> OBinary op t1 t2) -> (forall t1 t2, x <> ODot t1 t2) ->
  (forall t a sc bi me va ep, x <> OBatchNorm t a sc bi me va ep) ->
  same_hook E E' -> run_op x o E' s = run_op x o E s.
Proof. exact run_same_hook. Qed.
Print Assumptions C50_only_the_hook_partial.

(** "All memory is obtained through the installed hook" is false: with a hook that
    always has memory, adding two ordinary tensors dereferences NULL because
    malloc() was asked and refused. *)
Theorem C50_all_through_hook_refuted : exists E s p1 p2 T1 T2,
  wf s /\ (forall k n, e_alloc_ok E (e_alloc E) k n = true) /\ hooks_ok E /\
  holds (heap s) p1 T1 /\ holds (heap s) p2 T2 /\ init T1 /\ init T2 /\
  a_type T1 = a_type T2 /\ a_dims T1 = a_dims T2 /\
  aitisa_add (HPtr p1) (HPtr p2) HNull E s = UB UB_null.
Proof. exact libc_used. Qed.
Print Assumptions C50_all_through_hook_refuted.

(** Both conditions on hook changes are needed. *)
Theorem C50_changed_alive_refuted : exists E s o p s' a,
  hooks_ok E /\ aitisa_create (dtype_of F32) cpu [2; 3] 2 HNull 0 o E s = Done (SUCCESS, HPtr p) s' /\
  aitisa_destroy (HPtr p) (with_hooks a E) s' = UB UB_free.
Proof. exact hooks_changed_alive. Qed.
Print Assumptions C50_changed_alive_refuted.
Theorem C50_not_together_refuted : exists E s o p s',
  ~ hooks_ok E /\ aitisa_create (dtype_of F32) cpu [2; 3] 2 HNull 0 o E s = Done (SUCCESS, HPtr p) s' /\
  aitisa_destroy (HPtr p) E s' = UB UB_free.
Proof. exact hooks_not_together. Qed.
Print Assumptions C50_not_together_refuted.

(** A history: a tensor is made under the default hooks and destroyed, other hooks
    are installed, a tensor of ones is made and added to itself, the
    sum forgotten, a buffer is wrapped into a tensor, and the
    sigmoid of an integer tensor fails and leaks. *)
Definition nxt {A} (r : res A) : st := match r with Done _ s => s | _ => s_empty end.
Definition h_E1 : env := Ehooks 0 0.
Definition h_E2 : env := with_hooks 3 h_E1.
Definition h_s1 : st := nxt (run_op (OCreate (dtype_of I32) cpu [2; 3] 2 HNull 0) HNull h_E1 (St ∅ 0 0)).
Definition h_s2 : st := nxt (aitisa_destroy (HPtr 0) h_E1 h_s1).
Definition h_s3 : st := nxt (run_op (OFull (dtype_of I32) cpu [2; 3] 2 (flt_of_Z F64 1)) HNull h_E2 h_s2).
Definition h_s4 : st := nxt (run_op (OBinary OpAdd (HPtr 5) (HPtr 5)) HNull h_E2 h_s3).
Definition h_s5 : st := nxt (raw_alloc 24 (fun n => CData (replicate (Z.to_nat n) MU)) h_E2 h_s4).
Definition h_s6 : st := nxt (run_op (OCreate (dtype_of I32) cpu [6] 1 (HPtr 18) 24) HNull h_E2 h_s5).
Definition h_s7 : st := nxt (run_op (OSigmoid (HPtr 5)) HNull h_E2 h_s6).
Definition h_mid : client := Client h_E2 [10%nat; 5%nat] [18%nat] ∅ h_s5.
Definition h_end : client :=
  Client h_E2 [19%nat; 5%nat] [] (∅ ∪ list_to_set (parts (heap h_s6) 10) ∪ (dom (heap h_s7) ∖ dom (heap h_s6))) h_s7.
Lemma not_cast x E s : (forall t dt, x <> OCast t dt) -> ~ self_cast x E s.
Proof. intros H (t & dt & d & e & _). by eapply H. Qed.
Example C04_mid_ex : reachable h_mid.
Proof.
  exists h_E1. split; [done|].
  eapply rtc_l; [eapply (step_success _ _ _ _ _ (OCreate (dtype_of I32) cpu [2; 3] 2 HNull 0) HNull 0%nat h_s1); [by left|by apply not_cast|vm_compute; reflexivity]|].
  eapply rtc_l; [eapply (step_destroy _ [] 0%nat [] _ _ _ _ h_s2); vm_compute; reflexivity|].
  eapply rtc_l; [apply (step_hooks _ _ _ 3%nat)|].
  eapply rtc_l; [eapply (step_success _ _ _ _ _ (OFull (dtype_of I32) cpu [2; 3] 2 (flt_of_Z F64 1)) HNull 5%nat h_s3); [done|by apply not_cast|vm_compute; reflexivity]|].
  eapply rtc_l; [eapply (step_success _ _ _ _ _ (OBinary OpAdd (HPtr 5) (HPtr 5)) HNull 10%nat h_s4); [done|by apply not_cast|vm_compute; reflexivity]|].
  eapply rtc_l; [eapply (step_get_buffer _ _ _ _ _ 24 (fun n => CData (replicate (Z.to_nat n) MU)) 18%nat h_s5); vm_compute; reflexivity|].
  apply rtc_refl.
Qed.
Example C04_ex : reachable h_end /\ length (owned h_end) = 10%nat /\ size (c_lost h_end) = 10%nat.
Proof.
  split; [|split; vm_compute; reflexivity].
  destruct C04_mid_ex as (E & Hk & H). exists E. split; [done|]. eapply rtc_transitive; [exact H|].
  eapply rtc_l; [eapply (step_success _ _ _ _ _ (OCreate (dtype_of I32) cpu [6] 1 (HPtr 18) 24) HNull 19%nat h_s6); [right; eexists; split; [done|by left]|by apply not_cast|vm_compute; reflexivity]|].
  eapply rtc_l; [apply (step_forget _ [19%nat] 10%nat [5%nat])|].
  eapply rtc_l; [eapply (step_failure _ _ _ _ _ (OSigmoid (HPtr 5)) HNull NOT_SUPPORTED _ h_s7); [done|vm_compute; reflexivity]|].
  apply rtc_refl.
Qed.
Definition h_Eother : env := Env (fun g _ _ => negb (g =? 0)%nat) 3 3 (e_rand h_E2) (e_exp h_E2) (e_garbage h_E2) (e_fuel h_E2).
Example C50_hook_ex : same_hook h_E2 h_Eother /\ e_alloc_ok h_Eother 0 0 1 <> e_alloc_ok h_E2 0 0 1 /\
  exists s', run_op (ORelu (HPtr 10)) HNull h_Eother h_s4 = Done (SUCCESS, HPtr 18) s'.
Proof. split; [by split_and!|]. split; [done|]. eexists. vm_compute. reflexivity. Qed.
