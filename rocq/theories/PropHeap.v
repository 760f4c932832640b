(** * PropHeap: C47 and C48, for every operation with arbitrary arguments *)
From stdpp Require Import gmap list.
From Coq Require Import ZArith Floats.SpecFloat.
From Verif Require Import Base Mem Spec SpecHeap ModelCore ModelBasic ModelMath ModelNN Fixture.
From Verif Require Import ProofHeap RefuteConv RefuteNorm RefutePool.
Open Scope Z_scope.

(** C47: whatever the arguments, the allocator and the status returned, every
    block that existed is still there with the same content.  (Handles may be
    dangling, NULL or alias each other: if the call terminates without undefined
    behaviour, it has not touched them.) *)
Theorem C47_inputs_unchanged : forall E s x o r s',
  wf s -> run_op x o E s = Done r s' -> heap s ⊆ heap s' /\ wf s'.
Proof. exact run_keeps. Qed.
Print Assumptions C47_inputs_unchanged.

(** The questions about shapes and strides change nothing at all. *)
Theorem C47_queries : forall E s q a s', run_query q E s = Done a s' -> s' = s.
Proof. intros E s q a s'. exact (query_pure q E s a s'). Qed.
Print Assumptions C47_queries.

(** C48: a successful operation leaves exactly one new tensor, and destroying it
    gives the previous memory back.  The exception is a cast to the same type
    code: nothing happens, not even to *output.  A buffer given to aitisa_create
    becomes part of the tensor and is released with it. *)
Theorem C48_no_leak : forall E s x o h s',
  wf s -> sane x -> run_op x o E s = Done (SUCCESS, h) s' ->
  (exists p, h = HPtr p /\ one_tensor E s s' p (handed x)) \/
  (self_cast x E s /\ h = o /\ heap s' = heap s).
Proof. exact run_success. Qed.
Print Assumptions C48_no_leak.

(** ** The hypotheses can be met: a successful call of every operation *)
Definition Eok : env :=
  Env (fun _ _ _ => true) 0 0 (fun k => Z.of_nat k * 37) (fun x => x) (fun _ => SUCCESS) 1000.
Definition succeeds (c : list atensor * oper) : Prop :=
  wf (fx c.1) /\ sane c.2 /\ exists h s', run_op c.2 HUndef Eok (fx c.1) = Done (SUCCESS, h) s'.
Definition succeeds_b (c : list atensor * oper) : bool :=
  match run_op c.2 HUndef Eok (fx c.1) with Done (SUCCESS, _) _ => true | _ => false end.
Definition calls : list (list atensor * oper) :=
  [ ([], OCreate (dtype_of I16) cpu [2; 3] 2 HNull 0); ([T_i32], OCreate (dtype_of I32) cpu [6] 1 (HPtr 4) 24);
    ([], OFull (dtype_of F32) cpu [2; 3] 2 fzero); ([T_i32], OCast (HPtr 0) (dtype_of F64)); ([T_i32], OCast (HPtr 0) (dtype_of I32));
    ([T_i32], OReshape (HPtr 0) [3; 2] 2); ([T_u8], OSqueeze (HPtr 0) [1] 1); ([T_i32], OSlice (HPtr 0) [0; 1] [2; 2] [1; 1]);
    ([T_i32], ODuplicate (HPtr 0)); ([T_i32; T_i32'], OBinary OpAdd (HPtr 0) (HPtr 5)); ([T_i32], OBinary OpSub (HPtr 0) (HPtr 0));
    ([T_f64], OSqrt (HPtr 0)); ([T_f32], OMatmul (HPtr 0) (HPtr 0)); ([T_f64], ODot (HPtr 0) (HPtr 0));
    ([T_i32], ORelu (HPtr 0)); ([T_f32], OSigmoid (HPtr 0)); ([T_f32], OTanh (HPtr 0)); ([T_f32], OSoftmax (HPtr 0) 1);
    ([T_f32], ODropout (HPtr 0) fzero); ([T_img], OPooling (HPtr 0) PAvg [2; 2] [1; 1] [0; 0] [1; 1]);
    ([T_cv; T_k22], OConv (HPtr 0) (HPtr 5) [1; 1] [0; 0] [1; 1] 1); ([T_cv; T_k22], OConv2d (HPtr 0) (HPtr 5) [1; 1] [0; 0] [1; 1] 1);
    ([T_bn; T_sc; T_bi; T_me; T_va], OBatchNorm (HPtr 0) 1 (HPtr 5) (HPtr 10) (HPtr 15) (HPtr 20) fzero);
    ([T_bn3; T_sc; T_bi; T_me; T_va], OBatchNorm (HPtr 0) 2 (HPtr 5) (HPtr 10) (HPtr 15) (HPtr 20) fzero) ].
Example C48_ex : Forall succeeds calls.
Proof.
  assert (H : forallb succeeds_b calls = true) by (vm_compute; reflexivity).
  apply Forall_forall. intros c Hc. split; [apply fx_wf|]. split.
  - revert c Hc. apply Forall_forall. unfold calls.
    repeat (apply Forall_cons; split; [first [exact I|discriminate]|]). apply Forall_nil. exact I.
  - apply elem_of_list_In in Hc. rewrite forallb_forall in H. specialize (H c Hc). unfold succeeds_b in H.
    destruct (run_op _ _ _ _) as [[[] h] s'| | |]; try done. eauto.
Qed.
(** A refused call meets the hypotheses of C47 as well. *)
Example C47_ex : wf (fx [T_i32]) /\ exists s',
  run_op (OSigmoid (HPtr 0)) HUndef Eok (fx [T_i32]) = Done (NOT_SUPPORTED, HPtr 5) s' /\ size (heap s') = 10%nat.
Proof. split; [apply fx_wf|]. eexists. split; vm_compute; reflexivity. Qed.
Example C47_query_ex : exists a, run_query (QStride (HPtr 0) 0) Eok (fx [T_i32]) = Done a (fx [T_i32]).
Proof. eexists. vm_compute. reflexivity. Qed.
