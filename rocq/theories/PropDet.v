(** * PropDet: what the outcome of an operation depends on (C72) *)
From stdpp Require Import gmap list.
From Coq Require Import ZArith Lia Floats.SpecFloat.
From Verif Require Import Base Mem Spec SpecHeap SpecDet ModelCore ModelBasic ModelMath ModelNN ProofDet ProofDet2 RefuteConv Fixture ProofDropout.
Open Scope Z_scope.

(** Only dropout looks at the random numbers, in whatever state the memory is ... *)
Theorem C72_rand : forall x o r E s, draws x = false -> run_op x o (with_rand r E) s = run_op x o E s.
Proof. exact op_rand. Qed.
Print Assumptions C72_rand.

(** ... and only dropout moves on in the stream of random numbers. *)
Theorem C72_stream : forall x o E s n, draws x = false -> run_op x o E (seek n s) = found n (run_op x o E s).
Proof. exact op_stream. Qed.
Print Assumptions C72_stream.

(** Only sigmoid, tanh and softmax depend on the exponential of the C library. *)
Theorem C72_exp : forall x o f E s, exponentiates x = false -> run_op x o (with_exp f E) s = run_op x o E s.
Proof. exact op_exp. Qed.
Print Assumptions C72_exp.

(** Nothing depends on what happens to be in a register, except the convolutions ... *)
Theorem C72_garbage : forall x o g E s, forgets_return x = false -> run_op x o (with_garbage g E) s = run_op x o E s.
Proof. exact op_garbage. Qed.
Print Assumptions C72_garbage.

(** ... and of these only the status does; likewise for resolve. *)
Theorem C72_status_only : forall x o g E s, alike (run_op x o E s) (run_op x o (with_garbage g E) s).
Proof. exact op_alike. Qed.
Print Assumptions C72_status_only.
Theorem C72_resolve : forall t g E s, alike (aitisa_resolve t E s) (aitisa_resolve t (with_garbage g E) s).
Proof. exact resolve_alike. Qed.
Print Assumptions C72_resolve.

(** The bound on the iterations is no more than a bound: an outcome reached within it is
    the outcome under every larger one. *)
Theorem C72_fuel : forall x o n E s, (e_fuel E <= n)%nat -> run_op x o E s <> Diverge ->
  run_op x o (with_fuel n E) s = run_op x o E s.
Proof. exact op_fuel. Qed.
Print Assumptions C72_fuel.

(** The status of a convolution that computed its result is a matter of luck: the same
    call on the same memory reports success or failure. *)
Theorem C72_conv_status_varies : ~ (forall x o g E s, run_op x o (with_garbage g E) s = run_op x o E s).
Proof.
  intros H. specialize (H (OConv (HPtr 0) (HPtr 0) [1; 1] [0; 0] [1; 1] 1) HNull (fun _ => SUCCESS) E0 (fx [T_cv])).
  apply (f_equal (fun r => match r with Done (u, _) _ => Some u | _ => None end)) in H. vm_compute in H. discriminate.
Qed.
Print Assumptions C72_conv_status_varies.

(** ** The classes are not empty, and the exceptions are genuine *)
Example C72_rand_ex :
  draws (ORelu (HPtr 0)) = false /\ draws (ODropout (HPtr 0) half) = true /\
  (exists r s', run_op (ORelu (HPtr 0)) HNull E0 (fx [T_i32]) = Done r s' /\
     peek E0 s' r = Some (SUCCESS, [2; 3], VI <$> [5; 0; 0; 12; 3; 0])) /\
  (exists r s', run_op (ODropout (HPtr 0) half) HNull E0 (fx [T_i32]) = Done r s' /\
     peek E0 s' r = Some (SUCCESS, [2; 3], VI <$> [0; 0; 0; 0; 0; -1])) /\
  exists r s', run_op (ODropout (HPtr 0) half) HNull (with_rand (fun _ => 99) E0) (fx [T_i32]) = Done r s' /\
     peek E0 s' r = Some (SUCCESS, [2; 3], VI <$> [5; -7; 0; 12; 3; -1]).
Proof. split_and!; [done|done|apply run_ex; vm_compute; reflexivity..]. Qed.
Example C72_stream_ex :
  match run_op (ODropout (HPtr 0) half) HNull E0 (fx [T_i32]) with Done _ s' => rpos s' = 6%nat | _ => False end /\
  match run_op (OSoftmax (HPtr 0) (-1)) HNull E0 (seek 4 (fx [T_f32])) with Done _ s' => rpos s' = 4%nat | _ => False end.
Proof. vm_compute. done. Qed.
Example C72_exp_ex :
  exponentiates (OBatchNorm (HPtr 0) 1 (HPtr 5) (HPtr 10) (HPtr 15) (HPtr 20) half) = false /\
  exponentiates (OSigmoid (HPtr 0)) = true /\
  (exists r s', run_op (OSigmoid (HPtr 0)) HNull (with_exp (fun _ => S754_zero false) E0) (fx [T_f32]) = Done r s' /\
     peek E0 s' r = Some (SUCCESS, [2; 2], fl [1; 1; 1; 1])) /\
  exists r s', run_op (OSigmoid (HPtr 0)) HNull (with_exp (fun _ => S754_infinity false) E0) (fx [T_f32]) = Done r s' /\
     peek E0 s' r = Some (SUCCESS, [2; 2], fl [0; 0; 0; 0]).
Proof. split_and!; [done|done|apply run_ex; vm_compute; reflexivity..]. Qed.
Example C72_fuel_ex :
  run_op (OPooling (HPtr 0) PMax [2; 2] [1; 1] [0; 0] [1; 1]) HNull (with_fuel 3 E0) (fx [T_cv]) = Diverge /\
  exists r s', run_op (OPooling (HPtr 0) PMax [2; 2] [1; 1] [0; 0] [1; 1]) HNull (with_fuel 4 E0) (fx [T_cv]) = Done r s' /\
    peek E0 s' r = Some (SUCCESS, [1; 1; 1; 1], fl [4]).
Proof. split; [vm_compute; reflexivity|]. apply run_ex. vm_compute. reflexivity. Qed.
