(** * PropDot: properties of aitisa_dot (C34-C36) *)
From stdpp Require Import gmap list.
From Coq Require Import ZArith Lia Floats.SpecFloat.
From Verif Require Import Base Mem Spec SpecReal ModelCore ModelBasic ModelMath Logic ProofCore ProofCore2 ProofKernel2
  ProofFrame ProofMatmul ProofDot ProofDot2 ProofDot6 RefuteDot Fixture.
Open Scope Z_scope.

(** ** C34: vectors and matrices *)
Theorem C34_vectors : forall p1 p2 T1 T2 o E s,
  holds (heap s) p1 T1 -> holds (heap s) p2 T2 ->
  a_type T2 = a_type T1 -> dev_type (a_dev T1) = 0 -> dev_type (a_dev T2) = 0 ->
  forall w k, wf s -> a_dims T1 = [k] -> a_dims T2 = [k] -> k <= INT_MAX ->
  inner (a_type T1) k (fun q => at_ T1 [q]) (fun q => at_ T2 [q]) = Some w ->
  makes_or_nomem (aitisa_dot (HPtr p1) (HPtr p2) o) E s o (AT (a_type T1) (a_dev T1) [1] [w]).
Proof. exact dot_vv. Qed.
Print Assumptions C34_vectors.
Theorem C34_vectors_mismatch : forall p1 p2 T1 T2 o E s,
  holds (heap s) p1 T1 -> holds (heap s) p2 T2 ->
  a_type T2 = a_type T1 -> dev_type (a_dev T1) = 0 -> dev_type (a_dev T2) = 0 ->
  forall k1 k2, a_dims T1 = [k1] -> a_dims T2 = [k2] -> k1 <> k2 ->
  refuses (aitisa_dot (HPtr p1) (HPtr p2) o) E s o DIMENSIONS_MISMATCH.
Proof. exact dot_vv_mismatch. Qed.
Print Assumptions C34_vectors_mismatch.
(** Same outcome, memory and *output included; see C31 for what it is. *)
Theorem C34_matrices : forall p1 p2 T1 T2 o E s,
  holds (heap s) p1 T1 -> holds (heap s) p2 T2 ->
  a_type T2 = a_type T1 -> dev_type (a_dev T1) = 0 -> dev_type (a_dev T2) = 0 ->
  length (a_dims T1) = 2%nat -> length (a_dims T2) = 2%nat ->
  aitisa_dot (HPtr p1) (HPtr p2) o E s = aitisa_matmul (HPtr p1) (HPtr p2) o E s.
Proof. exact dot_mm. Qed.
Print Assumptions C34_matrices.
(** Unlike aitisa_matmul, operands of different types are rejected. *)
Theorem C34_types : forall p1 p2 T1 T2 o E s,
  holds (heap s) p1 T1 -> holds (heap s) p2 T2 ->
  dev_type (a_dev T1) = 0 -> dev_type (a_dev T2) = 0 -> a_type T1 <> a_type T2 ->
  refuses (aitisa_dot (HPtr p1) (HPtr p2) o) E s o NOT_SUPPORTED.
Proof. exact dot_types. Qed.
Print Assumptions C34_types.

Definition T_d1 : atensor := AT I32 cpu [3] (VI <$> [1; 2; 3]).
Definition T_d2 : atensor := AT I32 cpu [3] (VI <$> [4; -5; 6]).
Lemma T_d1_valid : valid T_d1. Proof. lit_valid. Qed.
Lemma T_d2_valid : valid T_d2. Proof. lit_valid. Qed.
Example C34_ex :
  wf (fx [T_d1; T_d2]) /\ holds (heap (fx [T_d1; T_d2])) 0 T_d1 /\
  holds (heap (fx [T_d1; T_d2])) 5 T_d2 /\ a_dims T_d1 = [3] /\ a_dims T_d2 = [3] /\
  inner I32 3 (fun q => at_ T_d1 [q]) (fun q => at_ T_d2 [q]) = Some (VI 12).
Proof.
  split_and!; [apply fx_wf|exact (fx_holds [T_d1; T_d2] 0 T_d1 eq_refl T_d1_valid)|
    exact (fx_holds [T_d1; T_d2] 1 T_d2 eq_refl T_d2_valid)|done|done|done].
Qed.
Example C34_run : exists r s',
  aitisa_dot (HPtr 0) (HPtr 5) HNull E0 (fx [T_d1; T_d2]) = Done r s' /\
  peek E0 s' r = Some (SUCCESS, [1], [VI 12]).
Proof. apply run_ex. vm_compute. reflexivity. Qed.
Example C34_run_mm : exists r s',
  aitisa_dot (HPtr 0) (HPtr 0) HNull E0 (fx [AT I32 cpu [2; 2] (VI <$> [1; 2; 3; 4])]) = Done r s' /\
  peek E0 s' r = Some (SUCCESS, [2; 2], VI <$> [7; 10; 15; 22]).
Proof. apply run_ex. vm_compute. reflexivity. Qed.

(** ** C35: contraction of tensors *)
Theorem C35_tensor_vector : forall p1 p2 T1 T2 T3 o E s b k,
  wf s -> alloc_all E -> hooks_ok E -> holds (heap s) p1 T1 -> holds (heap s) p2 T2 ->
  a_type T2 = a_type T1 -> dev_type (a_dev T1) = 0 -> dev_type (a_dev T2) = 0 ->
  Forall (fun d => 0 < d <= INT_MAX) (a_dims T1) ->
  valid T3 -> a_type T3 = a_type T1 -> a_dev T3 = a_dev T1 ->
  prodZ (a_dims T3) * Z.of_nat (tsz (a_type T3)) <= INT_MAX ->
  b <> [] -> a_dims T1 = b ++ [k] -> a_dims T2 = [k] -> a_dims T3 = b ->
  (forall c, in_box b c ->
     inner (a_type T1) k (fun q => at_ T1 (c ++ [q])) (fun q => at_ T2 [q]) = Some (at_ T3 c)) ->
  makes (aitisa_dot (HPtr p1) (HPtr p2) o) E s T3.
Proof. exact dot_tv_rule. Qed.
Print Assumptions C35_tensor_vector.
Theorem C35_tensor_tensor : forall p1 p2 T1 T2 T3 o E s b1 b2 k n,
  wf s -> alloc_all E -> hooks_ok E -> holds (heap s) p1 T1 -> holds (heap s) p2 T2 ->
  a_type T2 = a_type T1 -> dev_type (a_dev T1) = 0 -> dev_type (a_dev T2) = 0 ->
  Forall (fun d => 0 < d <= INT_MAX) (a_dims T1) -> Forall (fun d => 0 < d <= INT_MAX) (a_dims T2) ->
  valid T3 -> a_type T3 = a_type T1 -> a_dev T3 = a_dev T1 ->
  prodZ b1 <= INT_MAX -> prodZ b2 * n <= INT_MAX ->
  (2 <= length b1)%nat -> (1 <= length b2)%nat ->
  a_dims T1 = b1 ++ [k] -> a_dims T2 = b2 ++ [k; n] -> a_dims T3 = b1 ++ b2 ++ [n] ->
  (forall c e j, in_box b1 c -> in_box b2 e -> 0 <= j < n ->
     inner (a_type T1) k (fun q => at_ T1 (c ++ [q])) (fun q => at_ T2 (e ++ [q; j]))
     = Some (at_ T3 (c ++ e ++ [j]))) ->
  makes (aitisa_dot (HPtr p1) (HPtr p2) o) E s T3.
Proof. exact dot_tt_rule. Qed.
Print Assumptions C35_tensor_tensor.
Theorem C35_tensor_vector_mismatch : forall p1 p2 T1 T2 o E s b k1 k2,
  holds (heap s) p1 T1 -> holds (heap s) p2 T2 ->
  a_type T2 = a_type T1 -> dev_type (a_dev T1) = 0 -> dev_type (a_dev T2) = 0 ->
  b <> [] -> a_dims T1 = b ++ [k1] -> a_dims T2 = [k2] -> k1 <> k2 ->
  refuses (aitisa_dot (HPtr p1) (HPtr p2) o) E s o INVALID_ARGUMENT.
Proof. exact dot_tv_mismatch. Qed.
Print Assumptions C35_tensor_vector_mismatch.
Theorem C35_tensor_tensor_mismatch : forall p1 p2 T1 T2 o E s b1 b2 k1 k2 n,
  holds (heap s) p1 T1 -> holds (heap s) p2 T2 ->
  a_type T2 = a_type T1 -> dev_type (a_dev T1) = 0 -> dev_type (a_dev T2) = 0 ->
  (2 <= length b1)%nat -> (1 <= length b2)%nat ->
  a_dims T1 = b1 ++ [k1] -> a_dims T2 = b2 ++ [k2; n] -> k1 <> k2 ->
  refuses (aitisa_dot (HPtr p1) (HPtr p2) o) E s o INVALID_ARGUMENT.
Proof. exact dot_tt_mismatch. Qed.
Print Assumptions C35_tensor_tensor_mismatch.
(** The remaining combinations of ranks (a matrix or vector with a tensor, a vector or
    tensor with a matrix) are rejected. *)
Theorem C35_other_ranks : forall p1 p2 T1 T2 o E s,
  holds (heap s) p1 T1 -> holds (heap s) p2 T2 ->
  a_type T2 = a_type T1 -> dev_type (a_dev T1) = 0 -> dev_type (a_dev T2) = 0 ->
  (a_dims T1 <> [] /\ (length (a_dims T1) <= 2)%nat /\ (3 <= length (a_dims T2))%nat \/
   length (a_dims T1) <> 2%nat /\ a_dims T1 <> [] /\ length (a_dims T2) = 2%nat) ->
  refuses (aitisa_dot (HPtr p1) (HPtr p2) o) E s o INVALID_ARGUMENT.
Proof. exact dot_invalid. Qed.
Print Assumptions C35_other_ranks.
(** Why the extents are positive: over a contracted extent of 0 the call is rejected
    after *output was set to a tensor that is never filled. *)
Theorem C35_zero_extent : exists T1 T2 p1 p2 E s q s',
  wf s /\ alloc_all E /\ hooks_ok E /\ holds (heap s) p1 T1 /\ holds (heap s) p2 T2 /\
  a_type T1 = a_type T2 /\ a_dims T1 = [2; 0] /\ a_dims T2 = [0] /\
  aitisa_dot (HPtr p1) (HPtr p2) HNull E s = Done (INVALID_ARGUMENT, HPtr q) s'.
Proof. exact dot_zero_extent. Qed.
Print Assumptions C35_zero_extent.

Definition T_d3 : atensor := AT I32 cpu [2; 1; 2] (VI <$> [1; 2; 3; 4]).
Definition T_d4 : atensor := AT I32 cpu [2; 2; 1] (VI <$> [1; -1; 5; 6]).
Definition T_d5 : atensor := AT I32 cpu [2; 1; 2; 1] (VI <$> [-1; 17; -1; 39]).
Lemma T_d3_valid : valid T_d3. Proof. lit_valid. Qed.
Lemma T_d4_valid : valid T_d4. Proof. lit_valid. Qed.
Example C35_ex :
  wf (fx [T_d3; T_d4]) /\ holds (heap (fx [T_d3; T_d4])) 0 T_d3 /\
  holds (heap (fx [T_d3; T_d4])) 5 T_d4 /\ valid T_d5 /\
  Forall (fun d => 0 < d <= INT_MAX) (a_dims T_d3) /\ Forall (fun d => 0 < d <= INT_MAX) (a_dims T_d4) /\
  a_dims T_d3 = [2; 1] ++ [2] /\ a_dims T_d4 = [2] ++ [2; 1] /\ a_dims T_d5 = [2; 1] ++ [2] ++ [1] /\
  (forall c e j, in_box [2; 1] c -> in_box [2] e -> 0 <= j < 1 ->
     inner I32 2 (fun q => at_ T_d3 (c ++ [q])) (fun q => at_ T_d4 (e ++ [q; j]))
     = Some (at_ T_d5 (c ++ e ++ [j]))).
Proof.
  split_and!; [apply fx_wf|exact (fx_holds [T_d3; T_d4] 0 T_d3 eq_refl T_d3_valid)|
    exact (fx_holds [T_d3; T_d4] 1 T_d4 eq_refl T_d4_valid)|lit_valid| | |done|done|done|].
  1,2: repeat constructor; vm_compute; discriminate.
  intros c e j Hc He Hj. assert (j = 0) as -> by lia.
  apply Forall2_cons_inv_l in Hc as (x & c1 & Hx & Hc & ->).
  apply Forall2_cons_inv_l in Hc as (y & c2 & Hy & Hc & ->). apply Forall2_nil_inv_l in Hc as ->.
  apply Forall2_cons_inv_l in He as (z & e2 & Hz & He & ->). apply Forall2_nil_inv_l in He as ->.
  assert (y = 0) as -> by lia.
  assert (x = 0 \/ x = 1) as [-> | ->] by lia;
    assert (z = 0 \/ z = 1) as [-> | ->] by lia; vm_compute; reflexivity.
Qed.
Example C35_run : exists r s',
  aitisa_dot (HPtr 0) (HPtr 5) HNull E0 (fx [T_d3; T_d4]) = Done r s' /\
  peek E0 s' r = Some (SUCCESS, [2; 1; 2; 1], VI <$> [-1; 17; -1; 39]).
Proof. apply run_ex. vm_compute. reflexivity. Qed.
Example C35_run_tv : exists r s',
  aitisa_dot (HPtr 0) (HPtr 5) HNull E0 (fx [AT I32 cpu [2; 3] (VI <$> [1; 2; 3; 4; 5; 6]); T_d1]) = Done r s' /\
  peek E0 s' r = Some (SUCCESS, [2], VI <$> [14; 32]).
Proof. apply run_ex. vm_compute. reflexivity. Qed.

(** ** C36: scaling by a scalar *)
(** The scalar takes a detour through a double: 64-bit integers above 2^53 lose
    precision, and INT64_MAX has no way back. *)
Theorem C36_exact_refuted : exists T1 T2 p1 p2 E s r s',
  wf s /\ alloc_all E /\ hooks_ok E /\ holds (heap s) p1 T1 /\ holds (heap s) p2 T2 /\
  a_type T1 = I64 /\ a_type T2 = I64 /\ a_dims T1 = [] /\
  a_vals T1 = [VI 9007199254740993] /\ a_vals T2 = [VI 1] /\
  aitisa_dot (HPtr p1) (HPtr p2) HNull E s = Done r s' /\
  peek E s' r = Some (SUCCESS, [1], [VI 9007199254740992]).
Proof. exact dot_scalar_inexact. Qed.
Print Assumptions C36_exact_refuted.
Theorem C36_defined_refuted : exists T1 T2 p1 p2 E s u,
  wf s /\ alloc_all E /\ hooks_ok E /\ holds (heap s) p1 T1 /\ holds (heap s) p2 T2 /\
  a_type T1 = I64 /\ a_type T2 = I64 /\ a_dims T1 = [] /\
  a_vals T1 = [VI 9223372036854775807] /\ a_vals T2 = [VI 1] /\
  aitisa_dot (HPtr p1) (HPtr p2) HNull E s = UB u.
Proof. exact dot_scalar_ub. Qed.
Print Assumptions C36_defined_refuted.
(** What holds: scalars up to 2^53 in magnitude ... *)
Theorem C36_left_partial : forall p1 p2 T1 T2 o E s,
  wf s -> alloc_all E -> hooks_ok E -> holds (heap s) p1 T1 -> holds (heap s) p2 T2 ->
  a_type T2 = a_type T1 -> dev_type (a_dev T1) = 0 -> dev_type (a_dev T2) = 0 ->
  forall v, a_dims T1 = [] -> a_vals T1 = [v] -> prodZ (a_dims T2) <= INT_MAX -> init T1 -> init T2 ->
  (forall z, v = VI z -> Z.abs z <= 2 ^ 53) -> Forall (op_defined (a_type T1) OpMul v) (a_vals T2) ->
  exists ws, Forall2 (fun y w => bin_spec (a_type T1) OpMul v y (Some w)) (a_vals T2) ws /\
    makes (aitisa_dot (HPtr p1) (HPtr p2) o) E s (AT (a_type T1) (a_dev T1) (a_dims T2) ws).
Proof. exact dot_scalar_left. Qed.
Print Assumptions C36_left_partial.
Theorem C36_right_partial : forall p1 p2 T1 T2 o E s,
  wf s -> alloc_all E -> hooks_ok E -> holds (heap s) p1 T1 -> holds (heap s) p2 T2 ->
  a_type T2 = a_type T1 -> dev_type (a_dev T1) = 0 -> dev_type (a_dev T2) = 0 ->
  forall v, a_dims T2 = [] -> a_vals T2 = [v] -> prodZ (a_dims T1) <= INT_MAX -> init T1 -> init T2 ->
  a_dims T1 <> [] ->
  (forall z, v = VI z -> Z.abs z <= 2 ^ 53) -> Forall (op_defined (a_type T1) OpMul v) (a_vals T1) ->
  exists ws, Forall2 (fun y w => bin_spec (a_type T1) OpMul v y (Some w)) (a_vals T1) ws /\
    makes (aitisa_dot (HPtr p1) (HPtr p2) o) E s (AT (a_type T1) (a_dev T1) (a_dims T1) ws).
Proof. exact dot_scalar_right. Qed.
Print Assumptions C36_right_partial.
(** ... that is, any value of any type but the 64-bit integers. *)
Theorem C36_other_types_partial : forall t v,
  val_ok t v -> t <> I64 -> t <> U64 -> forall z, v = VI z -> Z.abs z <= 2 ^ 53.
Proof. exact small_ints. Qed.
Print Assumptions C36_other_types_partial.

Example C36_ex :
  wf (fx [T_scalar; T_i32]) /\ holds (heap (fx [T_scalar; T_i32])) 0 T_scalar /\
  holds (heap (fx [T_scalar; T_i32])) 5 T_i32 /\ a_dims T_scalar = [] /\ a_vals T_scalar = [VI 3] /\
  init T_scalar /\ init T_i32 /\ Forall (op_defined I32 OpMul (VI 3)) (a_vals T_i32).
Proof.
  split_and!; [apply fx_wf|exact (fx_holds [T_scalar; T_i32] 0 T_scalar eq_refl T_scalar_valid)|
    exact (fx_holds [T_scalar; T_i32] 1 T_i32 eq_refl T_i32_valid)|done|done|..].
  all: repeat constructor; vm_compute; discriminate.
Qed.
Example C36_run : exists r s',
  aitisa_dot (HPtr 0) (HPtr 5) HNull E0 (fx [T_scalar; T_i32]) = Done r s' /\
  peek E0 s' r = Some (SUCCESS, [2; 3], VI <$> [15; -21; 0; 36; 9; -3]).
Proof. apply run_ex. vm_compute. reflexivity. Qed.
