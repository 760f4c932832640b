(** * PropMath2: properties of matrix multiplication (C31-C33) *)
From stdpp Require Import gmap list.
From Coq Require Import ZArith Lia Floats.SpecFloat.
From Verif Require Import Base Mem Spec ModelCore ModelBasic ModelMath Logic ProofCore ProofCore2 ProofKernel2
  ProofFrame ProofMatmul ProofMatmul2 ProofMatmul3 RefuteMath2 Fixture.
Open Scope Z_scope.

(** ** C31: vectors and matrices *)
Theorem C31_vector_vector : forall p1 p2 T1 T2 T3 o E s,
  wf s -> holds (heap s) p1 T1 -> holds (heap s) p2 T2 ->
  a_type T2 = a_type T1 -> dev_type (a_dev T1) = 0 -> dev_type (a_dev T2) = 0 ->
  valid T3 -> a_type T3 = a_type T1 -> a_dev T3 = a_dev T1 -> prodZ (a_dims T3) <= INT_MAX ->
  forall k, a_dims T1 = [k] -> a_dims T2 = [k] -> a_dims T3 = [1] -> k <= INT_MAX ->
  inner (a_type T1) k (fun q => at_ T1 [q]) (fun q => at_ T2 [q]) = Some (at_ T3 [0]) ->
  makes_or_nomem (aitisa_matmul (HPtr p1) (HPtr p2) o) E s o T3.
Proof. exact matmul_vv_rule. Qed.
Print Assumptions C31_vector_vector.
Theorem C31_matrix_vector : forall p1 p2 T1 T2 T3 o E s,
  wf s -> holds (heap s) p1 T1 -> holds (heap s) p2 T2 ->
  a_type T2 = a_type T1 -> dev_type (a_dev T1) = 0 -> dev_type (a_dev T2) = 0 ->
  valid T3 -> a_type T3 = a_type T1 -> a_dev T3 = a_dev T1 -> prodZ (a_dims T3) <= INT_MAX ->
  forall m k, a_dims T1 = [m; k] -> a_dims T2 = [k] -> a_dims T3 = [m] -> k <= INT_MAX ->
  (forall i, 0 <= i < m ->
     inner (a_type T1) k (fun q => at_ T1 [i; q]) (fun q => at_ T2 [q]) = Some (at_ T3 [i])) ->
  makes_or_nomem (aitisa_matmul (HPtr p1) (HPtr p2) o) E s o T3.
Proof. exact matmul_mv_rule. Qed.
Print Assumptions C31_matrix_vector.
Theorem C31_vector_matrix : forall p1 p2 T1 T2 T3 o E s,
  wf s -> holds (heap s) p1 T1 -> holds (heap s) p2 T2 ->
  a_type T2 = a_type T1 -> dev_type (a_dev T1) = 0 -> dev_type (a_dev T2) = 0 ->
  valid T3 -> a_type T3 = a_type T1 -> a_dev T3 = a_dev T1 -> prodZ (a_dims T3) <= INT_MAX ->
  forall k n, a_dims T1 = [k] -> a_dims T2 = [k; n] -> a_dims T3 = [n] -> k <= INT_MAX ->
  (forall j, 0 <= j < n ->
     inner (a_type T1) k (fun q => at_ T1 [q]) (fun q => at_ T2 [q; j]) = Some (at_ T3 [j])) ->
  makes_or_nomem (aitisa_matmul (HPtr p1) (HPtr p2) o) E s o T3.
Proof. exact matmul_vm_rule. Qed.
Print Assumptions C31_vector_matrix.
Theorem C31_matrix_matrix : forall p1 p2 T1 T2 T3 o E s,
  wf s -> holds (heap s) p1 T1 -> holds (heap s) p2 T2 ->
  a_type T2 = a_type T1 -> dev_type (a_dev T1) = 0 -> dev_type (a_dev T2) = 0 ->
  valid T3 -> a_type T3 = a_type T1 -> a_dev T3 = a_dev T1 -> prodZ (a_dims T3) <= INT_MAX ->
  forall m k n, a_dims T1 = [m; k] -> a_dims T2 = [k; n] -> a_dims T3 = [m; n] ->
  m <= INT_MAX -> k <= INT_MAX -> n <= INT_MAX ->
  (forall i j, 0 <= i < m -> 0 <= j < n ->
     inner (a_type T1) k (fun q => at_ T1 [i; q]) (fun q => at_ T2 [q; j]) = Some (at_ T3 [i; j])) ->
  makes_or_nomem (aitisa_matmul (HPtr p1) (HPtr p2) o) E s o T3.
Proof. exact matmul_mm_rule. Qed.
Print Assumptions C31_matrix_matrix.

(** A result [T3] as in these theorems exists as soon as every inner product is defined. *)
Theorem C31_result_exists : forall t dev dims F,
  fits (tsz t) dims -> (forall c, in_box dims c -> is_Some (F c)) ->
  exists T3, valid T3 /\ a_type T3 = t /\ a_dev T3 = dev /\ a_dims T3 = dims /\
    forall c, in_box dims c -> F c = Some (at_ T3 c).
Proof. exact tab_choose. Qed.
Print Assumptions C31_result_exists.
(** It is defined for these types whatever the values are ... *)
Theorem C31_inner_defined : forall t k f g,
  t ∈ [I8; U8; I16; U32; U64; F32; F64] ->
  (forall q, 0 <= q < k -> val_ok t (f q) /\ val_ok t (g q)) ->
  exists w, inner t k f g = Some w.
Proof. exact inner_defined. Qed.
Print Assumptions C31_inner_defined.
(** ... and for the other integer types as long as no step overflows; for integers it
    is the sum of the products modulo 2^bits. *)
Theorem C31_inner_integer : forall t k f g w,
  is_float t = false -> inner t k (fun q => VI (f q)) (fun q => VI (g q)) = Some w ->
  w = VI (wrap t (sum_to (Z.to_nat k) (fun q => f q * g q))).
Proof. exact inner_int. Qed.
Print Assumptions C31_inner_integer.
Theorem C31_inner_value : forall t k f g w,
  (forall q, 0 <= q < k -> val_ok t (f q) /\ val_ok t (g q)) -> inner t k f g = Some w -> val_ok t w.
Proof. exact inner_ok. Qed.
Print Assumptions C31_inner_value.

(** Contracted extents: the last one of the first operand; the only one, or the last but
    one, of the second operand. *)
Theorem C31_mismatch : forall p1 p2 T1 T2 o E s k1 k2,
  holds (heap s) p1 T1 -> holds (heap s) p2 T2 ->
  dev_type (a_dev T1) = 0 -> dev_type (a_dev T2) = 0 ->
  (exists b1, a_dims T1 = b1 ++ [k1]) ->
  (a_dims T2 = [k2] \/ exists b2 n, a_dims T2 = b2 ++ [k2; n]) -> k1 <> k2 ->
  refuses (aitisa_matmul (HPtr p1) (HPtr p2) o) E s o DIMENSIONS_MISMATCH.
Proof. exact matmul_mismatch'. Qed.
Print Assumptions C31_mismatch.

Definition T_m23 : atensor := AT I32 cpu [2; 3] (VI <$> [1; 2; 3; 4; 5; 6]).
Definition T_m32 : atensor := AT I32 cpu [3; 2] (VI <$> [7; 8; 9; 10; 11; -12]).
Definition T_m22 : atensor := AT I32 cpu [2; 2] (VI <$> [58; -8; 139; 10]).
Example C31_ex :
  wf (fx [T_m23; T_m32]) /\ holds (heap (fx [T_m23; T_m32])) 0 T_m23 /\
  holds (heap (fx [T_m23; T_m32])) 5 T_m32 /\ valid T_m22 /\
  a_dims T_m23 = [2; 3] /\ a_dims T_m32 = [3; 2] /\ a_dims T_m22 = [2; 2] /\
  (forall i j, 0 <= i < 2 -> 0 <= j < 2 ->
     inner I32 3 (fun q => at_ T_m23 [i; q]) (fun q => at_ T_m32 [q; j]) = Some (at_ T_m22 [i; j])).
Proof.
  assert (valid T_m23) as H1 by lit_valid. assert (valid T_m32) as H2 by lit_valid.
  split_and!; [apply fx_wf|exact (fx_holds [T_m23; T_m32] 0 T_m23 eq_refl H1)|
    exact (fx_holds [T_m23; T_m32] 1 T_m32 eq_refl H2)|lit_valid|done..|].
  intros i j Hi Hj. assert (i = 0 \/ i = 1) as [-> | ->] by lia;
    assert (j = 0 \/ j = 1) as [-> | ->] by lia; vm_compute; reflexivity.
Qed.
Example C31_run : exists r s',
  aitisa_matmul (HPtr 0) (HPtr 5) HNull E0 (fx [T_m23; T_m32]) = Done r s' /\
  peek E0 s' r = Some (SUCCESS, [2; 2], VI <$> [58; -8; 139; 10]).
Proof. apply run_ex. vm_compute. reflexivity. Qed.
Example C31_mismatch_run :
  aitisa_matmul (HPtr 0) (HPtr 0) HNull E0 (fx [T_m23]) = Done (DIMENSIONS_MISMATCH, HNull) (fx [T_m23]).
Proof. vm_compute. reflexivity. Qed.

(** ** C32: batches *)
Theorem C32_batch_matrix : forall p1 p2 T1 T2 T3 o E s,
  wf s -> alloc_all E -> hooks_ok E -> holds (heap s) p1 T1 -> holds (heap s) p2 T2 ->
  a_type T2 = a_type T1 -> dev_type (a_dev T1) = 0 -> dev_type (a_dev T2) = 0 ->
  Forall (fun d => 0 < d <= INT_MAX) (a_dims T1) -> Forall (fun d => 0 < d <= INT_MAX) (a_dims T2) ->
  valid T3 -> a_type T3 = a_type T1 -> a_dev T3 = a_dev T1 -> prodZ (a_dims T3) <= INT_MAX ->
  forall b1 b2 bd m k n, bd <> [] -> a_dims T1 = b1 ++ [m; k] -> a_dims T2 = b2 ++ [k; n] ->
  bcast b1 b2 = Some bd -> a_dims T3 = bd ++ [m; n] ->
  (forall c i j, in_box bd c -> 0 <= i < m -> 0 <= j < n ->
     inner (a_type T1) k (fun q => at_ T1 (bproj b1 c ++ [i; q])) (fun q => at_ T2 (bproj b2 c ++ [q; j]))
     = Some (at_ T3 (c ++ [i; j]))) ->
  makes (aitisa_matmul (HPtr p1) (HPtr p2) o) E s T3.
Proof. exact matmul_tt_rule. Qed.
Print Assumptions C32_batch_matrix.
Theorem C32_batch_vector : forall p1 p2 T1 T2 T3 o E s,
  wf s -> alloc_all E -> hooks_ok E -> holds (heap s) p1 T1 -> holds (heap s) p2 T2 ->
  a_type T2 = a_type T1 -> dev_type (a_dev T1) = 0 -> dev_type (a_dev T2) = 0 ->
  Forall (fun d => 0 < d <= INT_MAX) (a_dims T1) -> Forall (fun d => 0 < d <= INT_MAX) (a_dims T2) ->
  valid T3 -> a_type T3 = a_type T1 -> a_dev T3 = a_dev T1 -> prodZ (a_dims T3) <= INT_MAX ->
  forall b1 m k, b1 <> [] -> a_dims T1 = b1 ++ [m; k] -> a_dims T2 = [k] -> a_dims T3 = b1 ++ [m] ->
  (forall c i, in_box b1 c -> 0 <= i < m ->
     inner (a_type T1) k (fun q => at_ T1 (c ++ [i; q])) (fun q => at_ T2 [q]) = Some (at_ T3 (c ++ [i]))) ->
  makes (aitisa_matmul (HPtr p1) (HPtr p2) o) E s T3.
Proof. exact matmul_tv_rule. Qed.
Print Assumptions C32_batch_vector.
Theorem C32_vector_batch : forall p1 p2 T1 T2 T3 o E s,
  wf s -> alloc_all E -> hooks_ok E -> holds (heap s) p1 T1 -> holds (heap s) p2 T2 ->
  a_type T2 = a_type T1 -> dev_type (a_dev T1) = 0 -> dev_type (a_dev T2) = 0 ->
  Forall (fun d => 0 < d <= INT_MAX) (a_dims T1) -> Forall (fun d => 0 < d <= INT_MAX) (a_dims T2) ->
  valid T3 -> a_type T3 = a_type T1 -> a_dev T3 = a_dev T1 -> prodZ (a_dims T3) <= INT_MAX ->
  forall b2 k n, b2 <> [] -> a_dims T1 = [k] -> a_dims T2 = b2 ++ [k; n] -> a_dims T3 = b2 ++ [n] ->
  (forall c j, in_box b2 c -> 0 <= j < n ->
     inner (a_type T1) k (fun q => at_ T1 [q]) (fun q => at_ T2 (c ++ [q; j])) = Some (at_ T3 (c ++ [j]))) ->
  makes (aitisa_matmul (HPtr p1) (HPtr p2) o) E s T3.
Proof. exact matmul_vt_rule. Qed.
Print Assumptions C32_vector_batch.

Definition T_b1 : atensor := AT I32 cpu [2; 1; 1; 2] (VI <$> [1; 2; 3; 4]).
Definition T_b2 : atensor := AT I32 cpu [3; 2; 1] (VI <$> [5; 6; 7; 8; 9; 10]).
Definition T_b3 : atensor := AT I32 cpu [2; 3; 1; 1] (VI <$> [17; 23; 29; 39; 53; 67]).
Example C32_ex :
  wf (fx [T_b1; T_b2]) /\ holds (heap (fx [T_b1; T_b2])) 0 T_b1 /\
  holds (heap (fx [T_b1; T_b2])) 5 T_b2 /\ valid T_b3 /\
  Forall (fun d => 0 < d <= INT_MAX) (a_dims T_b1) /\ Forall (fun d => 0 < d <= INT_MAX) (a_dims T_b2) /\
  a_dims T_b1 = [2; 1] ++ [1; 2] /\ a_dims T_b2 = [3] ++ [2; 1] /\
  bcast [2; 1] [3] = Some [2; 3] /\ a_dims T_b3 = [2; 3] ++ [1; 1] /\
  (forall c i j, in_box [2; 3] c -> 0 <= i < 1 -> 0 <= j < 1 ->
     inner I32 2 (fun q => at_ T_b1 (bproj [2; 1] c ++ [i; q])) (fun q => at_ T_b2 (bproj [3] c ++ [q; j]))
     = Some (at_ T_b3 (c ++ [i; j]))).
Proof.
  assert (valid T_b1) as H1 by lit_valid. assert (valid T_b2) as H2 by lit_valid.
  split_and!; [apply fx_wf|exact (fx_holds [T_b1; T_b2] 0 T_b1 eq_refl H1)|
    exact (fx_holds [T_b1; T_b2] 1 T_b2 eq_refl H2)|lit_valid| | |done|done|done|done|].
  1,2: repeat constructor; vm_compute; discriminate.
  intros c i j Hc Hi Hj. assert (i = 0) as -> by lia. assert (j = 0) as -> by lia.
  apply Forall2_cons_inv_l in Hc as (x & c1 & Hx & Hc & ->).
  apply Forall2_cons_inv_l in Hc as (y & c2 & Hy & Hc & ->). apply Forall2_nil_inv_l in Hc as ->.
  assert (x = 0 \/ x = 1) as [-> | ->] by lia;
    assert (y = 0 \/ y = 1 \/ y = 2) as [-> | [-> | ->]] by lia; vm_compute; reflexivity.
Qed.
Example C32_run : exists r s',
  aitisa_matmul (HPtr 0) (HPtr 5) HNull E0 (fx [T_b1; T_b2]) = Done r s' /\
  peek E0 s' r = Some (SUCCESS, [2; 3; 1; 1], VI <$> [17; 23; 29; 39; 53; 67]).
Proof. apply run_ex. vm_compute. reflexivity. Qed.
Definition T_v2 : atensor := AT I32 cpu [2] (VI <$> [1; -1]).
Example C32_run_tv : exists r s',
  aitisa_matmul (HPtr 0) (HPtr 5) HNull E0 (fx [T_b1; T_v2]) = Done r s' /\
  peek E0 s' r = Some (SUCCESS, [2; 1; 1], VI <$> [-1; -1]).
Proof. apply run_ex. vm_compute. reflexivity. Qed.
Example C32_run_vt : exists r s',
  aitisa_matmul (HPtr 5) (HPtr 0) HNull E0 (fx [T_b2; T_v2]) = Done r s' /\
  peek E0 s' r = Some (SUCCESS, [3; 1], VI <$> [-1; -1; -1]).
Proof. apply run_ex. vm_compute. reflexivity. Qed.

(** ** C33: operands that cannot be multiplied *)
(** Different types are not detected: the second operand is read at the type of the
    first one. *)
Theorem C33_type_refuted : exists T1 T2 p1 p2 E s,
  wf s /\ alloc_all E /\ holds (heap s) p1 T1 /\ holds (heap s) p2 T2 /\
  a_type T1 <> a_type T2 /\ a_dims T1 = a_dims T2 /\
  aitisa_matmul (HPtr p1) (HPtr p2) HNull E s = UB UB_type.
Proof. exact matmul_type_ub. Qed.
Print Assumptions C33_type_refuted.
Theorem C33_bounds_refuted : exists T1 T2 p1 p2 E s,
  wf s /\ alloc_all E /\ holds (heap s) p1 T1 /\ holds (heap s) p2 T2 /\
  a_type T1 <> a_type T2 /\ a_dims T1 = a_dims T2 /\
  aitisa_matmul (HPtr p1) (HPtr p2) HNull E s = UB UB_oob.
Proof. exact matmul_type_oob. Qed.
Print Assumptions C33_bounds_refuted.
(** This is so for all vectors: with different types the call is undefined. *)
Theorem C33_vector_types : forall p1 p2 T1 T2 o E s k v2 vs2,
  wf s -> alloc_all E -> holds (heap s) p1 T1 -> holds (heap s) p2 T2 ->
  dev_type (a_dev T1) = 0 -> dev_type (a_dev T2) = 0 ->
  a_dims T1 = [k] -> a_dims T2 = [k] -> a_type T1 <> a_type T2 ->
  a_vals T2 = v2 :: vs2 -> v2 <> VU ->
  exists u, aitisa_matmul (HPtr p1) (HPtr p2) o E s = UB u.
Proof. exact matmul_vv_types. Qed.
Print Assumptions C33_vector_types.
(** Incompatible shapes are rejected: contracted extents (C31_mismatch), scalars,
    batches, devices. *)
Theorem C33_scalar_partial : forall p1 p2 T1 T2 o E s,
  holds (heap s) p1 T1 -> holds (heap s) p2 T2 ->
  dev_type (a_dev T1) = 0 -> dev_type (a_dev T2) = 0 -> a_dims T1 = [] \/ a_dims T2 = [] ->
  refuses (aitisa_matmul (HPtr p1) (HPtr p2) o) E s o INVALID_ARGUMENT.
Proof. exact matmul_scalar. Qed.
Print Assumptions C33_scalar_partial.
Theorem C33_not_cpu_partial : forall p1 p2 T1 T2 o E s,
  holds (heap s) p1 T1 -> holds (heap s) p2 T2 ->
  dev_type (a_dev T1) <> 0 \/ dev_type (a_dev T2) <> 0 ->
  refuses (aitisa_matmul (HPtr p1) (HPtr p2) o) E s o NOT_SUPPORTED.
Proof. exact matmul_not_cpu. Qed.
Print Assumptions C33_not_cpu_partial.
(** Batches that do not broadcast: an error is reported, existing memory is kept, but
    exactly one scratch block is leaked. *)
Theorem C33_batch_partial : forall p1 p2 T1 T2 o E s b1 b2 m k n,
  wf s -> alloc_all E -> holds (heap s) p1 T1 -> holds (heap s) p2 T2 ->
  dev_type (a_dev T1) = 0 -> dev_type (a_dev T2) = 0 ->
  a_dims T1 = b1 ++ [m; k] -> a_dims T2 = b2 ++ [k; n] -> bcast b1 b2 = None ->
  exists s', aitisa_matmul (HPtr p1) (HPtr p2) o E s = Done (DIMENSIONS_MISMATCH, o) s' /\
    keeps s s' /\ exists b, frame (e_alloc E) [b] (heap s) (heap s').
Proof. exact matmul_batch_mismatch. Qed.
Print Assumptions C33_batch_partial.

Definition T_b4 : atensor := AT I32 cpu [2; 2; 1] (VI <$> [1; 2; 3; 4]).
Example C33_ex :
  holds (heap (fx [T_vi32; T_vi64; T_scalar])) 0 T_vi32 /\
  holds (heap (fx [T_vi32; T_vi64; T_scalar])) 5 T_vi64 /\
  holds (heap (fx [T_vi32; T_vi64; T_scalar])) 10 T_scalar /\
  a_dims T_vi32 = [2] /\ a_dims T_vi64 = [2] /\ a_type T_vi32 <> a_type T_vi64 /\
  a_dims T_scalar = [] /\ a_vals T_vi64 = [VI 4294967297; VI 5].
Proof.
  split_and!; [exact (fx_holds [T_vi32; T_vi64; T_scalar] 0 T_vi32 eq_refl T_vi32_valid)|
    exact (fx_holds [T_vi32; T_vi64; T_scalar] 1 T_vi64 eq_refl T_vi64_valid)|
    exact (fx_holds [T_vi32; T_vi64; T_scalar] 2 T_scalar eq_refl T_scalar_valid)|done..].
Qed.
Example C33_ex_batch :
  holds (heap (fx [T_b2; T_b4])) 0 T_b2 /\ a_dims T_b2 = [3] ++ [2; 1] /\ bcast [3] [2] = None.
Proof.
  assert (valid T_b2) as H1 by lit_valid.
  split_and!; [exact (fx_holds [T_b2; T_b4] 0 T_b2 eq_refl H1)|done|done].
Qed.
