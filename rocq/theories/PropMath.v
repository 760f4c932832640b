(** * PropMath: properties of elementwise arithmetic and square root (C26-C30) *)
From stdpp Require Import gmap list.
From Coq Require Import ZArith Lia Floats.SpecFloat.
From Verif Require Import Base Mem Spec SpecReal ModelCore ModelBasic ModelMath Logic ProofCore ProofCore2
  ProofMath ProofSqrt RefuteMath Fixture.
Open Scope Z_scope.

(** ** C26: elementwise arithmetic (p1 and p2 may be the same tensor) *)
Theorem C26_arithmetic : forall op p1 p2 T1 T2 o E s,
  wf s -> alloc_all E -> holds (heap s) p1 T1 -> holds (heap s) p2 T2 ->
  a_type T2 = a_type T1 -> a_dims T2 = a_dims T1 ->
  dev_type (a_dev T1) = 0 -> dev_type (a_dev T2) = 0 ->
  prodZ (a_dims T1) <= INT_MAX -> init T1 -> init T2 ->
  Forall2 (op_defined (a_type T1) op) (a_vals T1) (a_vals T2) ->
  exists ws,
    Forall3 (fun x y w => bin_spec (a_type T1) op x y (Some w)) (a_vals T1) (a_vals T2) ws /\
    makes (aitisa_binary_op op (HPtr p1) (HPtr p2) o) E s (AT (a_type T1) (a_dev T1) (a_dims T1) ws).
Proof. exact binary_spec_rule. Qed.
Print Assumptions C26_arithmetic.

Example C26_ex :
  wf (fx [T_i32; T_i32']) /\ alloc_all E0 /\
  holds (heap (fx [T_i32; T_i32'])) 0 T_i32 /\ holds (heap (fx [T_i32; T_i32'])) 5 T_i32' /\
  a_type T_i32' = a_type T_i32 /\ a_dims T_i32' = a_dims T_i32 /\
  dev_type (a_dev T_i32) = 0 /\ dev_type (a_dev T_i32') = 0 /\
  prodZ (a_dims T_i32) <= INT_MAX /\ init T_i32 /\ init T_i32' /\
  Forall2 (op_defined I32 OpDiv) (a_vals T_i32) (a_vals T_i32').
Proof.
  split_and!; [apply fx_wf|done|exact (fx_holds [T_i32; T_i32'] 0 T_i32 eq_refl T_i32_valid)|
    exact (fx_holds [T_i32; T_i32'] 1 T_i32' eq_refl T_i32'_valid)|done|done|done|done|
    vm_compute; discriminate| | |].
  - repeat constructor; vm_compute; discriminate.
  - repeat constructor; vm_compute; discriminate.
  - repeat constructor; vm_compute; intuition discriminate.
Qed.
Example C26_run : exists r s',
  aitisa_div (HPtr 0) (HPtr 5) HNull E0 (fx [T_i32; T_i32']) = Done r s' /\
  peek E0 s' r = Some (SUCCESS, [2; 3], VI <$> [5; -3; 0; 3; 0; 0]).
Proof. apply run_ex. vm_compute. reflexivity. Qed.
Example C26_run_float : exists r s',
  aitisa_mul (HPtr 0) (HPtr 0) HNull E0 (fx [T_f32]) = Done r s' /\
  peek E0 s' r = Some (SUCCESS, [2; 2], (fun z => VF (flt_of_Z F32 z)) <$> [1; 4; 9; 10000]).
Proof. apply run_ex. vm_compute. reflexivity. Qed.

(** ** C27: rejections, in this order *)
Theorem C27_not_cpu : forall op p1 p2 T1 T2 o E s,
  holds (heap s) p1 T1 -> holds (heap s) p2 T2 ->
  ~ (dev_type (a_dev T1) = 0 /\ dev_type (a_dev T2) = 0) ->
  refuses (aitisa_binary_op op (HPtr p1) (HPtr p2) o) E s o NOT_SUPPORTED.
Proof. exact binary_not_cpu. Qed.
Print Assumptions C27_not_cpu.
Theorem C27_type_mismatch : forall op p1 p2 T1 T2 o E s,
  holds (heap s) p1 T1 -> holds (heap s) p2 T2 ->
  dev_type (a_dev T1) = 0 -> dev_type (a_dev T2) = 0 -> a_type T1 <> a_type T2 ->
  refuses (aitisa_binary_op op (HPtr p1) (HPtr p2) o) E s o TYPE_MISMATCH.
Proof. exact binary_type. Qed.
Print Assumptions C27_type_mismatch.
Theorem C27_dims_mismatch : forall op p1 p2 T1 T2 o E s,
  holds (heap s) p1 T1 -> holds (heap s) p2 T2 ->
  dev_type (a_dev T1) = 0 -> dev_type (a_dev T2) = 0 -> a_type T1 = a_type T2 ->
  a_dims T1 <> a_dims T2 ->
  refuses (aitisa_binary_op op (HPtr p1) (HPtr p2) o) E s o INVALID_ARGUMENT.
Proof. exact binary_dims. Qed.
Print Assumptions C27_dims_mismatch.

Example C27_ex :
  holds (heap (fx [T_i32; T_u8; T_scalar])) 0 T_i32 /\
  holds (heap (fx [T_i32; T_u8; T_scalar])) 5 T_u8 /\
  holds (heap (fx [T_i32; T_u8; T_scalar])) 10 T_scalar /\
  a_type T_i32 <> a_type T_u8 /\ a_type T_i32 = a_type T_scalar /\ a_dims T_i32 <> a_dims T_scalar /\
  aitisa_add (HPtr 0) (HPtr 5) HUndef E0 (fx [T_i32; T_u8; T_scalar])
  = Done (TYPE_MISMATCH, HUndef) (fx [T_i32; T_u8; T_scalar]).
Proof.
  split_and!; [exact (fx_holds [T_i32; T_u8; T_scalar] 0 T_i32 eq_refl T_i32_valid)|
    exact (fx_holds [T_i32; T_u8; T_scalar] 1 T_u8 eq_refl T_u8_valid)|
    exact (fx_holds [T_i32; T_u8; T_scalar] 2 T_scalar eq_refl T_scalar_valid)|done|done|done|].
  eapply C27_type_mismatch;
    [exact (fx_holds [T_i32; T_u8; T_scalar] 0 T_i32 eq_refl T_i32_valid)|
     exact (fx_holds [T_i32; T_u8; T_scalar] 1 T_u8 eq_refl T_u8_valid)|done..].
Qed.

(** ** C28: integer overflow *)
Theorem C28_int32_refuted : exists E s p1 p2 T1 T2,
  wf s /\ alloc_all E /\ holds (heap s) p1 T1 /\ holds (heap s) p2 T2 /\
  a_type T1 = I32 /\ a_type T2 = I32 /\ a_dims T1 = a_dims T2 /\ init T1 /\ init T2 /\
  aitisa_add (HPtr p1) (HPtr p2) HNull E s = UB UB_overflow.
Proof. exact add_overflow. Qed.
Print Assumptions C28_int32_refuted.
Theorem C28_uint16_refuted : exists E s p T,
  wf s /\ alloc_all E /\ holds (heap s) p T /\ a_type T = U16 /\ init T /\
  aitisa_mul (HPtr p) (HPtr p) HNull E s = UB UB_overflow.
Proof. exact mul_u16_overflow. Qed.
Print Assumptions C28_uint16_refuted.
(** The types for which it does hold. *)
Theorem C28_total_partial : forall t op xs ys,
  t ∈ [I8; U8; I16; U32; U64] -> op <> OpDiv ->
  Forall (val_ok t) xs -> Forall (val_ok t) ys -> length xs = length ys ->
  Forall2 (op_defined t op) xs ys.
Proof. exact int_total_defined. Qed.
Print Assumptions C28_total_partial.
Example C28_ex : I16 ∈ [I8; U8; I16; U32; U64] /\ OpMul <> OpDiv /\
  Forall (val_ok I16) [VI (-32768); VI 32767] /\
  bin_val I16 OpMul (VI (-32768)) (VI (-32768)) = Some (VI 0).
Proof.
  split_and!; [set_solver|done| |reflexivity]. repeat constructor; vm_compute; discriminate.
Qed.

(** ** C29: square root *)
Theorem C29_sqrt : forall p T o E s,
  wf s -> holds (heap s) p T -> init T -> Forall (fun v => ~ negative v) (a_vals T) ->
  exists ws, Forall2 (fun v w => sqrt_spec (a_type T) v (Some w)) (a_vals T) ws /\
  makes_or_nomem (aitisa_sqrt (HPtr p) o) E s o (AT (a_type T) (a_dev T) (a_dims T) ws).
Proof. exact sqrt_ok. Qed.
Print Assumptions C29_sqrt.
Theorem C29_negative : forall p T o E s,
  wf s -> holds (heap s) p T -> init T -> Exists negative (a_vals T) ->
  exists r s', aitisa_sqrt (HPtr p) o E s = Done r s' /\ keeps s s' /\
    (r.1 = MATH_ERROR \/ ~ alloc_all E /\ r = (ALLOC_FAILED, o)).
Proof. exact sqrt_negative. Qed.
Print Assumptions C29_negative.
Example C29_ex :
  wf (fx [T_i32'; T_i32]) /\ holds (heap (fx [T_i32'; T_i32])) 0 T_i32' /\ init T_i32' /\
  Forall (fun v => ~ negative v) (a_vals T_i32') /\
  holds (heap (fx [T_i32'; T_i32])) 5 T_i32 /\ init T_i32 /\ Exists negative (a_vals T_i32).
Proof.
  split_and!; [apply fx_wf|exact (fx_holds [T_i32'; T_i32] 0 T_i32' eq_refl T_i32'_valid)| | |
    exact (fx_holds [T_i32'; T_i32] 1 T_i32 eq_refl T_i32_valid)| |].
  - repeat constructor; vm_compute; discriminate.
  - repeat constructor; cbn; lia.
  - repeat constructor; vm_compute; discriminate.
  - right. left. cbn. lia.
Qed.
Example C29_run : exists r s',
  aitisa_sqrt (HPtr 0) HNull E0 (fx [T_f64]) = Done r s' /\
  peek E0 s' r = Some (SUCCESS, [4], VF <$> [flt_of_Z F64 1; flt_of_Z F64 2; flt_of_Z F64 3;
    S754_finite false 6369051672525773 (-52)]).
Proof. apply run_ex. vm_compute. reflexivity. Qed.

(** ** C30: integer square roots *)
Theorem C30_int64_refuted : exists E s p z y,
  wf s /\ alloc_all E /\ holds (heap s) p (AT I64 cpu [1] [VI z]) /\ 0 <= z /\
  makes (aitisa_sqrt (HPtr p) HNull) E s (AT I64 cpu [1] [VI y]) /\ z < y * y.
Proof. exact sqrt_rounds_up. Qed.
Print Assumptions C30_int64_refuted.
Theorem C30_floor_partial : forall p T o E s,
  wf s -> holds (heap s) p T -> init T -> is_float (a_type T) = false ->
  Forall (fun v => exists z, v = VI z /\ 0 <= z < 2 ^ 52) (a_vals T) ->
  exists ys, Forall2 (fun v y => exists z, v = VI z /\ 0 <= y /\ y * y <= z < (y + 1) * (y + 1)) (a_vals T) ys /\
  makes_or_nomem (aitisa_sqrt (HPtr p) o) E s o (AT (a_type T) (a_dev T) (a_dims T) (VI <$> ys)).
Proof. exact sqrt_floor. Qed.
Print Assumptions C30_floor_partial.
Example C30_ex :
  wf (fx [T_i32']) /\ holds (heap (fx [T_i32'])) 0 T_i32' /\ init T_i32' /\ is_float (a_type T_i32') = false /\
  Forall (fun v => exists z, v = VI z /\ 0 <= z < 2 ^ 52) (a_vals T_i32').
Proof.
  split_and!; [apply fx_wf|exact (fx_holds [T_i32'] 0 T_i32' eq_refl T_i32'_valid)| |done|].
  - repeat constructor; vm_compute; discriminate.
  - repeat constructor; eexists; (split; [reflexivity|lia]).
Qed.
Example C30_run : exists r s',
  aitisa_sqrt (HPtr 0) HNull E0 (fx [T_i32']) = Done r s' /\
  peek E0 s' r = Some (SUCCESS, [2; 3], VI <$> [1; 1; 1; 2; 2; 2]).
Proof. apply run_ex. vm_compute. reflexivity. Qed.
