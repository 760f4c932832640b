(** * PropNN: properties of the elementwise and lane operations of src/nn (C37-C40) *)
From stdpp Require Import gmap list.
From Coq Require Import ZArith Lia Reals Floats.SpecFloat.
From Flocq Require Core.
From Flocq Require Import IEEE754.BinarySingleNaN.
From Verif Require Import Base Mem Spec SpecReal SpecNN ModelCore ModelBasic ModelMath ModelNN Logic ProofCore ProofCore2
  ProofFloat ProofFloat4 ProofNN ProofDropout ProofSoftmax RefuteNN Fixture.
Open Scope Z_scope.

(** ** C37: ReLU *)
Theorem C37_relu : forall p T ws o E s,
  wf s -> holds (heap s) p T -> init T ->
  Forall2 (relu_spec (a_type T)) (a_vals T) ws ->
  makes_or_nomem (aitisa_relu (HPtr p) o) E s o (AT (a_type T) (a_dev T) (a_dims T) ws).
Proof. exact relu_makes. Qed.
Print Assumptions C37_relu.
Theorem C37_total : forall T, init T ->
  exists ws, Forall2 (relu_spec (a_type T)) (a_vals T) ws /\ Forall (val_ok (a_type T)) ws.
Proof. exact relu_total. Qed.
Print Assumptions C37_total.
Theorem C37_idempotent : forall p T o E s,
  wf s -> holds (heap s) p T -> init T ->
  exists T', makes_or_nomem (aitisa_relu (HPtr p) o) E s o T' /\
    (forall p' o' E' s', wf s' -> holds (heap s') p' T' ->
       makes_or_nomem (aitisa_relu (HPtr p') o') E' s' o' T').
Proof. exact relu_twice. Qed.
Print Assumptions C37_idempotent.
Theorem C37_unsigned : forall p T o E s,
  wf s -> holds (heap s) p T -> init T -> is_float (a_type T) = false -> tmin (a_type T) = 0 ->
  makes_or_nomem (aitisa_relu (HPtr p) o) E s o T.
Proof. exact relu_id_unsigned. Qed.
Print Assumptions C37_unsigned.

Example C37_ex :
  wf (fx [T_i32; T_u8]) /\ holds (heap (fx [T_i32; T_u8])) 0 T_i32 /\ init T_i32 /\
  Forall2 (relu_spec I32) (a_vals T_i32) (VI <$> [5; 0; 0; 12; 3; 0]) /\
  holds (heap (fx [T_i32; T_u8])) 5 T_u8 /\ init T_u8 /\ is_float (a_type T_u8) = false /\ tmin (a_type T_u8) = 0.
Proof.
  split_and!; [apply fx_wf|exact (fx_holds [T_i32; T_u8] 0 T_i32 eq_refl T_i32_valid)| | |
    exact (fx_holds [T_i32; T_u8] 1 T_u8 eq_refl T_u8_valid)| |done|done].
  - repeat constructor; vm_compute; discriminate.
  - repeat constructor; cbn; intros; try lia; done.
  - repeat constructor; vm_compute; discriminate.
Qed.
Example C37_run : exists r s',
  aitisa_relu (HPtr 0) HNull E0 (fx [T_i32]) = Done r s' /\
  peek E0 s' r = Some (SUCCESS, [2; 3], VI <$> [5; 0; 0; 12; 3; 0]).
Proof. apply run_ex. vm_compute. reflexivity. Qed.
Example C37_run_special : exists r s',
  aitisa_relu (HPtr 0) HNull E0 (fx [T_special]) = Done r s' /\
  peek E0 s' r = Some (SUCCESS, [4],
    VF <$> [S754_zero false; S754_zero false; S754_zero false; S754_infinity false]).
Proof. apply run_ex. vm_compute. reflexivity. Qed.

(** ** C38: sigmoid and tanh *)
Theorem C38_sigmoid : forall p T ws o E s,
  wf s -> holds (heap s) p T -> init T -> is_float (a_type T) = true ->
  Forall2 (sigmoid_spec (e_exp E) (a_type T)) (a_vals T) ws ->
  makes_or_nomem (aitisa_sigmoid (HPtr p) o) E s o (AT (a_type T) (a_dev T) (a_dims T) ws).
Proof. exact sigmoid_rule. Qed.
Print Assumptions C38_sigmoid.
Theorem C38_sigmoid_total : forall T ex, init T -> is_float (a_type T) = true ->
  exists ws, Forall2 (sigmoid_spec ex (a_type T)) (a_vals T) ws /\ Forall (val_ok (a_type T)) ws.
Proof. exact sigmoid_total. Qed.
Print Assumptions C38_sigmoid_total.
Theorem C38_tanh : forall p T ws o E s,
  wf s -> holds (heap s) p T -> init T -> is_float (a_type T) = true ->
  Forall2 (tanh_spec (e_exp E) (a_type T)) (a_vals T) ws ->
  makes_or_nomem (aitisa_tanh (HPtr p) o) E s o (AT (a_type T) (a_dev T) (a_dims T) ws).
Proof. exact tanh_rule. Qed.
Print Assumptions C38_tanh.
Theorem C38_tanh_total : forall T ex, init T -> is_float (a_type T) = true ->
  exists ws, Forall2 (tanh_spec ex (a_type T)) (a_vals T) ws /\ Forall (val_ok (a_type T)) ws.
Proof. exact tanh_total. Qed.
Print Assumptions C38_tanh_total.
(** What the two formulas amount to on real numbers: every operation rounds
    once, and the results stay within the mathematical range. *)
Theorem C38_sigmoid_value : forall t e, is_float t = true -> valid_binary 53 1024 e = true ->
  is_finite_SF e = true -> (0 <= RV e)%R ->
  let y := flt_conv t (ddiv done (dadd done e)) in
  is_finite_SF y = true /\ (0 <= RV y <= 1)%R /\
  ((Rabs (rnd F64 (1 + RV e)) < Raux.bpow Zaux.radix2 1024)%R ->
   RV y = rnd t (rnd F64 (1 / rnd F64 (1 + RV e)))).
Proof. exact sigmoid_num. Qed.
Print Assumptions C38_sigmoid_value.
Theorem C38_tanh_value : forall t a b, is_float t = true -> valid_binary 53 1024 a = true -> valid_binary 53 1024 b = true ->
  is_finite_SF a = true -> is_finite_SF b = true -> (0 <= RV a)%R -> (0 <= RV b)%R ->
  (0 < RV a + RV b)%R ->
  let y := flt_conv t (ddiv (dsub a b) (dadd a b)) in
  is_finite_SF y = true /\ (-1 <= RV y <= 1)%R /\
  ((Rabs (rnd F64 (RV a + RV b)) < Raux.bpow Zaux.radix2 1024)%R ->
   RV y = rnd t (rnd F64 (rnd F64 (RV a - RV b) / rnd F64 (RV a + RV b)))).
Proof. exact tanh_num. Qed.
Print Assumptions C38_tanh_value.
(** Other types: refused, but only after *output has been set to a new tensor. *)
Theorem C38_sigmoid_refused_types : forall p T o E s,
  wf s -> holds (heap s) p T -> is_float (a_type T) = false ->
  exists r s', aitisa_sigmoid (HPtr p) o E s = Done r s' /\ keeps s s' /\
    ((exists q, r = (NOT_SUPPORTED, HPtr q) /\ heap s !! q = None) \/
     ~ alloc_all E /\ r = (ALLOC_FAILED, o)).
Proof. exact sigmoid_refused. Qed.
Print Assumptions C38_sigmoid_refused_types.
Theorem C38_tanh_refused_types : forall p T o E s,
  wf s -> holds (heap s) p T -> is_float (a_type T) = false ->
  exists r s', aitisa_tanh (HPtr p) o E s = Done r s' /\ keeps s s' /\
    ((exists q, r = (NOT_SUPPORTED, HPtr q) /\ heap s !! q = None) \/
     ~ alloc_all E /\ r = (ALLOC_FAILED, o)).
Proof. exact tanh_refused. Qed.
Print Assumptions C38_tanh_refused_types.

Example C38_ex :
  wf (fx [T_f32; T_i32]) /\ holds (heap (fx [T_f32; T_i32])) 0 T_f32 /\ init T_f32 /\
  is_float (a_type T_f32) = true /\
  holds (heap (fx [T_f32; T_i32])) 5 T_i32 /\ is_float (a_type T_i32) = false.
Proof.
  split_and!; [apply fx_wf|exact (fx_holds [T_f32; T_i32] 0 T_f32 eq_refl T_f32_valid)| |done|
    exact (fx_holds [T_f32; T_i32] 1 T_i32 eq_refl T_i32_valid)|done].
  repeat constructor; vm_compute; discriminate.
Qed.
(** An exp that always answers 1: sigmoid is 1/2 and tanh is 0. *)
Example C38_run : exists r s',
  aitisa_sigmoid (HPtr 0) HNull (Eexp (fun _ => dbl_of_Z 1)) (fx [T_f32]) = Done r s' /\
  peek E0 s' r = Some (SUCCESS, [2; 2], replicate 4 (VF (S754_finite false 8388608 (-24)))).
Proof. apply run_ex. vm_compute. reflexivity. Qed.
Example C38_run_tanh : exists r s',
  aitisa_tanh (HPtr 0) HNull (Eexp (fun _ => dbl_of_Z 1)) (fx [T_f32]) = Done r s' /\
  peek E0 s' r = Some (SUCCESS, [2; 2], replicate 4 (VF (S754_zero false))).
Proof. apply run_ex. vm_compute. reflexivity. Qed.
Example C38_value_ex : is_float F32 = true /\ valid_binary 53 1024 (dbl_of_Z 3) = true /\
  is_finite_SF (dbl_of_Z 3) = true /\ (0 <= RV (dbl_of_Z 3))%R /\ (0 < RV (dbl_of_Z 3) + RV (dbl_of_Z 3))%R.
Proof.
  rewrite (is64_R _ _ (dbl_of_Z_ok 3 ltac:(vm_compute; discriminate))).
  split_and!; [done|done|done|apply IZR_le; done|rewrite <-plus_IZR; by apply IZR_lt].
Qed.

(** ** C39: softmax *)
Theorem C39_all : forall p T ws o E s,
  wf s -> alloc_all E -> holds (heap s) p T ->
  softmax_lane (e_exp E) (a_type T) (a_vals T) = Some ws ->
  makes (aitisa_softmax (HPtr p) (-1) o) E s (AT (a_type T) (a_dev T) (a_dims T) ws).
Proof. exact softmax_all_rule. Qed.
Print Assumptions C39_all.
Theorem C39_axis : forall p T T3 a d o E s,
  wf s -> alloc_all E -> hooks_ok E -> holds (heap s) p T ->
  Forall (fun d => 0 < d) (a_dims T) -> 2 * prodZ (a_dims T) <= INT64_MAX ->
  a_dims T !! a = Some d ->
  a_type T3 = a_type T -> a_dev T3 = a_dev T -> a_dims T3 = a_dims T -> valid T3 ->
  (forall c j, in_box (a_dims T) c -> c !! a = Some j ->
     exists ys, softmax_lane (e_exp E) (a_type T) (lane T a c) = Some ys /\
       ys !! Z.to_nat j = Some (at_ T3 c)) ->
  makes (aitisa_softmax (HPtr p) (Z.of_nat a) o) E s T3.
Proof. exact softmax_axis_rule. Qed.
Print Assumptions C39_axis.
(** For float and double such a result always exists. *)
Theorem C39_all_float : forall p T o E s,
  wf s -> alloc_all E -> holds (heap s) p T -> init T -> is_float (a_type T) = true ->
  exists ws, softmax_lane (e_exp E) (a_type T) (a_vals T) = Some ws /\
  makes (aitisa_softmax (HPtr p) (-1) o) E s (AT (a_type T) (a_dev T) (a_dims T) ws).
Proof. exact softmax_all_float. Qed.
Print Assumptions C39_all_float.
Theorem C39_axis_float : forall p T a d o E s,
  wf s -> alloc_all E -> hooks_ok E -> holds (heap s) p T -> init T -> is_float (a_type T) = true ->
  Forall (fun d => 0 < d) (a_dims T) -> 2 * prodZ (a_dims T) <= INT64_MAX ->
  a_dims T !! a = Some d ->
  exists T3,
    a_type T3 = a_type T /\ a_dev T3 = a_dev T /\ a_dims T3 = a_dims T /\
    (forall c j, in_box (a_dims T) c -> c !! a = Some j ->
     exists ys, softmax_lane (e_exp E) (a_type T) (lane T a c) = Some ys /\
       ys !! Z.to_nat j = Some (at_ T3 c)) /\
  makes (aitisa_softmax (HPtr p) (Z.of_nat a) o) E s T3.
Proof. exact softmax_axis_float. Qed.
Print Assumptions C39_axis_float.
Theorem C39_other_axes : forall p T axis o E s,
  holds (heap s) p T -> (axis < -1 \/ Z.of_nat (length (a_dims T)) <= axis) ->
  refuses (aitisa_softmax (HPtr p) axis o) E s o NOT_SUPPORTED.
Proof. exact softmax_refused. Qed.
Print Assumptions C39_other_axes.
(** Integer tensors: the exponential is stored in the element type first. *)
Theorem C39_integer_refuted : exists E s p T,
  wf s /\ alloc_all E /\ hooks_ok E /\ exp_ok (e_exp E) /\ holds (heap s) p T /\ init T /\
  a_type T = I32 /\ Forall (fun d => 0 < d) (a_dims T) /\
  aitisa_softmax (HPtr p) (-1) HNull E s = UB UB_fconv /\
  aitisa_softmax (HPtr p) 1 HNull E s = UB UB_fconv.
Proof. exact softmax_int_ub. Qed.
Print Assumptions C39_integer_refuted.

Example C39_ex :
  wf (fx [T_f32]) /\ alloc_all E0 /\ hooks_ok E0 /\ holds (heap (fx [T_f32])) 0 T_f32 /\ init T_f32 /\
  is_float (a_type T_f32) = true /\ Forall (fun d => 0 < d) (a_dims T_f32) /\
  2 * prodZ (a_dims T_f32) <= INT64_MAX /\ a_dims T_f32 !! 1%nat = Some 2.
Proof.
  split_and!; [apply fx_wf|done|done|exact (fx_holds [T_f32] 0 T_f32 eq_refl T_f32_valid)| |done| | |done].
  - repeat constructor; vm_compute; discriminate.
  - by repeat constructor.
  - vm_compute; discriminate.
Qed.
(** With exp = identity the first column of [1,-2; 3,100] becomes [1/4; 3/4]. *)
Example C39_run : exists r s',
  aitisa_softmax (HPtr 0) 0 HNull E0 (fx [T_f32]) = Done r s' /\
  exists a b, peek E0 s' r = Some (SUCCESS, [2; 2],
    [VF (S754_finite false 8388608 (-25)); a; VF (S754_finite false 12582912 (-24)); b]).
Proof. apply run_ex. vm_compute. eauto. Qed.
Example C39_run_refused :
  aitisa_softmax (HPtr 0) 2 HUndef E0 (fx [T_f32]) = Done (NOT_SUPPORTED, HUndef) (fx [T_f32]).
Proof.
  eapply C39_other_axes; [exact (fx_holds [T_f32] 0 T_f32 eq_refl T_f32_valid)|]. right. vm_compute. discriminate.
Qed.

(** ** C40: dropout *)
Theorem C40_dropout : forall p T T' rate o E s,
  wf s -> alloc_all E -> hooks_ok E -> rand_ok E -> holds (heap s) p T -> a_dims T <> [] ->
  Forall (fun d => 0 < d <= INT_MAX) (a_dims T) -> prodZ (a_dims T) <= INT_MAX -> rate_ok rate ->
  a_type T' = a_type T -> a_dev T' = a_dev T -> a_dims T' = a_dims T ->
  length (a_vals T') = length (a_vals T) ->
  (forall i v w, a_vals T !! i = Some v -> a_vals T' !! i = Some w ->
     (draw E s i <= drop_line rate -> w = zero_val (a_type T)) /\
     (drop_line rate < draw E s i -> w = v)) ->
  makes_k (aitisa_dropout (HPtr p) rate o) E s T' (length (a_vals T)).
Proof. exact dropout_spec. Qed.
Print Assumptions C40_dropout.
Theorem C40_rate_zero : forall p T rate o E s,
  wf s -> alloc_all E -> hooks_ok E -> rand_ok E -> holds (heap s) p T -> a_dims T <> [] ->
  Forall (fun d => 0 < d <= INT_MAX) (a_dims T) -> prodZ (a_dims T) <= INT_MAX -> rate_ok rate ->
  RV rate = 0%R ->
  makes_k (aitisa_dropout (HPtr p) rate o) E s T (length (a_vals T)).
Proof. exact dropout_zero_rate. Qed.
Print Assumptions C40_rate_zero.
Theorem C40_rate_one : forall p T rate o E s,
  wf s -> alloc_all E -> hooks_ok E -> rand_ok E -> holds (heap s) p T -> a_dims T <> [] ->
  Forall (fun d => 0 < d <= INT_MAX) (a_dims T) -> prodZ (a_dims T) <= INT_MAX -> rate_ok rate ->
  RV rate = 1%R ->
  makes_k (aitisa_dropout (HPtr p) rate o) E s
    (AT (a_type T) (a_dev T) (a_dims T) (replicate (length (a_vals T)) (zero_val (a_type T))))
    (length (a_vals T)).
Proof. exact dropout_full_rate. Qed.
Print Assumptions C40_rate_one.
Theorem C40_rate_rejected : forall p rate o E s,
  rate_bad rate -> refuses (aitisa_dropout (HPtr p) rate o) E s o INVALID_ARGUMENT.
Proof. exact dropout_rejected. Qed.
Print Assumptions C40_rate_rejected.
(** A NaN rate is not rejected: it is undefined behaviour on every tensor. *)
Theorem C40_nan_refuted : forall p T o E s,
  wf s -> alloc_all E -> hooks_ok E -> holds (heap s) p T -> a_dims T <> [] ->
  Forall (fun d => 0 < d <= INT_MAX) (a_dims T) -> prodZ (a_dims T) <= INT_MAX ->
  aitisa_dropout (HPtr p) S754_nan o E s = UB UB_fconv.
Proof. exact dropout_nan. Qed.
Print Assumptions C40_nan_refuted.
(** A tensor without elements is refused. *)
Theorem C40_empty_refuted : forall p T rate o E s,
  wf s -> alloc_all E -> hooks_ok E -> holds (heap s) p T ->
  Forall (fun d => d <= INT_MAX) (a_dims T) -> 0 ∈ a_dims T -> rate_ok rate ->
  exists s', aitisa_dropout (HPtr p) rate o E s = Done (INVALID_ARGUMENT, o) s' /\ heap s' = heap s.
Proof. exact dropout_empty. Qed.
Print Assumptions C40_empty_refuted.

(** rate = 1/2: the draws are 37k mod 100 + 1 = 1, 38, 75, 12, 49, 86. *)
Example C40_run : exists r s',
  aitisa_dropout (HPtr 0) half HNull E0 (fx [T_i32]) = Done r s' /\
  peek E0 s' r = Some (SUCCESS, [2; 3], VI <$> [0; 0; 0; 0; 0; -1]).
Proof. apply run_ex. vm_compute. reflexivity. Qed.
Example C40_ex :
  wf (fx [T_i32]) /\ alloc_all E0 /\ hooks_ok E0 /\ rand_ok E0 /\ holds (heap (fx [T_i32])) 0 T_i32 /\
  a_dims T_i32 <> [] /\ Forall (fun d => 0 < d <= INT_MAX) (a_dims T_i32) /\
  prodZ (a_dims T_i32) <= INT_MAX /\ rate_ok half /\ drop_line half = 50.
Proof.
  split_and!; [apply fx_wf|done|done|intros k; cbn; lia|exact (fx_holds [T_i32] 0 T_i32 eq_refl T_i32_valid)|done| |
    vm_compute; discriminate| |].
  - repeat constructor; vm_compute; discriminate.
  - apply half_ok.
  - apply half_line.
Qed.
