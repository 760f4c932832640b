(** * PropAuto3: property C70, convolution samples *)
From stdpp Require Import gmap list.
From Coq Require Import ZArith Lia Reals Lra Floats.SpecFloat.
From Flocq Require Import IEEE754.BinarySingleNaN.
From Verif Require Import Base Mem Spec SpecReal SpecNN SpecError ModelCore ModelNN ModelSample ModelAuto ModelAuto3 SpecAuto.
From Verif Require Import ProofAuto5 ProofAuto6 Fixture RefuteConv.
Open Scope Z_scope.

(** ** C70: convolution samples *)
(** There is one correlation [T3] such that the verdict on any user is true exactly when
    the user's result agrees with [T3] and is on CUDA, and the verdict on the library
    itself exactly when the sample is on CUDA and [T3] is finite. *)
Theorem C70_sample : forall E s x1 x2 T F nb nc oc fc h w kh kw g ss ps ls,
  wf s -> alloc_all E -> hooks_ok E -> supplied (heap s) x1 T -> supplied (heap s) x2 F ->
  a_type T = F32 -> a_type F = F32 -> a_dims T = [nb; nc; h; w] -> a_dims F = [oc; fc; kh; kw] -> nc <= fc -> 0 < nc ->
  win_ok [h; w] [kh; kw] ss ps ls -> fits (tsz F32) (nb :: oc :: win_outs [h; w] [kh; kw] ss ps ls) -> init T -> init F ->
  exists T3, a_type T3 = F32 /\ a_dims T3 = nb :: oc :: win_outs [h; w] [kh; kw] ss ps ls /\ valid T3 /\
    (forall b c x, in_box (a_dims T3) (b :: c :: x) ->
       mac_all F32 (zero_val F32) (conv_terms T F ss ps ls nc b c x) = Some (at_ T3 (b :: c :: x))) /\
    (forall X (U : user X) V, valid V ->
       (forall s1, keeps s s1 -> exists r s2, user_run U x1 x2 E s1 = Done r s2 /\ shows (heap s2) r V /\ keeps s1 s2) ->
       exists b s', conv_case U x1 x2 ss ps ls g E s = Done b s' /\ (b = true <-> agree 1 (ModelAuto.same_float F32) T3 V)) /\
    (forall d, d = Dev 0 0 \/ d = Dev 1 0 -> x_device x1 = dev_type d -> x_device x2 = dev_type d ->
       exists b s', conv_case (itself (conv_op ss ps ls g)) x1 x2 ss ps ls g E s = Done b s' /\
         (b = true <-> dev_type d = 1 /\ Forall finite_val (a_vals T3))).
Proof. exact conv_samples. Qed.
Print Assumptions C70_sample.

(** The library's own convolution fails its test on every CPU sample. *)
Theorem C70_cpu_refuted : forall E s x1 x2 T F nb nc oc fc h w kh kw g ss ps ls,
  wf s -> alloc_all E -> hooks_ok E -> supplied (heap s) x1 T -> supplied (heap s) x2 F ->
  a_type T = F32 -> a_type F = F32 -> a_dims T = [nb; nc; h; w] -> a_dims F = [oc; fc; kh; kw] -> nc <= fc -> 0 < nc ->
  win_ok [h; w] [kh; kw] ss ps ls -> fits (tsz F32) (nb :: oc :: win_outs [h; w] [kh; kw] ss ps ls) -> init T -> init F ->
  x_device x1 = 0 -> x_device x2 = 0 ->
  exists s', conv_case (itself (conv_op ss ps ls g)) x1 x2 ss ps ls g E s = Done false s'.
Proof. exact conv_cpu. Qed.
Print Assumptions C70_cpu_refuted.

(** The tolerance is absolute: from 2^15 on the user's element must be the very same
    number, so no other order of summation is accepted. *)
Theorem C70_large_exact : forall x y, valid_binary 24 128 x = true -> valid_binary 24 128 y = true ->
  (32768 <= Rabs (RV x))%R -> ModelAuto.same_float F32 (VF x) (VF y) = true -> RV x = RV y.
Proof. exact same_float_large. Qed.
Print Assumptions C70_large_exact.

Definition x_cv (d : Z) : operand := Opd [1; 1; 2; 2] 8 d (HPtr 4) 16.
Definition x_k22 (d : Z) : operand := Opd [1; 1; 2; 2] 8 d (HPtr 9) 16.
Example C70_ex :
  wf (fx [T_cv; T_k22]) /\ alloc_all E0 /\ hooks_ok E0 /\
  supplied (heap (fx [T_cv; T_k22])) (x_cv 1) T_cv /\ supplied (heap (fx [T_cv; T_k22])) (x_k22 1) T_k22 /\
  win_ok [2; 2] [2; 2] [1; 1] [1; 0] [1; 1] /\ fits (tsz F32) (1 :: 1 :: win_outs [2; 2] [2; 2] [1; 1] [1; 0] [1; 1]) /\
  init T_cv /\ init T_k22.
Proof.
  split_and!; [apply fx_wf|done|done| | | |change (fits (tsz F32) [1; 1; 3; 1]); lit_fits|lit_init|lit_init].
  - split_and!; try reflexivity; [exact T_cv_valid|]. exists 4%nat, 0%nat, []. split; reflexivity.
  - split_and!; try reflexivity; [exact T_k22_valid|]. exists 9%nat, 0%nat, []. split; reflexivity.
  - cbn. unfold win_ok1, INT_MAX. lia.
Qed.
(** The library as its own user passes on CUDA and fails on the CPU. *)
Definition verdict (d : Z) : option bool :=
  match conv_case (itself (conv_op [1; 1] [1; 0] [1; 1] 1)) (x_cv d) (x_k22 d) [1; 1] [1; 0] [1; 1] 1 E0 (fx [T_cv; T_k22]) with
  | Done b _ => Some b | _ => None end.
Example C70_runs : verdict 1 = Some true /\ verdict 0 = Some false.
Proof. split; vm_compute; reflexivity. Qed.
(** A wrong user: it swaps the operands, which changes the result. *)
Example C70_wrong_user :
  match conv_case (itself (fun a b => conv_op [1; 1] [1; 0] [1; 1] 1 b a)) (x_cv 1) (x_k22 1) [1; 1] [1; 0] [1; 1] 1 E0 (fx [T_cv; T_k22]) with
  | Done b _ => b | _ => true end = false.
Proof. vm_compute. reflexivity. Qed.
(** 2^15 and its successor differ by a relative 2^-23 and are told apart; one unit lower
    in magnitude (2^13) they are not. *)
Example C70_large_ex :
  valid_binary 24 128 (S754_finite false 8388608 (-8)) = true /\
  valid_binary 24 128 (S754_finite false 8388609 (-8)) = true /\
  RV (S754_finite false 8388608 (-8)) = 32768%R /\
  ModelAuto.same_float F32 (VF (S754_finite false 8388608 (-8))) (VF (S754_finite false 8388609 (-8))) = false /\
  ModelAuto.same_float F32 (VF (S754_finite false 8388608 (-10))) (VF (S754_finite false 8388609 (-10))) = true.
Proof.
  split_and!; try (vm_compute; reflexivity).
  unfold RV. cbn [SF2R]. unfold Defs.F2R. cbn [Defs.Fnum Defs.Fexp cond_Zopp Raux.bpow]. change (Z.pow_pos (Zaux.radix_val Zaux.radix2) 8) with 256. lra.
Qed.
