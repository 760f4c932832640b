(** * PropAuto2: property C66, activation samples *)
From stdpp Require Import gmap list.
From Coq Require Import ZArith Lia Reals Lra Floats.SpecFloat.
From Flocq Require Core.
From Flocq Require Import IEEE754.BinarySingleNaN.
From Verif Require Import Base Mem Spec SpecReal SpecNN SpecError SpecExp ModelCore ModelNN ModelAuto ModelAuto2.
From Verif Require Import SpecAuto SpecAuto2 ProofAuto4 Fixture PropExp RefuteConv.
Open Scope Z_scope.

(** ** C66: activation samples *)
(** The verdict on an arbitrary user: the result is on device 1 and agrees with the
    library's. *)
Theorem C66_sample : forall {X} (U : user1 X) E s op x same T V W, wf s -> alloc_all E ->
  supplied (heap s) x T -> computes1 E op (on (Dev 0 0) T) V -> valid V -> valid W ->
  (forall s1, keeps s s1 -> exists r s2, user_run1 U x E s1 = Done r s2 /\ shows (heap s2) r W /\ keeps s1 s2) ->
  exists b s', auto_case1 op U x (a_type V) same E s = Done b s' /\ (b = true <-> agree 1 same V W).
Proof. exact @sample_verdict1. Qed.
Print Assumptions C66_sample.

(** The comparison of elements: at most four units in the last place, NaN never equal;
    doubles are rounded to float first. *)
Theorem C66_float : forall x y, valid_binary 24 128 x = true -> valid_binary 24 128 y = true ->
  float_eq F32 (VF x) (VF y) = true <-> x <> S754_nan /\ y <> S754_nan /\ adjacent x y.
Proof. exact float_eq_float. Qed.
Print Assumptions C66_float.
Theorem C66_double : forall x y,
  float_eq F64 (VF x) (VF y) = true <-> x <> S754_nan /\ y <> S754_nan /\ adjacent (flt_conv F32 x) (flt_conv F32 y).
Proof. exact float_eq_double. Qed.
Print Assumptions C66_double.
(** All doubles above the float range are equal. *)
Theorem C66_double_refuted : forall x y, is_finite_SF x = true -> is_finite_SF y = true ->
  (Raux.bpow Zaux.radix2 128 <= RV x)%R -> (Raux.bpow Zaux.radix2 128 <= RV y)%R ->
  float_eq F64 (VF x) (VF y) = true.
Proof. exact float_eq_huge. Qed.
Print Assumptions C66_double_refuted.

(** The library as its own user: passes on CUDA samples whose results are not NaN, and
    never on the CPU. *)
Theorem C66_itself : forall E s op x d T V, wf s -> alloc_all E -> d = Dev 0 0 \/ d = Dev 1 0 -> x_device x = dev_type d ->
  supplied (heap s) x T -> (forall d, computes1 E op (on d T) (on d V)) -> valid V -> init V -> is_float (a_type V) = true ->
  exists b s', auto_case1 op (itself1 op) x (a_type V) (float_eq (a_type V)) E s = Done b s' /\
    (b = true <-> dev_type d = 1 /\ Forall (fun v => v <> VF S754_nan) (a_vals V)).
Proof. exact self_verdict1. Qed.
Print Assumptions C66_itself.
Theorem C66_relu_itself : forall E s x T, wf s -> alloc_all E -> x_device x = 1 -> supplied (heap s) x T ->
  init T -> is_float (a_type T) = true ->
  exists s', auto_case1 aitisa_relu (itself1 aitisa_relu) x (a_type T) (float_eq (a_type T)) E s = Done true s'.
Proof. exact relu_self. Qed.
Print Assumptions C66_relu_itself.
Theorem C66_tanh_itself_refuted : forall E s x T eps i v, wf s -> alloc_all E -> x_device x = 1 -> supplied (heap s) x T ->
  init T -> is_float (a_type T) = true -> exp_close (e_exp E) eps -> (0 <= eps <= / 16)%R ->
  a_vals T !! i = Some v -> finite_val v -> (710 <= Rabs (val_real v))%R ->
  exists s', auto_case1 aitisa_tanh (itself1 aitisa_tanh) x (a_type T) (float_eq (a_type T)) E s = Done false s'.
Proof. exact tanh_self. Qed.
Print Assumptions C66_tanh_itself_refuted.

Definition T_a : atensor := AT F32 cpu [2; 2] ((fun z => VF (flt_of_Z F32 z)) <$> [-1; 2; -3; 800]).
Lemma T_a_valid : valid T_a. Proof. lit_valid. Qed.
Definition x_a : operand := Opd [2; 2] 8 1 (HPtr 4) 16.
Example C66_ex : wf (fx [T_a]) /\ alloc_all E_exp /\ x_device x_a = 1 /\ supplied (heap (fx [T_a])) x_a T_a /\
  init T_a /\ is_float (a_type T_a) = true /\
  (exists v, a_vals T_a !! 3%nat = Some v /\ finite_val v /\ (710 <= Rabs (val_real v))%R).
Proof.
  split_and!; [apply fx_wf|done|done| |lit_init|done|].
  - split_and!; try reflexivity; [exact T_a_valid|]. exists 4%nat, 0%nat, []. split; reflexivity.
  - eexists. split; [reflexivity|]. destruct (int_val 800 ltac:(lia)) as [F R]. split; [exact F|].
    rewrite R, Rabs_pos_eq; lra.
Qed.
(** ReLU passes as its own user on CUDA, not on the CPU. *)
Example C66_runs :
  (match auto_case1 aitisa_relu (itself1 aitisa_relu) x_a F32 (float_eq F32) E0 (fx [T_a]) with Done b _ => b | _ => false end = true) /\
  (match auto_case1 aitisa_relu (itself1 aitisa_relu) (Opd [2; 2] 8 0 (HPtr 4) 16) F32 (float_eq F32) E0 (fx [T_a]) with Done b _ => b | _ => true end = false).
Proof. split; vm_compute; reflexivity. Qed.
Example C66_float_ex : let f m := VF (S754_finite false m (-23)) in
  float_eq F32 (f 8388608%positive) (f 8388612%positive) = true /\
  float_eq F32 (f 8388608%positive) (f 8388613%positive) = false /\
  float_eq F32 (VF (S754_finite true 2 (-149))) (VF (S754_finite false 2 (-149))) = true /\
  float_eq F32 (VF (S754_finite true 2 (-149))) (VF (S754_finite false 3 (-149))) = false /\
  float_eq F32 (VF (S754_zero true)) (VF (S754_zero false)) = true /\
  float_eq F32 (VF S754_nan) (VF S754_nan) = false /\
  float_eq F32 (VF (S754_infinity false)) (VF (S754_finite false 16777215 104)) = true.
Proof. vm_compute. split_and!; reflexivity. Qed.
Example C66_double_ex : is_finite_SF (S754_finite false 4503599627370496 100) = true /\
  is_finite_SF (S754_finite false 4503599627370496 900) = true /\
  (Raux.bpow Zaux.radix2 128 <= RV (S754_finite false 4503599627370496 100))%R /\
  (Raux.bpow Zaux.radix2 128 <= RV (S754_finite false 4503599627370496 900))%R.
Proof.
  split_and!; try done; unfold RV; cbn [SF2R]; unfold Defs.F2R; cbn [Defs.Fnum Defs.Fexp cond_Zopp];
    change 4503599627370496%R with (Raux.bpow Zaux.radix2 52); rewrite <-Raux.bpow_plus; apply Raux.bpow_le; lia.
Qed.
