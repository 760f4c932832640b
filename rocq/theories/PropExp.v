(** * PropExp: sigmoid, tanh and softmax against the mathematical functions (C57-C59) *)
From stdpp Require Import gmap list.
From Coq Require Import ZArith Lia Reals Lra Floats.SpecFloat.
From Flocq Require Core.
From Flocq Require Import IEEE754.BinarySingleNaN.
From Verif Require Import Base Mem Spec SpecReal SpecNN SpecError SpecSoft SpecExp ModelCore ModelNN Logic
  ProofCore ProofFloat2 ProofError ProofExp ProofExp2 ProofExp4 Fixture RefuteConv PropSoft.
Open Scope Z_scope.

(** ** C57: sigmoid approximates the logistic function for every argument *)
Theorem C57_sigmoid : forall p T o E s eps,
  wf s -> holds (heap s) p T -> init T -> is_float (a_type T) = true ->
  exp_close (e_exp E) eps -> (0 <= eps <= / 16)%R ->
  exists ws, Forall2 (sigmoid_close (a_type T) eps) (a_vals T) ws /\
    makes_or_nomem (aitisa_sigmoid (HPtr p) o) E s o (AT (a_type T) (a_dev T) (a_dims T) ws).
Proof. exact sigmoid_real. Qed.
Print Assumptions C57_sigmoid.
Theorem C57_bound : forall t eps, (0 <= eps <= / 16)%R ->
  (sig_rel t eps <= 2 * (eps + uround t + 2 * uround F64 + Raux.bpow Zaux.radix2 (-1074)))%R.
Proof. exact sig_rel_simple. Qed.
Print Assumptions C57_bound.
(** The assumption on exp is met by the correctly rounded one. *)
Theorem C57_exp_exists : exp_close exp_rounded (uround F64).
Proof. exact exp_rounded_close. Qed.
Print Assumptions C57_exp_exists.

(** ** C58: tanh approximates the hyperbolic tangent up to 709 and is NaN from 710 on;
    between the two it is one or the other, as exp of the element is finite or not *)
Theorem C58_tanh : forall p T o E s eps,
  wf s -> holds (heap s) p T -> init T -> is_float (a_type T) = true ->
  exp_close (e_exp E) eps -> (0 <= eps <= / 16)%R ->
  exists ws, Forall2 (tanh_close (a_type T) eps) (a_vals T) ws /\
    makes_or_nomem (aitisa_tanh (HPtr p) o) E s o (AT (a_type T) (a_dev T) (a_dims T) ws).
Proof. exact tanh_real_ok. Qed.
Print Assumptions C58_tanh.
Theorem C58_bound : forall t eps, (0 <= eps <= / 16)%R ->
  (tanh_abs t eps <= 2 * (eps + uround t + 3 * uround F64 + Raux.bpow Zaux.radix2 (-1074)) + tiny t + 2 * tiny F64)%R.
Proof. exact tanh_abs_simple. Qed.
Print Assumptions C58_bound.
Theorem C58_odd : forall t ex eps x y z, is_float t = true -> exp_close ex eps -> (0 <= eps <= / 16)%R ->
  tanh_spec ex t (VF x) (VF y) -> tanh_spec ex t (VF (SFopp x)) (VF z) ->
  y = S754_nan /\ z = S754_nan \/
  is_finite_SF y = true /\ is_finite_SF z = true /\ RV z = (- RV y)%R.
Proof. exact tanh_odd. Qed.
Print Assumptions C58_odd.
(** No relative accuracy: even with the best exp, elements next to 0 are sent to 0. *)
Theorem C58_relative_refuted : forall p T o E s,
  wf s -> holds (heap s) p T -> init T -> is_float (a_type T) = true -> e_exp E = exp_rounded ->
  Forall (fun v => finite_val v /\ (0 < Rabs (val_real v) <= Raux.bpow Zaux.radix2 (-55))%R) (a_vals T) ->
  exists ws, Forall2 (fun v w => finite_val w /\ val_real w = 0%R /\ tanh_real (val_real v) <> 0%R) (a_vals T) ws /\
    makes_or_nomem (aitisa_tanh (HPtr p) o) E s o (AT (a_type T) (a_dev T) (a_dims T) ws).
Proof. exact tanh_tiny. Qed.
Print Assumptions C58_relative_refuted.

(** ** C59: softmax approximates exp x / sum of exp, away from overflow and underflow *)
Theorem C59_all_partial : forall p T o E s eps,
  wf s -> alloc_all E -> holds (heap s) p T -> init T -> is_float (a_type T) = true ->
  exp_close (e_exp E) eps -> (0 <= eps <= / 16)%R ->
  Forall (soft_range (a_type T)) (a_vals T) -> Z.of_nat (length (a_vals T)) <= 2 ^ 51 ->
  exists ws, softmax_close (a_type T) eps (a_vals T) ws /\
    makes (aitisa_softmax (HPtr p) (-1) o) E s (AT (a_type T) (a_dev T) (a_dims T) ws).
Proof. exact softmax_real_all. Qed.
Print Assumptions C59_all_partial.
Theorem C59_axis_partial : forall p T a d o E s eps,
  wf s -> alloc_all E -> hooks_ok E -> holds (heap s) p T -> init T -> is_float (a_type T) = true ->
  Forall (fun d => 0 < d) (a_dims T) -> 2 * prodZ (a_dims T) <= INT64_MAX ->
  a_dims T !! a = Some d -> d <= 2 ^ 51 ->
  exp_close (e_exp E) eps -> (0 <= eps <= / 16)%R -> Forall (soft_range (a_type T)) (a_vals T) ->
  exists T3, a_type T3 = a_type T /\ a_dev T3 = a_dev T /\ a_dims T3 = a_dims T /\
    (forall c j, in_box (a_dims T) c -> c !! a = Some j ->
     exists ws, softmax_close (a_type T) eps (lane T a c) ws /\ ws !! Z.to_nat j = Some (at_ T3 c)) /\
    makes (aitisa_softmax (HPtr p) (Z.of_nat a) o) E s T3.
Proof. exact softmax_real_axis. Qed.
Print Assumptions C59_axis_partial.
(** One element of 89 (float) or 710 (double) is enough for a NaN, and so are elements
    all below -105 (float), whatever exp is used. *)
Theorem C59_overflow_refuted : forall p T o E s eps j v,
  wf s -> alloc_all E -> holds (heap s) p T -> init T -> is_float (a_type T) = true ->
  exp_close (e_exp E) eps -> (0 <= eps <= / 16)%R ->
  a_vals T !! j = Some v -> finite_val v -> (soft_inf (a_type T) <= val_real v)%R ->
  exists ws, makes (aitisa_softmax (HPtr p) (-1) o) E s (AT (a_type T) (a_dev T) (a_dims T) ws) /\
    ws !! j = Some (VF S754_nan).
Proof. exact soft_nan_all. Qed.
Print Assumptions C59_overflow_refuted.
Theorem C59_underflow_refuted : forall p T o E s eps,
  wf s -> alloc_all E -> holds (heap s) p T -> init T -> a_type T = F32 ->
  exp_close (e_exp E) eps -> (0 <= eps <= / 16)%R ->
  Forall (fun v => finite_val v /\ (val_real v <= -105)%R) (a_vals T) ->
  makes (aitisa_softmax (HPtr p) (-1) o) E s
    (AT F32 (a_dev T) (a_dims T) ((fun _ => VF S754_nan) <$> a_vals T)).
Proof. exact soft_nan_low. Qed.
Print Assumptions C59_underflow_refuted.

(** ** Instances *)
Definition E_exp : env := Env (e_alloc_ok E0) (e_alloc E0) (e_dealloc E0) (e_rand E0) exp_rounded (e_garbage E0) (e_fuel E0).
Example exp_ex : exp_close (e_exp E_exp) (uround F64) /\ (0 <= uround F64 <= / 16)%R.
Proof.
  split; [exact exp_rounded_close|]. split; [apply Rlt_le, uround_pos|].
  eapply Rle_trans; [apply u64_small|]. lra.
Qed.
(** 1 2 3 100 of PropSoft: sigmoid, tanh, and the NaN of softmax *)
Example C57_ex : wf (fx [T_s]) /\ holds (heap (fx [T_s])) 0 T_s /\ init T_s /\ is_float (a_type T_s) = true.
Proof. split_and!; [apply fx_wf|exact (fx_holds [T_s] 0 T_s eq_refl T_s_valid)|lit_init|done]. Qed.
Definition T_x : atensor := AT F32 cpu [2; 2] ((fun z => VF (flt_of_Z F32 z)) <$> [-1; 2; -3; 80]).
Lemma T_x_valid : valid T_x. Proof. lit_valid. Qed.
Lemma int_val z : Z.abs z <= 2 ^ 24 -> finite_val (VF (flt_of_Z F32 z)) /\ val_real (VF (flt_of_Z F32 z)) = IZR z.
Proof. intros H. destruct (flt_of_Z_exact F32 z H) as [F R]. split; [by eexists|exact R]. Qed.
Example C59_ex : wf (fx [T_x]) /\ alloc_all E_exp /\ hooks_ok E_exp /\ holds (heap (fx [T_x])) 0 T_x /\ init T_x /\
  Forall (fun d => 0 < d) (a_dims T_x) /\ a_dims T_x !! 0%nat = Some 2 /\ Forall (soft_range F32) (a_vals T_x).
Proof.
  split_and!; [apply fx_wf|done|done|exact (fx_holds [T_x] 0 T_x eq_refl T_x_valid)|lit_init|by repeat constructor|done|].
  unfold T_x. cbn [a_vals]. apply Forall_fmap, Forall_forall. intros z Hz.
  assert (-80 <= z <= 80) as Hr by (rewrite !elem_of_cons, elem_of_nil in Hz; lia).
  unfold compose. destruct (int_val z ltac:(lia)) as [F R]. split; [exact F|]. rewrite R. cbn [soft_max soft_min].
  assert (IZR (-80) <= IZR z <= IZR 80)%R by (split; apply IZR_le; lia). lra.
Qed.
Example C59_overflow_ex : exists v, a_vals T_s !! 3%nat = Some v /\ finite_val v /\ (soft_inf F32 <= val_real v)%R.
Proof.
  exists (VF (flt_of_Z F32 100)). split; [done|]. destruct (int_val 100 ltac:(lia)) as [F R]. split; [exact F|].
  rewrite R. cbn [soft_inf]. lra.
Qed.
Definition T_low : atensor := AT F32 cpu [2] ((fun z => VF (flt_of_Z F32 z)) <$> [-105; -2000]).
Lemma T_low_valid : valid T_low. Proof. lit_valid. Qed.
Example C59_underflow_ex : holds (heap (fx [T_low])) 0 T_low /\ init T_low /\
  Forall (fun v => finite_val v /\ (val_real v <= -105)%R) (a_vals T_low).
Proof.
  split_and!; [exact (fx_holds [T_low] 0 T_low eq_refl T_low_valid)|lit_init|].
  unfold T_low. cbn [a_vals]. apply Forall_fmap, Forall_forall. intros z Hz.
  assert (-2000 <= z <= -105) as Hr by (rewrite !elem_of_cons, elem_of_nil in Hz; lia).
  unfold compose. destruct (int_val z ltac:(lia)) as [F R]. split; [exact F|]. rewrite R. apply IZR_le. lia.
Qed.
(** 2^-54 / 2 *)
Definition T_tiny : atensor := AT F64 cpu [1] [VF m55].
Lemma T_tiny_valid : valid T_tiny. Proof. lit_valid. Qed.
Example C58_relative_ex : holds (heap (fx [T_tiny])) 0 T_tiny /\ init T_tiny /\
  Forall (fun v => finite_val v /\ (0 < Rabs (val_real v) <= Raux.bpow Zaux.radix2 (-55))%R) (a_vals T_tiny).
Proof.
  split_and!; [exact (fx_holds [T_tiny] 0 T_tiny eq_refl T_tiny_valid)|lit_init|].
  apply Forall_singleton. split; [by eexists|]. cbn [val_real]. rewrite m55_R, Rabs_Ropp.
  rewrite Rabs_pos_eq by apply Raux.bpow_ge_0. split; [apply Raux.bpow_gt_0|lra].
Qed.
(** tanh of 710 is NaN. *)
Example C58_nan_ex : is_finite_SF (flt_of_Z F64 710) = true /\ (710 <= Rabs (RV (flt_of_Z F64 710)))%R.
Proof.
  destruct (flt_of_Z_exact F64 710 ltac:(cbn; lia)) as [F R]. split; [exact F|]. rewrite R, Rabs_pos_eq; lra.
Qed.
