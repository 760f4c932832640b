(** * PropSoft: softmax as a probability distribution (C56) *)
From stdpp Require Import gmap list.
From Coq Require Import ZArith Lia Reals Lra Floats.SpecFloat.
From Flocq Require Core.
From Flocq Require Import IEEE754.BinarySingleNaN.
From Verif Require Import Base Mem Spec SpecReal SpecNN SpecError SpecSoft ModelCore ModelNN Logic
  ProofCore ProofFloat2 ProofSoft2 Fixture RefuteConv.
Open Scope Z_scope.

(** ** C56: every lane is the distribution of its exponentials - if they allow it *)
Theorem C56_axis_partial : forall p T a d o E s,
  wf s -> alloc_all E -> hooks_ok E -> holds (heap s) p T -> init T -> is_float (a_type T) = true ->
  Forall (fun d => 0 < d) (a_dims T) -> 2 * prodZ (a_dims T) <= INT64_MAX ->
  a_dims T !! a = Some d ->
  exists T3, a_type T3 = a_type T /\ a_dev T3 = a_dev T /\ a_dims T3 = a_dims T /\
    (forall c j, in_box (a_dims T) c -> c !! a = Some j ->
     exists es ws, soft_lane (e_exp E) (a_type T) (lane T a c) es ws /\ ws !! Z.to_nat j = Some (at_ T3 c)) /\
    makes (aitisa_softmax (HPtr p) (Z.of_nat a) o) E s T3.
Proof. exact soft_axis. Qed.
Print Assumptions C56_axis_partial.
Theorem C56_all_partial : forall p T o E s,
  wf s -> alloc_all E -> holds (heap s) p T -> init T -> is_float (a_type T) = true ->
  exists es ws, soft_lane (e_exp E) (a_type T) (a_vals T) es ws /\
  makes (aitisa_softmax (HPtr p) (-1) o) E s (AT (a_type T) (a_dev T) (a_dims T) ws).
Proof. exact soft_all. Qed.
Print Assumptions C56_all_partial.
Theorem C56_bound : forall t n, Z.of_nat n <= 2 ^ 51 ->
  (soft_rel t n <= 2 * (uround t + uround F64) + 4 * INR n * uround F64)%R.
Proof. exact soft_rel_simple. Qed.
Print Assumptions C56_bound.
(** Nothing is subtracted from the elements before taking exponentials: wherever the
    exponential overflows the result is NaN, in every such call. *)
Theorem C56_overflow_refuted : forall p T o E s j v d,
  wf s -> alloc_all E -> holds (heap s) p T -> init T -> is_float (a_type T) = true ->
  a_vals T !! j = Some v -> to_double (a_type T) v = Some d ->
  of_double (a_type T) (e_exp E d) = Some (VF (S754_infinity false)) ->
  exists ws, makes (aitisa_softmax (HPtr p) (-1) o) E s (AT (a_type T) (a_dev T) (a_dims T) ws) /\
    ws !! j = Some (VF S754_nan).
Proof. exact soft_overflow_all. Qed.
Print Assumptions C56_overflow_refuted.
Theorem C56_underflow_refuted : forall p T o E s,
  wf s -> alloc_all E -> holds (heap s) p T -> init T -> is_float (a_type T) = true ->
  Forall (fun v => exists d b, to_double (a_type T) v = Some d /\
    of_double (a_type T) (e_exp E d) = Some (VF (S754_zero b))) (a_vals T) ->
  makes (aitisa_softmax (HPtr p) (-1) o) E s
    (AT (a_type T) (a_dev T) (a_dims T) ((fun _ => VF S754_nan) <$> a_vals T)).
Proof. exact soft_underflow_all. Qed.
Print Assumptions C56_underflow_refuted.

(** exp = identity *)
Definition T_s : atensor := AT F32 cpu [2; 2] ((fun z => VF (flt_of_Z F32 z)) <$> [1; 2; 3; 100]).
Lemma T_s_valid : valid T_s. Proof. lit_valid. Qed.
Definition es_s : list val := (fun z => VF (flt_of_Z F32 z)) <$> [2; 100].
Lemma es_s_sum : sum_real es_s = 102%R.
Proof.
  unfold sum_real, es_s. cbn [fmap list_fmap foldr val_real].
  rewrite !(fun z H => proj2 (flt_of_Z_exact F32 z H)) by (cbn; lia). lra.
Qed.
Example C56_ex :
  wf (fx [T_s]) /\ alloc_all E0 /\ hooks_ok E0 /\ holds (heap (fx [T_s])) 0 T_s /\ init T_s /\
  Forall (fun d => 0 < d) (a_dims T_s) /\ a_dims T_s !! 0%nat = Some 2 /\
  exp_lane (e_exp E0) F32 (lane T_s 0 [0; 1]) = Some es_s /\ exps_ok es_s.
Proof.
  split_and!; [apply fx_wf|done|done|exact (fx_holds [T_s] 0 T_s eq_refl T_s_valid)|lit_init|by repeat constructor|done|
    vm_compute; reflexivity|].
  unfold exps_ok. split_and!; [|..|vm_compute; discriminate].
  - unfold es_s. cbn [fmap list_fmap]. rewrite !Forall_cons. split_and!; [..|by apply Forall_nil].
    all: try (eexists; split; reflexivity).
    all: vm_compute flt_of_Z; cbn -[Raux.bpow]; unfold Defs.F2R; cbn [Defs.Fnum Defs.Fexp];
      apply Rmult_le_pos; [lra|apply Raux.bpow_ge_0].
  - rewrite es_s_sum. lra.
  - rewrite es_s_sum. apply Rlt_trans with (Raux.bpow Zaux.radix2 8); [change (Raux.bpow Zaux.radix2 8) with (IZR 256); lra|by apply Raux.bpow_lt].
Qed.

(** An exponential that overflows, and one that underflows *)
Definition E_big : env := Env (e_alloc_ok E0) (e_alloc E0) (e_dealloc E0) (e_rand E0)
  (fun d => if SFltb d (flt_of_Z F64 89) then d else S754_infinity false) (e_garbage E0) (e_fuel E0).
Definition E_low : env := Env (e_alloc_ok E0) (e_alloc E0) (e_dealloc E0) (e_rand E0)
  (fun d => S754_zero false) (e_garbage E0) (e_fuel E0).
Example C56_overflow_ex :
  wf (fx [T_s]) /\ alloc_all E_big /\ holds (heap (fx [T_s])) 0 T_s /\ init T_s /\
  a_vals T_s !! 3%nat = Some (VF (flt_of_Z F32 100)) /\
  to_double F32 (VF (flt_of_Z F32 100)) = Some (flt_of_Z F64 100) /\
  of_double F32 (e_exp E_big (flt_of_Z F64 100)) = Some (VF (S754_infinity false)).
Proof.
  split_and!; [apply fx_wf|done|exact (fx_holds [T_s] 0 T_s eq_refl T_s_valid)|lit_init|..]; vm_compute; reflexivity.
Qed.
Example C56_underflow_ex :
  wf (fx [T_s]) /\ alloc_all E_low /\ holds (heap (fx [T_s])) 0 T_s /\ init T_s /\
  Forall (fun v => exists d b, to_double F32 v = Some d /\
    of_double F32 (e_exp E_low d) = Some (VF (S754_zero b))) (a_vals T_s).
Proof.
  split_and!; [apply fx_wf|done|exact (fx_holds [T_s] 0 T_s eq_refl T_s_valid)|lit_init|..].
  unfold T_s. cbn [a_vals fmap list_fmap]. rewrite !Forall_cons. split_and!; [..|by apply Forall_nil].
  all: eexists _, _; split; vm_compute; reflexivity.
Qed.
