(** * RefuteDot: where aitisa_dot departs from the expected contraction *)
From stdpp Require Import gmap list.
From Coq Require Import ZArith Lia Floats.SpecFloat.
From Verif Require Import Base Mem Spec ModelCore ModelBasic ModelMath Logic ProofCore ProofCore2 Fixture.
Open Scope Z_scope.

(** 2^53 + 1 is not a double: the scalar becomes 2^53. *)
Definition T_s53 : atensor := AT I64 cpu [] [VI 9007199254740993].
Definition T_one : atensor := AT I64 cpu [1] [VI 1].
(** 2^63 - 1 rounds to 2^63 as a double, which int64_t cannot represent. *)
Definition T_s63 : atensor := AT I64 cpu [] [VI 9223372036854775807].
Lemma T_s53_valid : valid T_s53. Proof. lit_valid. Qed.
Lemma T_one_valid : valid T_one. Proof. lit_valid. Qed.
Lemma T_s63_valid : valid T_s63. Proof. lit_valid. Qed.

Lemma dot_scalar_inexact : exists T1 T2 p1 p2 E s r s',
  wf s /\ alloc_all E /\ hooks_ok E /\ holds (heap s) p1 T1 /\ holds (heap s) p2 T2 /\
  a_type T1 = I64 /\ a_type T2 = I64 /\ a_dims T1 = [] /\
  a_vals T1 = [VI 9007199254740993] /\ a_vals T2 = [VI 1] /\
  aitisa_dot (HPtr p1) (HPtr p2) HNull E s = Done r s' /\
  peek E s' r = Some (SUCCESS, [1], [VI 9007199254740992]).
Proof.
  edestruct (run_ex (aitisa_dot (HPtr 0) (HPtr 5) HNull) E0 (fx [T_s53; T_one])
    (fun r s' => peek E0 s' r = Some (SUCCESS, [1], [VI 9007199254740992]))) as (r & s' & Hr & Hp).
  { vm_compute. reflexivity. }
  exists T_s53, T_one, 0%nat, 5%nat, E0, (fx [T_s53; T_one]), r, s'.
  split; [apply fx_wf|]. split; [exact E0_alloc|]. split; [exact E0_hooks|].
  split; [exact (fx_holds [T_s53; T_one] 0 T_s53 eq_refl T_s53_valid)|].
  split; [exact (fx_holds [T_s53; T_one] 1 T_one eq_refl T_one_valid)|].
  do 5 (split; [reflexivity|]). exact (conj Hr Hp).
Qed.
Lemma dot_scalar_ub : exists T1 T2 p1 p2 E s u,
  wf s /\ alloc_all E /\ hooks_ok E /\ holds (heap s) p1 T1 /\ holds (heap s) p2 T2 /\
  a_type T1 = I64 /\ a_type T2 = I64 /\ a_dims T1 = [] /\
  a_vals T1 = [VI 9223372036854775807] /\ a_vals T2 = [VI 1] /\
  aitisa_dot (HPtr p1) (HPtr p2) HNull E s = UB u.
Proof.
  exists T_s63, T_one, 0%nat, 5%nat, E0, (fx [T_s63; T_one]). eexists.
  split_and!; [apply fx_wf|done|done|exact (fx_holds [T_s63; T_one] 0 T_s63 eq_refl T_s63_valid)|
    exact (fx_holds [T_s63; T_one] 1 T_one eq_refl T_one_valid)|done|done|done|done|done|].
  vm_compute. reflexivity.
Qed.

(** A contracted extent of 0: the sum over nothing is 0, but the call is rejected (by
    the slice), after *output was set to a tensor that is never filled. *)
Definition T_20 : atensor := AT I32 cpu [2; 0] [].
Definition T_0 : atensor := AT I32 cpu [0] [].
Lemma T_20_valid : valid T_20. Proof. lit_valid. Qed.
Lemma T_0_valid : valid T_0. Proof. lit_valid. Qed.
Lemma dot_zero_extent : exists T1 T2 p1 p2 E s q s',
  wf s /\ alloc_all E /\ hooks_ok E /\ holds (heap s) p1 T1 /\ holds (heap s) p2 T2 /\
  a_type T1 = a_type T2 /\ a_dims T1 = [2; 0] /\ a_dims T2 = [0] /\
  aitisa_dot (HPtr p1) (HPtr p2) HNull E s = Done (INVALID_ARGUMENT, HPtr q) s'.
Proof.
  edestruct (run_ex (aitisa_dot (HPtr 0) (HPtr 5) HNull) E0 (fx [T_20; T_0])
    (fun r s' => r = (INVALID_ARGUMENT, HPtr 11))) as (r & s' & Hr & ->).
  { vm_compute. reflexivity. }
  exists T_20, T_0, 0%nat, 5%nat, E0, (fx [T_20; T_0]), 11%nat, s'.
  split; [apply fx_wf|]. split; [exact E0_alloc|]. split; [exact E0_hooks|].
  split; [exact (fx_holds [T_20; T_0] 0 T_20 eq_refl T_20_valid)|].
  split; [exact (fx_holds [T_20; T_0] 1 T_0 eq_refl T_0_valid)|].
  do 3 (split; [reflexivity|]). exact Hr.
Qed.
