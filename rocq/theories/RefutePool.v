(** * RefutePool: pooling witnesses *)
From stdpp Require Import gmap list.
From Coq Require Import ZArith Lia Reals Lra Floats.SpecFloat.
From Verif Require Import Base Mem Spec SpecReal SpecNN ModelCore ModelBasic ModelMath ModelNN Logic
  ProofCore ProofCore2 Fixture.
Open Scope Z_scope.

Definition T_neg : atensor := AT I32 cpu [1; 1; 2] [VI (-3); VI (-2)].
Lemma T_neg_valid : valid T_neg. Proof. lit_valid. Qed.
(** An image of 3x3 numbers *)
Definition T_img : atensor := AT I32 cpu [1; 1; 3; 3] (VI <$> [1; -2; 3; 4; 5; 6; -7; 8; 9]).
Lemma T_img_valid : valid T_img. Proof. lit_valid. Qed.
Definition T_i64max : atensor := AT I64 cpu [1; 1; 1] [VI INT64_MAX].
Lemma T_i64max_valid : valid T_i64max. Proof. lit_valid. Qed.
(** No elements, but an extent that does not fit in a double *)
Definition T_odd : atensor := AT I8 cpu [0; 1; 2 ^ 53 + 1] [].
Lemma T_odd_valid : valid T_odd. Proof. lit_valid. Qed.

(** The maximum of -3 and -2 is reported as 0. *)
Lemma max_pooling_negative : exists E s p T,
  wf s /\ alloc_all E /\ hooks_ok E /\ holds (heap s) p T /\ init T /\
  a_dims T = [1; 1; 2] /\ win_ok [2] [2] [1] [0] [1] /\
  window T [2] [1] [0] [1] 0 0 [0] = [VI (-3); VI (-2)] /\
  exists r s', aitisa_pooling (HPtr p) PMax [2] [1] [0] [1] HNull E s = Done r s' /\
    peek E s' r = Some (SUCCESS, [1; 1; 1], [VI 0]) /\ ~ is_max [VI (-3); VI (-2)] (VI 0).
Proof.
  exists E0, (fx [T_neg]), 0%nat, T_neg.
  split_and!; [apply fx_wf|apply E0_alloc|apply E0_hooks|exact (fx_holds [T_neg] 0 T_neg eq_refl T_neg_valid)| |done| | |].
  - repeat constructor; vm_compute; discriminate.
  - cbn. unfold win_ok1. lims. lia.
  - vm_compute. reflexivity.
  - assert (exists r s', aitisa_pooling (HPtr 0) PMax [2] [1] [0] [1] HNull E0 (fx [T_neg]) = Done r s' /\
      peek E0 s' r = Some (SUCCESS, [1; 1; 1], [VI 0])) as (r & s' & H1 & H2).
    { apply run_ex. vm_compute. reflexivity. }
    exists r, s'. split_and!; [done|done|]. intros [(u & Hu & Hr) _].
    apply elem_of_cons in Hu as [->|Hu]; [cbn in Hr; lra|].
    apply elem_of_list_singleton in Hu as ->. cbn in Hr. lra.
Qed.
(** An unknown mode string: the call succeeds and no element is written. *)
Lemma pooling_unknown_mode : exists E s p T,
  wf s /\ alloc_all E /\ hooks_ok E /\ holds (heap s) p T /\ init T /\
  exists r s', aitisa_pooling (HPtr p) POther [2] [1] [0] [1] HNull E s = Done r s' /\
    peek E s' r = Some (SUCCESS, [1; 1; 1], [VU]).
Proof.
  exists E0, (fx [T_neg]), 0%nat, T_neg.
  split_and!; [apply fx_wf|apply E0_alloc|apply E0_hooks|exact (fx_holds [T_neg] 0 T_neg eq_refl T_neg_valid)| |].
  - repeat constructor; vm_compute; discriminate.
  - apply run_ex. vm_compute. reflexivity.
Qed.
(** The average of one int64 maximum: it is rounded up to 2^63 and converting that
    back is undefined. *)
Lemma pooling_int64_ub : exists E s p T,
  wf s /\ alloc_all E /\ hooks_ok E /\ holds (heap s) p T /\ init T /\ a_type T = I64 /\
  win_ok [1] [1] [1] [0] [1] /\ a_dims T = [1; 1; 1] /\
  aitisa_pooling (HPtr p) PAvg [1] [1] [0] [1] HNull E s = UB UB_fconv /\
  aitisa_pooling (HPtr p) PMax [1] [1] [0] [1] HNull E s = UB UB_fconv.
Proof.
  exists E0, (fx [T_i64max]), 0%nat, T_i64max.
  split_and!; [apply fx_wf|apply E0_alloc|apply E0_hooks|exact (fx_holds [T_i64max] 0 T_i64max eq_refl T_i64max_valid)
    | |done| |done| |].
  - repeat constructor; vm_compute; discriminate.
  - cbn. unfold win_ok1. lims. lia.
  - vm_compute. reflexivity.
  - vm_compute. reflexivity.
Qed.
(** Beyond 2^53 the output extent is computed wrongly: it is one less than the
    number of window positions. *)
Lemma pooling_extent_wrong : exists E s p T,
  wf s /\ alloc_all E /\ hooks_ok E /\ holds (heap s) p T /\ init T /\ a_dims T = [0; 1; 2 ^ 53 + 1] /\
  win_out (2 ^ 53 + 1) 1 1 0 1 = 2 ^ 53 + 1 /\
  exists r s', aitisa_pooling (HPtr p) PAvg [1] [1] [0] [1] HNull E s = Done r s' /\
    peek E s' r = Some (SUCCESS, [0; 1; 2 ^ 53], []).
Proof.
  exists E0, (fx [T_odd]), 0%nat, T_odd.
  split_and!; [apply fx_wf|apply E0_alloc|apply E0_hooks|exact (fx_holds [T_odd] 0 T_odd eq_refl T_odd_valid)
    | |done|done|].
  - constructor.
  - apply run_ex. vm_compute. reflexivity.
Qed.
(** Stride 0 passes the checks; the division by it is then undefined behaviour. *)
Lemma pooling_zero_stride : exists E s p T,
  wf s /\ alloc_all E /\ hooks_ok E /\ holds (heap s) p T /\ init T /\
  aitisa_pooling (HPtr p) PAvg [1] [0] [0] [1] HNull E s = UB UB_fconv.
Proof.
  exists E0, (fx [T_neg]), 0%nat, T_neg.
  split_and!; [apply fx_wf|apply E0_alloc|apply E0_hooks|exact (fx_holds [T_neg] 0 T_neg eq_refl T_neg_valid)| |].
  - repeat constructor; vm_compute; discriminate.
  - vm_compute. reflexivity.
Qed.
