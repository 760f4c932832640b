(** * RefuteConv: convolution witnesses *)
From stdpp Require Import gmap list.
From Coq Require Import ZArith Lia Floats.SpecFloat.
From Verif Require Import Base Mem Spec SpecReal SpecNN ModelCore ModelBasic ModelMath ModelNN Logic
  ProofCore ProofCore2 Fixture.
Open Scope Z_scope.

Definition fl (l : list Z) : list val := (fun z => VF (flt_of_Z F32 z)) <$> l.
(** An image of 2x2 numbers and filters of several sizes *)
Definition T_cv : atensor := AT F32 cpu [1; 1; 2; 2] (fl [1; 2; 3; 4]).
Definition T_k22 : atensor := AT F32 cpu [1; 1; 2; 2] (fl [1; 10; 100; 1000]).
Definition T_k33 : atensor := AT F32 cpu [1; 1; 3; 3] (fl [1; 2; 3; 4; 5; 6; 7; 8; 9]).
Definition T_k43 : atensor := AT F32 cpu [1; 1; 4; 3] (fl (Z.of_nat <$> seq 1 12)).
Definition T_k44 : atensor := AT F32 cpu [1; 1; 4; 4] (fl (Z.of_nat <$> seq 1 16)).
(** Two channels, and a filter as for two groups *)
Definition T_cv2 : atensor := AT F32 cpu [1; 2; 1; 1] (fl [3; 5]).
Definition T_kg : atensor := AT F32 cpu [2; 1; 1; 1] (fl [1; 2]).
(** No channels *)
Definition T_cv0 : atensor := AT F32 cpu [1; 0; 1; 1] [].
Lemma T_cv_valid : valid T_cv. Proof. lit_valid. Qed.
Lemma T_k22_valid : valid T_k22. Proof. lit_valid. Qed.
Lemma T_k33_valid : valid T_k33. Proof. lit_valid. Qed.
Lemma T_k43_valid : valid T_k43. Proof. lit_valid. Qed.
Lemma T_k44_valid : valid T_k44. Proof. lit_valid. Qed.
Lemma T_cv2_valid : valid T_cv2. Proof. lit_valid. Qed.
Lemma T_kg_valid : valid T_kg. Proof. lit_valid. Qed.
Lemma T_cv0_valid : valid T_cv0. Proof. lit_valid. Qed.
Definition T_kd : atensor := AT F64 cpu [1; 1; 1; 1] [VF (flt_of_Z F64 1)].
Lemma T_kd_valid : valid T_kd. Proof. lit_valid. Qed.

Ltac lit_init := repeat constructor; vm_compute; congruence.
Ltac two A HA B HB :=
  split_and!; [apply fx_wf|apply E0_alloc|apply E0_hooks|exact (fx_holds [A; B] 0 A eq_refl HA)
    |exact (fx_holds [A; B] 1 B eq_refl HB)|lit_init|lit_init| ..].

(** All goes well, but what the caller reads as the status is INTERNAL_ERROR. *)
Lemma conv_status_arbitrary : exists E s p pf T F,
  wf s /\ alloc_all E /\ hooks_ok E /\ holds (heap s) p T /\ holds (heap s) pf F /\ init T /\ init F /\
  a_dims T = [1; 1; 2; 2] /\ a_dims F = [1; 1; 2; 2] /\ win_ok [2; 2] [2; 2] [1; 1] [0; 0] [1; 1] /\
  exists r s', aitisa_conv2d (HPtr p) (HPtr pf) [1; 1] [0; 0] [1; 1] 1 HNull E s = Done r s' /\
    peek E s' r = Some (INTERNAL_ERROR, [1; 1; 1; 1], fl [4321]).
Proof.
  exists E0, (fx [T_cv; T_k22]), 0%nat, 5%nat, T_cv, T_k22.
  two T_cv T_cv_valid T_k22 T_k22_valid; [done|done| |].
  - cbn. unfold win_ok1. lims. lia.
  - apply run_ex. vm_compute. reflexivity.
Qed.

(** Filters larger than the (unpadded) input: 3x3 on 2x2 with stride 2 gives one
    element, 4x3 gives a tensor with a negative extent, 4x4 hits an assertion. *)
Lemma conv_large_filter : exists E s1 s2 s3 p pf T F1 F2 F3,
  alloc_all E /\ hooks_ok E /\ init T /\ a_dims T = [1; 1; 2; 2] /\
  (wf s1 /\ holds (heap s1) p T /\ holds (heap s1) pf F1 /\ init F1 /\ a_dims F1 = [1; 1; 3; 3]) /\
  (wf s2 /\ holds (heap s2) p T /\ holds (heap s2) pf F2 /\ init F2 /\ a_dims F2 = [1; 1; 4; 3]) /\
  (wf s3 /\ holds (heap s3) p T /\ holds (heap s3) pf F3 /\ init F3 /\ a_dims F3 = [1; 1; 4; 4]) /\
  (exists r s', aitisa_conv2d (HPtr p) (HPtr pf) [2; 2] [0; 0] [1; 1] 1 HNull E s1 = Done r s' /\
    peek E s' r = Some (e_garbage E 0, [1; 1; 1; 1], fl [37])) /\
  (exists r s', aitisa_conv2d (HPtr p) (HPtr pf) [1; 1] [0; 0] [1; 1] 1 HNull E s2 = Done r s' /\
    peek E s' r = Some (e_garbage E 0, [1; 1; -1; 0], [])) /\
  aitisa_conv2d (HPtr p) (HPtr pf) [1; 1] [0; 0] [1; 1] 1 HNull E s3 = Abort.
Proof.
  exists E0, (fx [T_cv; T_k33]), (fx [T_cv; T_k43]), (fx [T_cv; T_k44]), 0%nat, 5%nat, T_cv, T_k33, T_k43, T_k44.
  split_and!; try apply fx_wf; try done; try lit_init.
  - exact (fx_holds [T_cv; T_k33] 0 T_cv eq_refl T_cv_valid).
  - exact (fx_holds [T_cv; T_k33] 1 T_k33 eq_refl T_k33_valid).
  - exact (fx_holds [T_cv; T_k43] 0 T_cv eq_refl T_cv_valid).
  - exact (fx_holds [T_cv; T_k43] 1 T_k43 eq_refl T_k43_valid).
  - exact (fx_holds [T_cv; T_k44] 0 T_cv eq_refl T_cv_valid).
  - exact (fx_holds [T_cv; T_k44] 1 T_k44 eq_refl T_k44_valid).
  - apply run_ex. vm_compute. reflexivity.
  - apply run_ex. vm_compute. reflexivity.
Qed.

(** Two groups of one channel each: an assertion fails. *)
Lemma conv_two_groups : exists E s p pf T F,
  wf s /\ alloc_all E /\ hooks_ok E /\ holds (heap s) p T /\ holds (heap s) pf F /\ init T /\ init F /\
  a_dims T = [1; 2; 1; 1] /\ a_dims F = [2; 1; 1; 1] /\ win_ok [1; 1] [1; 1] [1; 1] [0; 0] [1; 1] /\
  aitisa_conv2d (HPtr p) (HPtr pf) [1; 1] [0; 0] [1; 1] 2 HNull E s = Abort.
Proof.
  exists E0, (fx [T_cv2; T_kg]), 0%nat, 5%nat, T_cv2, T_kg.
  two T_cv2 T_cv2_valid T_kg T_kg_valid; [done|done| |].
  - cbn. unfold win_ok1. lims. lia.
  - vm_compute. reflexivity.
Qed.

(** An input without channels: nothing is ever stored in the output. *)
Lemma conv_no_channels : exists E s p T,
  wf s /\ alloc_all E /\ hooks_ok E /\ holds (heap s) p T /\ init T /\
  a_dims T = [1; 0; 1; 1] /\ win_ok [1; 1] [1; 1] [1; 1] [0; 0] [1; 1] /\
  exists r s', aitisa_conv2d (HPtr p) (HPtr p) [1; 1] [0; 0] [1; 1] 1 HNull E s = Done r s' /\
    peek E s' r = Some (e_garbage E 0, [1; 1; 1; 1], [VU]).
Proof.
  exists E0, (fx [T_cv0]), 0%nat, T_cv0.
  split_and!; [apply fx_wf|apply E0_alloc|apply E0_hooks|exact (fx_holds [T_cv0] 0 T_cv0 eq_refl T_cv0_valid)
    |constructor|done| |].
  - cbn. unfold win_ok1. lims. lia.
  - apply run_ex. vm_compute. reflexivity.
Qed.

(** The element type of the filter is not looked at. *)
Lemma conv_filter_type : exists E s p pf T F,
  wf s /\ alloc_all E /\ hooks_ok E /\ holds (heap s) p T /\ holds (heap s) pf F /\ init T /\ init F /\
  a_type F = F64 /\ a_dims F = [1; 1; 1; 1] /\ win_ok [2; 2] [1; 1] [1; 1] [0; 0] [1; 1] /\
  aitisa_conv2d (HPtr p) (HPtr pf) [1; 1] [0; 0] [1; 1] 1 HNull E s = UB UB_type.
Proof.
  exists E0, (fx [T_cv; T_kd]), 0%nat, 5%nat, T_cv, T_kd.
  two T_cv T_cv_valid T_kd T_kd_valid; [done|done| |].
  - cbn. unfold win_ok1. lims. lia.
  - vm_compute. reflexivity.
Qed.
