(** * PropConv2: every outcome of a convolution of floats (C44), and what never works (C45) *)
From stdpp Require Import gmap list.
From Coq Require Import ZArith Lia Floats.SpecFloat.
From Verif Require Import Base Mem Spec SpecNN ModelCore ModelNN Logic ProofCore ProofCore2 ProofConv4 ProofConv5 RefuteConv Fixture.
Open Scope Z_scope.

(** Defined exactly when no element that is read is uninitialised. *)
Theorem C44_exact : forall p pf T F nb nc oc fc sd ks ss ps ls g o E s,
  wf s -> alloc_all E -> hooks_ok E -> holds (heap s) p T -> holds (heap s) pf F ->
  a_type T = F32 -> a_type F = F32 ->
  a_dims T = nb :: nc :: sd -> a_dims F = oc :: fc :: ks -> nc <= fc -> 0 < nc ->
  (length sd <= 3)%nat -> win_ok sd ks ss ps ls ->
  fits (tsz F32) (nb :: oc :: win_outs sd ks ss ps ls) ->
  ((forall b c x, in_box (nb :: oc :: win_outs sd ks ss ps ls) (b :: c :: x) ->
      mac_all F32 (zero_val F32) (conv_terms T F ss ps ls nc b c x) <> None) ->
   exists T3, a_type T3 = F32 /\ a_dev T3 = a_dev T /\ a_dims T3 = nb :: oc :: win_outs sd ks ss ps ls /\ valid T3 /\
     (forall b c x, in_box (a_dims T3) (b :: c :: x) ->
        mac_all F32 (zero_val F32) (conv_terms T F ss ps ls nc b c x) = Some (at_ T3 (b :: c :: x))) /\
     makes_saying (conv_status E) (aitisa_conv (HPtr p) (HPtr pf) ss ps ls g o) E s T3) /\
  ((exists b c x, in_box (nb :: oc :: win_outs sd ks ss ps ls) (b :: c :: x) /\
      mac_all F32 (zero_val F32) (conv_terms T F ss ps ls nc b c x) = None) ->
   aitisa_conv (HPtr p) (HPtr pf) ss ps ls g o E s = UB UB_uninit).
Proof. exact fit_conv_exact. Qed.
Print Assumptions C44_exact.

(** A filter with fewer channels than the input, as [groups] greater than 1 asks for: the
    call never returns, as soon as one window has an element of the input in it. *)
Theorem C45_groups_always_refuted : forall p pf T F nb nc oc fc sd ks ss ps ls g o E s,
  wf s -> alloc_all E -> hooks_ok E -> holds (heap s) p T -> holds (heap s) pf F ->
  a_type T = F32 -> a_dims T = nb :: nc :: sd -> a_dims F = oc :: fc :: ks ->
  0 < nc -> 0 < fc -> (length sd <= 3)%nat -> win_ok sd ks ss ps ls ->
  fits (tsz F32) (nb :: oc :: win_outs sd ks ss ps ls) ->
  a_type F = F32 -> fc < nc -> init T -> init F -> 0 < nb -> 0 < oc ->
  forall x w, in_box (win_outs sd ks ss ps ls) x -> in_box ks w -> in_box sd (win_coord ss ps ls x w) ->
  aitisa_conv (HPtr p) (HPtr pf) ss ps ls g o E s = Abort.
Proof. exact fit_conv_groups. Qed.
Print Assumptions C45_groups_always_refuted.
(** A filter of another type of at least four bytes: the same condition, undefined. *)
Theorem C45_filter_type_always_refuted : forall p pf T F nb nc oc fc sd ks ss ps ls g o E s,
  wf s -> alloc_all E -> hooks_ok E -> holds (heap s) p T -> holds (heap s) pf F ->
  a_type T = F32 -> a_dims T = nb :: nc :: sd -> a_dims F = oc :: fc :: ks ->
  0 < nc -> 0 < fc -> (length sd <= 3)%nat -> win_ok sd ks ss ps ls ->
  fits (tsz F32) (nb :: oc :: win_outs sd ks ss ps ls) ->
  a_type F <> F32 -> (4 <= tsz (a_type F))%nat -> Forall (fun v => v <> VU) (a_vals F) -> 0 < nb -> 0 < oc ->
  forall x w, in_box (win_outs sd ks ss ps ls) x -> in_box ks w -> in_box sd (win_coord ss ps ls x w) ->
  aitisa_conv (HPtr p) (HPtr pf) ss ps ls g o E s = UB UB_type.
Proof. exact fit_conv_filter_other. Qed.
Print Assumptions C45_filter_type_always_refuted.
(** A column of three, its middle element not written.  Without padding the windows of two
    are 1 ? and ? 9; with a step of two filters of one element see only 1 and 9. *)
Definition T_hole : atensor := AT F32 cpu [1; 1; 3] [VF (flt_of_Z F32 1); VU; VF (flt_of_Z F32 9)].
Definition T_k2 : atensor := AT F32 cpu [1; 1; 2] (fl [1; 1]).
Definition T_k1 : atensor := AT F32 cpu [1; 1; 1] (fl [2]).
Lemma T_hole_valid : valid T_hole. Proof. lit_valid. Qed.
Lemma T_k2_valid : valid T_k2. Proof. lit_valid. Qed.
Lemma T_k1_valid : valid T_k1. Proof. lit_valid. Qed.
Example C44_exact_ex :
  wf (fx [T_hole; T_k2]) /\ holds (heap (fx [T_hole; T_k2])) 0 T_hole /\ holds (heap (fx [T_hole; T_k2])) 5 T_k2 /\
  win_ok [3] [2] [1] [0] [1] /\ win_outs [3] [2] [1] [0] [1] = [2] /\ fits (tsz F32) [1; 1; 2] /\
  mac_all F32 (zero_val F32) (conv_terms T_hole T_k2 [1] [0] [1] 1 0 0 [0]) = None /\
  aitisa_conv (HPtr 0) (HPtr 5) [1] [0] [1] 1 HNull E0 (fx [T_hole; T_k2]) = UB UB_uninit /\
  win_ok [3] [1] [2] [0] [1] /\ win_outs [3] [1] [2] [0] [1] = [2] /\
  mac_all F32 (zero_val F32) (conv_terms T_hole T_k1 [2] [0] [1] 1 0 0 [0]) = Some (VF (flt_of_Z F32 2)) /\
  mac_all F32 (zero_val F32) (conv_terms T_hole T_k1 [2] [0] [1] 1 0 0 [1]) = Some (VF (flt_of_Z F32 18)) /\
  exists r s', aitisa_conv (HPtr 0) (HPtr 5) [2] [0] [1] 1 HNull E0 (fx [T_hole; T_k1]) = Done r s' /\
    peek E0 s' r = Some (conv_status E0, [1; 1; 2], fl [2; 18]).
Proof.
  split_and!; [apply fx_wf|exact (fx_holds [T_hole; T_k2] 0 T_hole eq_refl T_hole_valid)
    |exact (fx_holds [T_hole; T_k2] 1 T_k2 eq_refl T_k2_valid)| |done|lit_fits| | | |done| | |].
  - cbn. unfold win_ok1. lims. lia.
  - vm_compute. reflexivity.
  - vm_compute. reflexivity.
  - cbn. unfold win_ok1. lims. lia.
  - vm_compute. reflexivity.
  - vm_compute. reflexivity.
  - apply run_ex. vm_compute. reflexivity.
Qed.
(** Two channels and a filter for two groups, with a row of padding above: the first window
    has nothing of the input in it, the second one has. *)
Example C45_groups_always_ex :
  wf (fx [T_cv2; T_kg]) /\ holds (heap (fx [T_cv2; T_kg])) 0 T_cv2 /\ holds (heap (fx [T_cv2; T_kg])) 5 T_kg /\
  init T_cv2 /\ init T_kg /\ win_ok [1; 1] [1; 1] [1; 1] [1; 0] [1; 1] /\
  win_outs [1; 1] [1; 1] [1; 1] [1; 0] [1; 1] = [3; 1] /\ fits (tsz F32) [1; 2; 3; 1] /\
  win_coord [1; 1] [1; 0] [1; 1] [0; 0] [0; 0] = [-1; 0] /\ win_coord [1; 1] [1; 0] [1; 1] [1; 0] [0; 0] = [0; 0] /\
  aitisa_conv (HPtr 0) (HPtr 5) [1; 1] [1; 0] [1; 1] 2 HNull E0 (fx [T_cv2; T_kg]) = Abort.
Proof.
  split_and!; [apply fx_wf|exact (fx_holds [T_cv2; T_kg] 0 T_cv2 eq_refl T_cv2_valid)
    |exact (fx_holds [T_cv2; T_kg] 1 T_kg eq_refl T_kg_valid)|lit_init|lit_init| |done|lit_fits|done|done|].
  - cbn. unfold win_ok1. lims. lia.
  - vm_compute. reflexivity.
Qed.
Example C45_filter_type_always_ex :
  wf (fx [T_cv; T_kd]) /\ holds (heap (fx [T_cv; T_kd])) 0 T_cv /\ holds (heap (fx [T_cv; T_kd])) 5 T_kd /\
  Forall (fun v => v <> VU) (a_vals T_kd) /\ (4 <= tsz F64)%nat /\
  win_coord [1; 1] [0; 0] [1; 1] [0; 0] [0; 0] = [0; 0] /\
  aitisa_conv (HPtr 0) (HPtr 5) [1; 1] [0; 0] [1; 1] 1 HNull E0 (fx [T_cv; T_kd]) = UB UB_type.
Proof.
  split_and!; [apply fx_wf|exact (fx_holds [T_cv; T_kd] 0 T_cv eq_refl T_cv_valid)
    |exact (fx_holds [T_cv; T_kd] 1 T_kd eq_refl T_kd_valid)|by repeat constructor|cbn; lia|done|].
  vm_compute. reflexivity.
Qed.
