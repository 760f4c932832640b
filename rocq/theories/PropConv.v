(** * PropConv: properties of convolution (C44, C45) *)
From stdpp Require Import gmap list.
From Coq Require Import ZArith Lia Reals Floats.SpecFloat.
From Verif Require Import Base Mem Spec SpecReal SpecNN ModelCore ModelBasic ModelMath ModelNN Logic ProofCore ProofCore2
  ProofConv ProofConv2 ProofConv5 RefuteConv Fixture.
Open Scope Z_scope.

(** ** C44: what is computed *)

(** The status is C45's concern. *)
Theorem C44_convolution : forall p pf T F nb nc oc fc sd ks ss ps ls g o E s,
  wf s -> alloc_all E -> hooks_ok E -> holds (heap s) p T -> holds (heap s) pf F ->
  a_type T = F32 -> a_type F = F32 ->
  a_dims T = nb :: nc :: sd -> a_dims F = oc :: fc :: ks -> nc <= fc -> 0 < nc ->
  (length sd <= 3)%nat -> win_ok sd ks ss ps ls -> forall T3,
  a_type T3 = F32 -> a_dev T3 = a_dev T -> a_dims T3 = nb :: oc :: win_outs sd ks ss ps ls -> valid T3 ->
  (forall b c x, in_box (a_dims T3) (b :: c :: x) ->
     mac_all F32 (zero_val F32) (conv_terms T F ss ps ls nc b c x) = Some (at_ T3 (b :: c :: x))) ->
  makes_saying (conv_status E) (aitisa_conv (HPtr p) (HPtr pf) ss ps ls g o) E s T3.
Proof. exact fit_conv_rule. Qed.
Print Assumptions C44_convolution.
Theorem C44_defined : forall p pf T F nb nc oc fc sd ks ss ps ls g o E s,
  wf s -> alloc_all E -> hooks_ok E -> holds (heap s) p T -> holds (heap s) pf F ->
  a_type T = F32 -> a_type F = F32 ->
  a_dims T = nb :: nc :: sd -> a_dims F = oc :: fc :: ks -> nc <= fc -> 0 < nc ->
  (length sd <= 3)%nat -> win_ok sd ks ss ps ls ->
  fits (tsz F32) (nb :: oc :: win_outs sd ks ss ps ls) -> init T -> init F ->
  exists T3, a_type T3 = F32 /\ a_dev T3 = a_dev T /\ a_dims T3 = nb :: oc :: win_outs sd ks ss ps ls /\
    valid T3 /\ init T3 /\
    (forall b c x, in_box (a_dims T3) (b :: c :: x) ->
       mac_all F32 (zero_val F32) (conv_terms T F ss ps ls nc b c x) = Some (at_ T3 (b :: c :: x))) /\
    makes_saying (conv_status E) (aitisa_conv (HPtr p) (HPtr pf) ss ps ls g o) E s T3.
Proof. exact fit_conv_total. Qed.
Print Assumptions C44_defined.
(** Integers small enough for float: the result is the exact sum of products. *)
Theorem C44_integers : forall p pf T F nb nc oc fc sd ks ss ps ls g A B o E s,
  wf s -> alloc_all E -> hooks_ok E -> holds (heap s) p T -> holds (heap s) pf F ->
  a_type T = F32 -> a_type F = F32 ->
  a_dims T = nb :: nc :: sd -> a_dims F = oc :: fc :: ks -> nc <= fc -> 0 < nc ->
  (length sd <= 3)%nat -> win_ok sd ks ss ps ls ->
  fits (tsz F32) (nb :: oc :: win_outs sd ks ss ps ls) ->
  Forall (fun v => exists z, integral F32 v z /\ Z.abs z <= A) (a_vals T) ->
  Forall (fun v => exists z, integral F32 v z /\ Z.abs z <= B) (a_vals F) ->
  0 <= A -> 0 <= B -> A * B * (nc * prodZ ks) <= 2 ^ 24 ->
  exists T3, a_type T3 = F32 /\ a_dev T3 = a_dev T /\ a_dims T3 = nb :: oc :: win_outs sd ks ss ps ls /\ valid T3 /\
    (forall b c x, in_box (a_dims T3) (b :: c :: x) ->
       exists z, integral F32 (at_ T3 (b :: c :: x)) z /\ IZR z = dot_real (conv_terms T F ss ps ls nc b c x)) /\
    makes_saying (conv_status E) (aitisa_conv (HPtr p) (HPtr pf) ss ps ls g o) E s T3.
Proof. exact fit_conv_int. Qed.
Print Assumptions C44_integers.
Theorem C44_2d : forall p T pf ss ps ls g o E s, holds (heap s) p T ->
  aitisa_conv2d (HPtr p) pf ss ps ls g o E s
  = if decide (length (a_dims T) = 4%nat) then aitisa_conv (HPtr p) pf ss ps ls g o E s
    else Done (DIMENSIONS_MISMATCH, o) s.
Proof. exact conv2d_conv. Qed.
Print Assumptions C44_2d.
Theorem C44_3d : forall p T pf ss ps ls g o E s, holds (heap s) p T ->
  aitisa_conv3d (HPtr p) pf ss ps ls g o E s
  = if decide (length (a_dims T) = 5%nat) then aitisa_conv (HPtr p) pf ss ps ls g o E s
    else Done (DIMENSIONS_MISMATCH, o) s.
Proof. exact conv3d_conv. Qed.
Print Assumptions C44_3d.
Theorem C44_types : forall p pf T ss ps ls g o E s,
  holds (heap s) p T -> a_type T <> F32 ->
  aitisa_conv (HPtr p) pf ss ps ls g o E s = Done (NOT_SUPPORTED, o) s.
Proof. exact conv_wrong_type. Qed.
Print Assumptions C44_types.

Example C44_ex :
  wf (fx [T_cv; T_k22]) /\ holds (heap (fx [T_cv; T_k22])) 0 T_cv /\ holds (heap (fx [T_cv; T_k22])) 5 T_k22 /\
  win_ok [2; 2] [2; 2] [1; 1] [1; 0] [1; 1] /\ win_outs [2; 2] [2; 2] [1; 1] [1; 0] [1; 1] = [3; 1] /\
  fits (tsz F32) [1; 1; 3; 1] /\ init T_cv /\ init T_k22 /\
  conv_terms T_cv T_k22 [1; 1] [1; 0] [1; 1] 1 0 0 [0; 0]
  = zip (fl [1; 2]) (fl [100; 1000]) /\
  mac_all F32 (zero_val F32) (conv_terms T_cv T_k22 [1; 1] [1; 0] [1; 1] 1 0 0 [0; 0]) = Some (VF (flt_of_Z F32 2100)) /\
  mac_all F32 (zero_val F32) (conv_terms T_cv T_k22 [1; 1] [1; 0] [1; 1] 1 0 0 [1; 0]) = Some (VF (flt_of_Z F32 4321)) /\
  exists r s', aitisa_conv2d (HPtr 0) (HPtr 5) [1; 1] [1; 0] [1; 1] 1 HNull E0 (fx [T_cv; T_k22]) = Done r s' /\
    peek E0 s' r = Some (conv_status E0, [1; 1; 3; 1], fl [2100; 4321; 43]).
Proof.
  split_and!; [apply fx_wf|exact (fx_holds [T_cv; T_k22] 0 T_cv eq_refl T_cv_valid)
    |exact (fx_holds [T_cv; T_k22] 1 T_k22 eq_refl T_k22_valid)| |done|lit_fits|lit_init|lit_init| | | |].
  - cbn. unfold win_ok1. lims. lia.
  - vm_compute. reflexivity.
  - vm_compute. reflexivity.
  - vm_compute. reflexivity.
  - apply run_ex. vm_compute. reflexivity.
Qed.

(** ** C45: what is reported *)
Theorem C45_success_partial : forall p pf T F nb nc oc fc sd ks ss ps ls g o E s,
  wf s -> alloc_all E -> hooks_ok E -> holds (heap s) p T -> holds (heap s) pf F ->
  a_type T = F32 -> a_type F = F32 ->
  a_dims T = nb :: nc :: sd -> a_dims F = oc :: fc :: ks -> nc <= fc -> 0 < nc ->
  (length sd <= 3)%nat -> win_ok sd ks ss ps ls ->
  fits (tsz F32) (nb :: oc :: win_outs sd ks ss ps ls) -> init T -> init F ->
  e_garbage E 0 = SUCCESS -> e_garbage E 1 = SUCCESS ->
  exists T3, makes (aitisa_conv (HPtr p) (HPtr pf) ss ps ls g o) E s T3 /\ init T3.
Proof. exact fit_conv_if_success. Qed.
Print Assumptions C45_success_partial.
Theorem C45_status_refuted : exists E s p pf T F,
  wf s /\ alloc_all E /\ hooks_ok E /\ holds (heap s) p T /\ holds (heap s) pf F /\ init T /\ init F /\
  a_dims T = [1; 1; 2; 2] /\ a_dims F = [1; 1; 2; 2] /\ win_ok [2; 2] [2; 2] [1; 1] [0; 0] [1; 1] /\
  exists r s', aitisa_conv2d (HPtr p) (HPtr pf) [1; 1] [0; 0] [1; 1] 1 HNull E s = Done r s' /\
    peek E s' r = Some (INTERNAL_ERROR, [1; 1; 1; 1], fl [4321]).
Proof. exact conv_status_arbitrary. Qed.
Print Assumptions C45_status_refuted.
Theorem C45_large_filter_refuted : exists E s1 s2 s3 p pf T F1 F2 F3,
  alloc_all E /\ hooks_ok E /\ init T /\ a_dims T = [1; 1; 2; 2] /\
  (wf s1 /\ holds (heap s1) p T /\ holds (heap s1) pf F1 /\ init F1 /\ a_dims F1 = [1; 1; 3; 3]) /\
  (wf s2 /\ holds (heap s2) p T /\ holds (heap s2) pf F2 /\ init F2 /\ a_dims F2 = [1; 1; 4; 3]) /\
  (wf s3 /\ holds (heap s3) p T /\ holds (heap s3) pf F3 /\ init F3 /\ a_dims F3 = [1; 1; 4; 4]) /\
  (exists r s', aitisa_conv2d (HPtr p) (HPtr pf) [2; 2] [0; 0] [1; 1] 1 HNull E s1 = Done r s' /\
    peek E s' r = Some (e_garbage E 0, [1; 1; 1; 1], fl [37])) /\
  (exists r s', aitisa_conv2d (HPtr p) (HPtr pf) [1; 1] [0; 0] [1; 1] 1 HNull E s2 = Done r s' /\
    peek E s' r = Some (e_garbage E 0, [1; 1; -1; 0], [])) /\
  aitisa_conv2d (HPtr p) (HPtr pf) [1; 1] [0; 0] [1; 1] 1 HNull E s3 = Abort.
Proof. exact conv_large_filter. Qed.
Print Assumptions C45_large_filter_refuted.
Theorem C45_groups_refuted : exists E s p pf T F,
  wf s /\ alloc_all E /\ hooks_ok E /\ holds (heap s) p T /\ holds (heap s) pf F /\ init T /\ init F /\
  a_dims T = [1; 2; 1; 1] /\ a_dims F = [2; 1; 1; 1] /\ win_ok [1; 1] [1; 1] [1; 1] [0; 0] [1; 1] /\
  aitisa_conv2d (HPtr p) (HPtr pf) [1; 1] [0; 0] [1; 1] 2 HNull E s = Abort.
Proof. exact conv_two_groups. Qed.
Print Assumptions C45_groups_refuted.
Theorem C45_no_channels_refuted : exists E s p T,
  wf s /\ alloc_all E /\ hooks_ok E /\ holds (heap s) p T /\ init T /\
  a_dims T = [1; 0; 1; 1] /\ win_ok [1; 1] [1; 1] [1; 1] [0; 0] [1; 1] /\
  exists r s', aitisa_conv2d (HPtr p) (HPtr p) [1; 1] [0; 0] [1; 1] 1 HNull E s = Done r s' /\
    peek E s' r = Some (e_garbage E 0, [1; 1; 1; 1], [VU]).
Proof. exact conv_no_channels. Qed.
Print Assumptions C45_no_channels_refuted.
Theorem C45_filter_type_refuted : exists E s p pf T F,
  wf s /\ alloc_all E /\ hooks_ok E /\ holds (heap s) p T /\ holds (heap s) pf F /\ init T /\ init F /\
  a_type F = F64 /\ a_dims F = [1; 1; 1; 1] /\ win_ok [2; 2] [1; 1] [1; 1] [0; 0] [1; 1] /\
  aitisa_conv2d (HPtr p) (HPtr pf) [1; 1] [0; 0] [1; 1] 1 HNull E s = UB UB_type.
Proof. exact conv_filter_type. Qed.
Print Assumptions C45_filter_type_refuted.
(** An environment and inputs that meet the hypotheses of [C45_success_partial] *)
Definition E_ok : env := Env (fun _ _ _ => true) 0 0 (fun k => Z.of_nat k) (fun x => x) (fun _ => SUCCESS) 1000.
Example C45_ex :
  alloc_all E_ok /\ hooks_ok E_ok /\ e_garbage E_ok 0 = SUCCESS /\ e_garbage E_ok 1 = SUCCESS /\
  exists r s', aitisa_conv2d (HPtr 0) (HPtr 5) [1; 1] [0; 0] [1; 1] 1 HNull E_ok (fx [T_cv; T_k22]) = Done r s' /\
    peek E_ok s' r = Some (SUCCESS, [1; 1; 1; 1], fl [4321]).
Proof. split_and!; [done|done|done|done|]. apply run_ex. vm_compute. reflexivity. Qed.
