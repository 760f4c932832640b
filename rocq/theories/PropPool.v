(** * PropPool: properties of pooling (C41-C43) *)
From stdpp Require Import gmap list.
From Coq Require Import ZArith Lia Reals Floats.SpecFloat.
From Verif Require Import Base Mem Spec SpecReal SpecNN ModelCore ModelBasic ModelMath ModelNN Logic ProofCore ProofCore2
  ProofPool2 ProofPool3 ProofTerm RefutePool Fixture.
Open Scope Z_scope.

(** ** C41: average pooling *)
Theorem C41_average : forall p T T3 nb nc sd ks ss ps ls o E s,
  wf s -> alloc_all E -> hooks_ok E -> holds (heap s) p T ->
  a_dims T = nb :: nc :: sd -> (1 <= length sd <= 3)%nat -> win_ok sd ks ss ps ls ->
  prodZ ks <= INT64_MAX -> prodZ (win_outs sd ks ss ps ls) <= INT_MAX ->
  (Z.to_nat (prodZ ks) <= e_fuel E)%nat -> (Z.to_nat (prodZ (win_outs sd ks ss ps ls)) <= e_fuel E)%nat ->
  a_type T3 = a_type T -> a_dev T3 = a_dev T -> a_dims T3 = nb :: nc :: win_outs sd ks ss ps ls -> valid T3 ->
  (forall b c x, in_box (a_dims T3) (b :: c :: x) ->
     pool_avg (a_type T) (prodZ ks) (window T ks ss ps ls b c x) = Some (at_ T3 (b :: c :: x))) ->
  makes (aitisa_pooling (HPtr p) PAvg ks ss ps ls o) E s T3.
Proof. exact (fun p T T3 nb nc sd ks ss ps ls o E s Hwf HE HH =>
  pooling_rule PAvg p T T3 nb nc sd ks ss ps ls o E s Hwf HE HH ltac:(discriminate)). Qed.
Print Assumptions C41_average.
Theorem C41_float : forall p T nb nc sd ks ss ps ls E s o,
  wf s -> alloc_all E -> hooks_ok E -> holds (heap s) p T ->
  a_dims T = nb :: nc :: sd -> (1 <= length sd <= 3)%nat -> win_ok sd ks ss ps ls ->
  prodZ ks <= INT64_MAX -> prodZ (win_outs sd ks ss ps ls) <= INT_MAX ->
  (Z.to_nat (prodZ ks) <= e_fuel E)%nat -> (Z.to_nat (prodZ (win_outs sd ks ss ps ls)) <= e_fuel E)%nat ->
  fits (tsz (a_type T)) (nb :: nc :: win_outs sd ks ss ps ls) ->
  is_float (a_type T) = true -> init T ->
  exists T3, a_type T3 = a_type T /\ a_dev T3 = a_dev T /\
    a_dims T3 = nb :: nc :: win_outs sd ks ss ps ls /\ valid T3 /\
    (forall b c x, in_box (a_dims T3) (b :: c :: x) ->
       pool_avg (a_type T) (prodZ ks) (window T ks ss ps ls b c x) = Some (at_ T3 (b :: c :: x))) /\
    makes (aitisa_pooling (HPtr p) PAvg ks ss ps ls o) E s T3.
Proof. exact @pooling_avg_float. Qed.
Print Assumptions C41_float.
Theorem C41_integer : forall p T nb nc sd ks ss ps ls B o E s,
  wf s -> alloc_all E -> hooks_ok E -> holds (heap s) p T ->
  a_dims T = nb :: nc :: sd -> (1 <= length sd <= 3)%nat -> win_ok sd ks ss ps ls ->
  prodZ (win_outs sd ks ss ps ls) <= INT_MAX ->
  (Z.to_nat (prodZ ks) <= e_fuel E)%nat -> (Z.to_nat (prodZ (win_outs sd ks ss ps ls)) <= e_fuel E)%nat ->
  fits (tsz (a_type T)) (nb :: nc :: win_outs sd ks ss ps ls) ->
  is_float (a_type T) = false -> init T ->
  Forall (fun v => (Rabs (val_real v) <= IZR B)%R) (a_vals T) -> 1 <= B -> B * prodZ ks < 2 ^ 52 ->
  exists T3, a_type T3 = a_type T /\ a_dev T3 = a_dev T /\
    a_dims T3 = nb :: nc :: win_outs sd ks ss ps ls /\ valid T3 /\
    (forall b c x, in_box (a_dims T3) (b :: c :: x) -> exists zs,
       window T ks ss ps ls b c x = VI <$> zs /\ at_ T3 (b :: c :: x) = VI (Z.quot (sumZ zs) (prodZ ks))) /\
    makes (aitisa_pooling (HPtr p) PAvg ks ss ps ls o) E s T3.
Proof. exact pooling_avg_int. Qed.
Print Assumptions C41_integer.
Theorem C41_rank : forall m p T ks ss ps ls o E s,
  holds (heap s) p T -> (length (a_dims T) < 3 \/ 5 < length (a_dims T))%nat ->
  aitisa_pooling (HPtr p) m ks ss ps ls o E s = Done (DIMENSIONS_MISMATCH, o) s.
Proof. exact pooling_rank. Qed.
Print Assumptions C41_rank.
Theorem C41_too_large : forall m p T nb nc sd ks ss ps ls o E s,
  wf s -> alloc_all E -> holds (heap s) p T ->
  a_dims T = nb :: nc :: sd -> (1 <= length sd <= 3)%nat -> Forall (fun d => d <= 2 ^ 62) sd ->
  length ks = length sd -> length ps = length sd -> length ls = length sd ->
  (forall i k q l, ks !! i = Some k -> ps !! i = Some q -> ls !! i = Some l -> sane1 k q l) ->
  (exists i d k q l, sd !! i = Some d /\ ks !! i = Some k /\ ps !! i = Some q /\ ls !! i = Some l /\
     d + 2 * q < l * (k - 1) + 1) ->
  exists s', aitisa_pooling (HPtr p) m ks ss ps ls o E s = Done (INVALID_ARGUMENT, o) s' /\
    heap s ⊆ heap s' /\ size (heap s') = (6 + size (heap s))%nat.
Proof. exact pooling_too_large. Qed.
Print Assumptions C41_too_large.
Theorem C41_int64_refuted : exists E s p T,
  wf s /\ alloc_all E /\ hooks_ok E /\ holds (heap s) p T /\ init T /\ a_type T = I64 /\
  win_ok [1] [1] [1] [0] [1] /\ a_dims T = [1; 1; 1] /\
  aitisa_pooling (HPtr p) PAvg [1] [1] [0] [1] HNull E s = UB UB_fconv /\
  aitisa_pooling (HPtr p) PMax [1] [1] [0] [1] HNull E s = UB UB_fconv.
Proof. exact pooling_int64_ub. Qed.
Print Assumptions C41_int64_refuted.
Theorem C41_extent_refuted : exists E s p T,
  wf s /\ alloc_all E /\ hooks_ok E /\ holds (heap s) p T /\ init T /\ a_dims T = [0; 1; 2 ^ 53 + 1] /\
  win_out (2 ^ 53 + 1) 1 1 0 1 = 2 ^ 53 + 1 /\
  exists r s', aitisa_pooling (HPtr p) PAvg [1] [1] [0] [1] HNull E s = Done r s' /\
    peek E s' r = Some (SUCCESS, [0; 1; 2 ^ 53], []).
Proof. exact pooling_extent_wrong. Qed.
Print Assumptions C41_extent_refuted.

(** 3x3 image, 2x2 window with dilation 2 and padding 1, stride 2 *)
Example C41_ex :
  wf (fx [T_img]) /\ holds (heap (fx [T_img])) 0 T_img /\ init T_img /\ a_dims T_img = 1 :: 1 :: [3; 3] /\
  win_ok [3; 3] [2; 2] [2; 2] [1; 1] [2; 2] /\ win_outs [3; 3] [2; 2] [2; 2] [1; 1] [2; 2] = [2; 2] /\
  fits (tsz I32) [1; 1; 2; 2] /\ is_float I32 = false /\
  Forall (fun v => (Rabs (val_real v) <= IZR 9)%R) (a_vals T_img) /\ 9 * prodZ [2; 2] < 2 ^ 52 /\
  (window T_img [2; 2] [2; 2] [1; 1] [2; 2] 0 0 <$> [[0; 0]; [0; 1]; [1; 0]; [1; 1]])
  = [[VI 5]; [VI 5]; [VI 5]; [VI 5]] /\
  (window T_img [2; 2] [1; 1] [0; 0] [2; 2] 0 0 <$> [[0; 0]]) = [VI <$> [1; 3; -7; 9]].
Proof.
  split_and!; [apply fx_wf|exact (fx_holds [T_img] 0 T_img eq_refl T_img_valid)| |done| |done| |done| |done|vm_compute; reflexivity|vm_compute; reflexivity].
  - repeat constructor; vm_compute; discriminate.
  - cbn. unfold win_ok1. lims. lia.
  - vm_compute. repeat constructor; discriminate.
  - unfold T_img, a_vals. cbn [fmap list_fmap].
    repeat (apply Forall_cons; split; [cbn; rewrite <-abs_IZR; apply IZR_le; vm_compute; discriminate|]). by apply Forall_nil.
Qed.
Example C41_run : exists r s',
  aitisa_pooling (HPtr 0) PAvg [2; 2] [1; 1] [0; 0] [1; 1] HNull E0 (fx [T_img]) = Done r s' /\
  peek E0 s' r = Some (SUCCESS, [1; 1; 2; 2], VI <$> [2; 3; 2; 7]).
Proof. apply run_ex. vm_compute. reflexivity. Qed.
Example C41_run_padded : exists r s',
  aitisa_pooling (HPtr 0) PAvg [2; 2] [2; 2] [1; 1] [2; 2] HNull E0 (fx [T_img]) = Done r s' /\
  peek E0 s' r = Some (SUCCESS, [1; 1; 2; 2], VI <$> [1; 1; 1; 1]).
Proof. apply run_ex. vm_compute. reflexivity. Qed.
Example C41_too_large_ex :
  holds (heap (fx [T_img])) 0 T_img /\ Forall (fun d => d <= 2 ^ 62) [3; 3] /\
  (forall i k q l, [4; 2] !! i = Some k -> [0; 0] !! i = Some q -> [1; 1] !! i = Some l -> sane1 k q l) /\
  (exists i d k q l, [3; 3] !! i = Some d /\ [4; 2] !! i = Some k /\ [0; 0] !! i = Some q /\ [1; 1] !! i = Some l /\
     d + 2 * q < l * (k - 1) + 1).
Proof.
  split_and!; [exact (fx_holds [T_img] 0 T_img eq_refl T_img_valid)|repeat constructor; lia| |].
  - intros [|[|i]] k q l H1 H2 H3; try done; simplify_eq/=; unfold sane1; lims; lia.
  - exists 0%nat, 3, 4, 0, 1. split_and!; try done.
Qed.

(** ** C42: max pooling *)
Theorem C42_max_refuted : exists E s p T,
  wf s /\ alloc_all E /\ hooks_ok E /\ holds (heap s) p T /\ init T /\
  a_dims T = [1; 1; 2] /\ win_ok [2] [2] [1] [0] [1] /\
  window T [2] [1] [0] [1] 0 0 [0] = [VI (-3); VI (-2)] /\
  exists r s', aitisa_pooling (HPtr p) PMax [2] [1] [0] [1] HNull E s = Done r s' /\
    peek E s' r = Some (SUCCESS, [1; 1; 1], [VI 0]) /\ ~ is_max [VI (-3); VI (-2)] (VI 0).
Proof. exact max_pooling_negative. Qed.
Print Assumptions C42_max_refuted.
(** What is missing for C42 as stated: the maximum of windows without an element
    that is at least 0, which is reported as 0. *)
Theorem C42_max_partial : forall p T nb nc sd ks ss ps ls E s o,
  wf s -> alloc_all E -> hooks_ok E -> holds (heap s) p T ->
  a_dims T = nb :: nc :: sd -> (1 <= length sd <= 3)%nat -> win_ok sd ks ss ps ls ->
  prodZ ks <= INT64_MAX -> prodZ (win_outs sd ks ss ps ls) <= INT_MAX ->
  (Z.to_nat (prodZ ks) <= e_fuel E)%nat -> (Z.to_nat (prodZ (win_outs sd ks ss ps ls)) <= e_fuel E)%nat ->
  fits (tsz (a_type T)) (nb :: nc :: win_outs sd ks ss ps ls) ->
  init T -> Forall exact_val (a_vals T) ->
  exists T3, a_type T3 = a_type T /\ a_dev T3 = a_dev T /\
    a_dims T3 = nb :: nc :: win_outs sd ks ss ps ls /\ valid T3 /\
    (forall b c x, in_box (a_dims T3) (b :: c :: x) ->
       let w := window T ks ss ps ls b c x in
       let v := at_ T3 (b :: c :: x) in
       ((exists u, u ∈ w /\ (0 <= val_real u)%R) -> is_max w v) /\
       ((forall u, u ∈ w -> (val_real u < 0)%R) -> val_real v = 0%R /\ ~ is_max w v)) /\
    makes (aitisa_pooling (HPtr p) PMax ks ss ps ls o) E s T3.
Proof. exact @pooling_max_partial. Qed.
Print Assumptions C42_max_partial.
Theorem C42_computes : forall p T T3 nb nc sd ks ss ps ls o E s,
  wf s -> alloc_all E -> hooks_ok E -> holds (heap s) p T ->
  a_dims T = nb :: nc :: sd -> (1 <= length sd <= 3)%nat -> win_ok sd ks ss ps ls ->
  prodZ ks <= INT64_MAX -> prodZ (win_outs sd ks ss ps ls) <= INT_MAX ->
  (Z.to_nat (prodZ ks) <= e_fuel E)%nat -> (Z.to_nat (prodZ (win_outs sd ks ss ps ls)) <= e_fuel E)%nat ->
  a_type T3 = a_type T -> a_dev T3 = a_dev T -> a_dims T3 = nb :: nc :: win_outs sd ks ss ps ls -> valid T3 ->
  (forall b c x, in_box (a_dims T3) (b :: c :: x) ->
     pool_max0 (a_type T) (window T ks ss ps ls b c x) = Some (at_ T3 (b :: c :: x))) ->
  makes (aitisa_pooling (HPtr p) PMax ks ss ps ls o) E s T3.
Proof. exact (fun p T T3 nb nc sd ks ss ps ls o E s Hwf HE HH =>
  pooling_rule PMax p T T3 nb nc sd ks ss ps ls o E s Hwf HE HH ltac:(discriminate)). Qed.
Print Assumptions C42_computes.
Theorem C42_mode_refuted : exists E s p T,
  wf s /\ alloc_all E /\ hooks_ok E /\ holds (heap s) p T /\ init T /\
  exists r s', aitisa_pooling (HPtr p) POther [2] [1] [0] [1] HNull E s = Done r s' /\
    peek E s' r = Some (SUCCESS, [1; 1; 1], [VU]).
Proof. exact pooling_unknown_mode. Qed.
Print Assumptions C42_mode_refuted.

Example C42_ex : Forall exact_val (a_vals T_img) /\
  is_max (window T_img [2; 2] [1; 1] [0; 0] [1; 1] 0 0 [0; 0]) (VI 5).
Proof.
  split; [repeat constructor; vm_compute; discriminate|].
  change (window T_img [2; 2] [1; 1] [0; 0] [1; 1] 0 0 [0; 0]) with (VI <$> [1; -2; 4; 5]).
  split; [exists (VI 5); split; [repeat (first [left; reflexivity|right])|done]|].
  intros u Hu. repeat (apply elem_of_cons in Hu as [->|Hu]; [cbn; apply IZR_le; vm_compute; discriminate|]).
  by apply elem_of_nil in Hu.
Qed.
Example C42_run : exists r s',
  aitisa_pooling (HPtr 0) PMax [2; 2] [1; 1] [0; 0] [1; 1] HNull E0 (fx [T_img]) = Done r s' /\
  peek E0 s' r = Some (SUCCESS, [1; 1; 2; 2], VI <$> [5; 6; 8; 9]).
Proof. apply run_ex. vm_compute. reflexivity. Qed.

(** ** C43: termination *)
Theorem C43_terminates : forall a b o E s,
  (forall dt dev dims n d l, aitisa_create dt dev dims n d l o E s <> Diverge) /\
  (forall dt dev dims n v, aitisa_full dt dev dims n v o E s <> Diverge) /\
  aitisa_destroy a E s <> Diverge /\
  aitisa_resolve a E s <> Diverge /\
  (forall dt, aitisa_cast a dt o E s <> Diverge) /\
  (forall dims n, aitisa_reshape a dims n o E s <> Diverge) /\
  (forall axes n, aitisa_squeeze a axes n o E s <> Diverge) /\
  (forall bg sz st, aitisa_slice a bg sz st o E s <> Diverge) /\
  aitisa_duplicate a o E s <> Diverge /\
  (forall op, aitisa_binary_op op a b o E s <> Diverge) /\
  aitisa_sqrt a o E s <> Diverge /\
  aitisa_matmul a b o E s <> Diverge /\
  aitisa_dot a b o E s <> Diverge /\
  aitisa_relu a o E s <> Diverge /\
  aitisa_sigmoid a o E s <> Diverge /\
  aitisa_tanh a o E s <> Diverge /\
  (forall r, aitisa_dropout a r o E s <> Diverge) /\
  (forall axis, aitisa_softmax a axis o E s <> Diverge) /\
  (forall st pd dl g, aitisa_conv2d a b st pd dl g o E s <> Diverge) /\
  (forall st pd dl g, aitisa_conv3d a b st pd dl g o E s <> Diverge).
Proof. exact operations_terminate. Qed.
Print Assumptions C43_terminates.
(** Pooling's two while loops take exactly as many steps as the window has elements
    and the channel has outputs: with less fuel they do not finish, with that
    fuel they do (C41_average, C42_computes). *)
Theorem C43_average_steps : forall p T T3 nb nc sd ks ss ps ls o E s,
  wf s -> alloc_all E -> holds (heap s) p T ->
  a_dims T = nb :: nc :: sd -> (1 <= length sd <= 3)%nat -> win_ok sd ks ss ps ls ->
  0 < nb -> 0 < nc ->
  prodZ ks <= INT64_MAX -> prodZ (win_outs sd ks ss ps ls) <= INT_MAX ->
  (e_fuel E < Z.to_nat (prodZ ks) \/ e_fuel E < Z.to_nat (prodZ (win_outs sd ks ss ps ls)))%nat ->
  a_type T3 = a_type T -> a_dev T3 = a_dev T -> a_dims T3 = nb :: nc :: win_outs sd ks ss ps ls -> valid T3 ->
  (forall b c x, in_box (a_dims T3) (b :: c :: x) ->
     pool_avg (a_type T) (prodZ ks) (window T ks ss ps ls b c x) = Some (at_ T3 (b :: c :: x))) ->
  aitisa_pooling (HPtr p) PAvg ks ss ps ls o E s = Diverge.
Proof. exact (fun p T T3 nb nc sd ks ss ps ls o E s Hwf HE =>
  pooling_short PAvg p T T3 nb nc sd ks ss ps ls o E s Hwf HE ltac:(discriminate)). Qed.
Print Assumptions C43_average_steps.
Theorem C43_max_steps : forall p T T3 nb nc sd ks ss ps ls o E s,
  wf s -> alloc_all E -> holds (heap s) p T ->
  a_dims T = nb :: nc :: sd -> (1 <= length sd <= 3)%nat -> win_ok sd ks ss ps ls ->
  0 < nb -> 0 < nc ->
  prodZ ks <= INT64_MAX -> prodZ (win_outs sd ks ss ps ls) <= INT_MAX ->
  (e_fuel E < Z.to_nat (prodZ ks) \/ e_fuel E < Z.to_nat (prodZ (win_outs sd ks ss ps ls)))%nat ->
  a_type T3 = a_type T -> a_dev T3 = a_dev T -> a_dims T3 = nb :: nc :: win_outs sd ks ss ps ls -> valid T3 ->
  (forall b c x, in_box (a_dims T3) (b :: c :: x) ->
     pool_max0 (a_type T) (window T ks ss ps ls b c x) = Some (at_ T3 (b :: c :: x))) ->
  aitisa_pooling (HPtr p) PMax ks ss ps ls o E s = Diverge.
Proof. exact (fun p T T3 nb nc sd ks ss ps ls o E s Hwf HE =>
  pooling_short PMax p T T3 nb nc sd ks ss ps ls o E s Hwf HE ltac:(discriminate)). Qed.
Print Assumptions C43_max_steps.
(** The assumption of positive strides is needed. *)
Theorem C43_stride_needed : exists E s p T,
  wf s /\ alloc_all E /\ hooks_ok E /\ holds (heap s) p T /\ init T /\
  aitisa_pooling (HPtr p) PAvg [1] [0] [0] [1] HNull E s = UB UB_fconv.
Proof. exact pooling_zero_stride. Qed.
Print Assumptions C43_stride_needed.

Example C43_ex :
  aitisa_pooling (HPtr 0) PAvg [2; 2] [1; 1] [0; 0] [1; 1] HNull
    (Env (fun _ _ _ => true) 0 0 (fun _ => 0) (fun x => x) (fun _ => SUCCESS) 3) (fx [T_img]) = Diverge /\
  exists r s', aitisa_pooling (HPtr 0) PAvg [2; 2] [1; 1] [0; 0] [1; 1] HNull
    (Env (fun _ _ _ => true) 0 0 (fun _ => 0) (fun x => x) (fun _ => SUCCESS) 4) (fx [T_img]) = Done r s'.
Proof. split; [vm_compute; reflexivity|]. eexists _, _. vm_compute. reflexivity. Qed.
