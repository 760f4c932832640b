(** * PropAcc: average pooling and batch normalisation are accurate (C67) *)
From stdpp Require Import gmap list list_numbers.
From Coq Require Import ZArith Lia Reals Lra Floats.SpecFloat.
From Flocq Require Import Core IEEE754.BinarySingleNaN.
From Verif Require Import Base Mem Spec SpecReal SpecNN SpecError SpecSoft SpecNorm SpecAcc ModelCore ModelBasic ModelMath ModelNN Logic.
From Verif Require Import ProofFloat2 ProofError ProofCore ProofCore2 ProofAcc3 Fixture RefuteConv RefuteNorm.
Open Scope Z_scope.

(** Every element of the average: close to the sum over the size of the window. *)
Theorem C67_average : forall p T nb nc sd ks ss ps ls E s o,
  wf s -> alloc_all E -> hooks_ok E -> holds (heap s) p T ->
  a_dims T = nb :: nc :: sd -> (1 <= length sd <= 3)%nat -> win_ok sd ks ss ps ls ->
  1 <= prodZ ks <= 2 ^ 53 -> prodZ (win_outs sd ks ss ps ls) <= INT_MAX ->
  (Z.to_nat (prodZ ks) <= e_fuel E)%nat -> (Z.to_nat (prodZ (win_outs sd ks ss ps ls)) <= e_fuel E)%nat ->
  fits (tsz (a_type T)) (nb :: nc :: win_outs sd ks ss ps ls) ->
  is_float (a_type T) = true -> init T ->
  exists T3, a_type T3 = a_type T /\ a_dev T3 = a_dev T /\
    a_dims T3 = nb :: nc :: win_outs sd ks ss ps ls /\ valid T3 /\
    (forall b c x, in_box (a_dims T3) (b :: c :: x) ->
       pool_accurate (a_type T) (prodZ ks) (window T ks ss ps ls b c x) (at_ T3 (b :: c :: x))) /\
    makes (aitisa_pooling (HPtr p) PAvg ks ss ps ls o) E s T3.
Proof. exact pooling_accurate. Qed.
Print Assumptions C67_average.
Theorem C67_average_bound : forall t m A, is_float t = true -> (0 <= A)%R -> Z.of_nat m < 2 ^ 52 ->
  (pool_error t m A <= (uround t + 3 * (INR m + 1) * uround F64) * A + 2 * tiny F64 + tiny t)%R.
Proof. exact pool_simple. Qed.
Print Assumptions C67_average_bound.

(** Every element of a batch normalisation: close to scale * (x - mean) / sqrt (variance + eps)
    + bias, for an eps that is at least the smallest normal number of the type. *)
Theorem C67_batch_norm : forall p pS pB pM pV T Sc Bi Me Va axis eps o E s,
  wf s -> alloc_all E -> hooks_ok E ->
  holds (heap s) p T -> holds (heap s) pS Sc -> holds (heap s) pB Bi -> holds (heap s) pM Me -> holds (heap s) pV Va ->
  is_float (a_type T) = true -> bn_ok T axis Sc Bi Me Va eps -> bn_sizes T axis ->
  valid_binary (fprec F64) (femax F64) eps = true ->
  Forall (fun U => dev_type (a_dev U) = 0 /\ init U) [T; Sc; Bi; Me; Va] ->
  Forall (bn_range (a_type T) eps) (a_vals Va) ->
  exists T3, a_type T3 = a_type T /\ a_dev T3 = a_dev T /\ a_dims T3 = a_dims T /\ valid T3 /\
    (forall c, in_box (a_dims T) c -> let k := chan axis c in
       bn_accurate (a_type T) eps (at_ Va [k]) (at_ Sc [k]) (at_ Bi [k]) (at_ Me [k]) (at_ T c) (at_ T3 c)) /\
    makes (aitisa_batch_norm (HPtr p) axis (HPtr pS) (HPtr pB) (HPtr pM) (HPtr pV) eps o) E s T3.
Proof. exact bn_all_accurate. Qed.
Print Assumptions C67_batch_norm.
Theorem C67_batch_norm_bound : forall t eps va sc bi me x, is_float t = true ->
  (bn_error t eps va sc bi me x <=
   7 * uround t * Rabs (val_real sc * bn_quot eps va me x) + uround t * Rabs (val_real bi) + 2 * (Rabs (val_real sc) + 1) * tiny t)%R.
Proof. exact bn_simple. Qed.
Print Assumptions C67_batch_norm_bound.
(** A smaller eps is rounded away: with a variance of 0 the results are NaN and infinity,
    though the formula gives 1 and a number below 2^111. *)
Theorem C67_small_eps_refuted : exists E s T Sc Bi Me Va eps,
  alloc_all E /\ hooks_ok E /\ bn_given s T Sc Bi Me Va /\ bn_ok T 1 Sc Bi Me Va eps /\ bn_sizes T 1 /\
  valid_binary (fprec F64) (femax F64) eps = true /\ is_finite_SF eps = true /\ (0 < RV eps)%R /\
  Forall (fun v => finite_val v /\ (0 <= val_real v)%R) (a_vals Va) /\
  bn_real eps (at_ Va [0]) (at_ Sc [0]) (at_ Bi [0]) (at_ Me [0]) (at_ T [0; 0]) = 1%R /\
  (0 < bn_real eps (at_ Va [1%Z]) (at_ Sc [1%Z]) (at_ Bi [1%Z]) (at_ Me [1%Z]) (at_ T [0%Z; 1%Z]) < bpow radix2 111)%R /\
  exists r s', aitisa_batch_norm (HPtr 0) 1 (HPtr 5) (HPtr 10) (HPtr 15) (HPtr 20) eps HNull E s = Done r s' /\
    peek E s' r = Some (SUCCESS, [1; 2], [VF S754_nan; VF (S754_infinity false)]).
Proof. exact bn_tiny_eps. Qed.
Print Assumptions C67_small_eps_refuted.

(** ** Instances *)
Definition T_fimg : atensor := AT F32 cpu [1; 1; 3; 3] (fl [1; -2; 3; 4; 5; 6; -7; 8; 9]).
Lemma T_fimg_valid : valid T_fimg. Proof. lit_valid. Qed.
Lemma fl_int z : Z.abs z <= 2 ^ 24 -> finite_val (VF (flt_of_Z F32 z)) /\ val_real (VF (flt_of_Z F32 z)) = IZR z.
Proof. intros H. destruct (flt_of_Z_exact F32 z H) as [F R]. split; [by eexists|exact R]. Qed.
Definition win4 : list val := fl [1; -2; 4; 5].
(** The first window 1 -2 4 5 is far from the end of the range, so its average is finite. *)
Example C67_average_ex :
  wf (fx [T_fimg]) /\ holds (heap (fx [T_fimg])) 0 T_fimg /\ init T_fimg /\ a_dims T_fimg = 1 :: 1 :: [3; 3] /\
  win_ok [3; 3] [2; 2] [1; 1] [0; 0] [1; 1] /\ 1 <= prodZ [2; 2] <= 2 ^ 53 /\
  win_outs [3; 3] [2; 2] [1; 1] [0; 0] [1; 1] = [2; 2] /\ fits (tsz F32) [1; 1; 2; 2] /\
  window T_fimg [2; 2] [1; 1] [0; 0] [1; 1] 0 0 [0; 0] = win4 /\
  Forall finite_val win4 /\ sum_real win4 = 8%R /\ abs_sum win4 = 12%R /\
  (abs_sum win4 * (1 + uround F64) ^ 4 < bpow radix2 1024)%R /\
  (abs_sum win4 / 4 + pool_error F32 4 (abs_sum win4 / 4) < bpow radix2 (femax F32))%R.
Proof.
  assert (abs_sum win4 = 12%R) as Hs.
  { change win4 with ((fun z => VF (flt_of_Z F32 z)) <$> [1; -2; 4; 5]).
    cbn [fmap list_fmap abs_sum foldr].
    destruct (fl_int 1 ltac:(lia)) as [_ ->], (fl_int (-2) ltac:(lia)) as [_ ->], (fl_int 4 ltac:(lia)) as [_ ->],
      (fl_int 5 ltac:(lia)) as [_ ->]. rewrite !Rabs_Zabs. change (Z.abs 1) with 1. change (Z.abs (-2)) with 2. change (Z.abs 4) with 4. change (Z.abs 5) with 5. lra. }
  assert (uround F64 <= / 64)%R as Hu. { unfold uround. change (/ 64)%R with (bpow radix2 (-6)). apply bpow_le. done. }
  pose proof (uround_pos F64). 
  assert ((1 + uround F64) ^ 4 <= 2)%R as Hp.
  { apply Rle_trans with ((1 + / 64) ^ 4)%R; [apply pow_incr; lra|]. lra. }
  split_and!; [apply fx_wf|exact (fx_holds [T_fimg] 0 T_fimg eq_refl T_fimg_valid)|lit_init|done
    |cbn; unfold win_ok1; lims; lia|vm_compute; done|vm_compute; done|done|vm_compute; repeat constructor; discriminate
    |vm_compute; reflexivity| | |exact Hs| |].
  - repeat constructor; by eexists.
  - change win4 with ((fun z => VF (flt_of_Z F32 z)) <$> [1; -2; 4; 5]).
    cbn [fmap list_fmap sum_real foldr].
    destruct (fl_int 1 ltac:(lia)) as [_ ->], (fl_int (-2) ltac:(lia)) as [_ ->], (fl_int 4 ltac:(lia)) as [_ ->],
      (fl_int 5 ltac:(lia)) as [_ ->]. lra.
  - rewrite Hs. apply Rle_lt_trans with 24%R; [lra|]. apply Rlt_le_trans with (bpow radix2 5); [change (bpow radix2 5) with 32%R; lra|apply bpow_le; lia].
  - rewrite Hs. eapply Rle_lt_trans; [apply Rplus_le_compat_l, C67_average_bound; [done|lra|lia]|].
    assert (uround F32 <= / 64)%R as Hu2. { unfold uround. change (/ 64)%R with (bpow radix2 (-6)). apply bpow_le. done. }
    assert (tiny F64 <= 1)%R. { change 1%R with (bpow radix2 0). apply bpow_le. done. }
    assert (tiny F32 <= 1)%R. { change 1%R with (bpow radix2 0). apply bpow_le. done. }
    apply Rlt_le_trans with (bpow radix2 5); [|apply bpow_le; done]. change (bpow radix2 5) with 32%R. cbn [INR]. lra.
Qed.
Example C67_average_run : exists r s',
  aitisa_pooling (HPtr 0) PAvg [2; 2] [1; 1] [0; 0] [1; 1] HNull E0 (fx [T_fimg]) = Done r s' /\
  peek E0 s' r = Some (SUCCESS, [1; 1; 2; 2], fl [2; 3] ++ [VF (S754_finite false 10485760 (-22)); VF (S754_finite false 14680064 (-21))]).
Proof. apply run_ex. vm_compute. reflexivity. Qed.
(** eps = 2^-17, variances 4 and 9 *)
Definition eps17 : spec_float := S754_finite false (2 ^ 52) (-69).
Example C67_batch_norm_ex :
  bn_given (fx [T_bn; T_sc; T_bi; T_me; T_va]) T_bn T_sc T_bi T_me T_va /\
  bn_ok T_bn 1 T_sc T_bi T_me T_va eps17 /\ bn_sizes T_bn 1 /\
  valid_binary (fprec F64) (femax F64) eps17 = true /\ Forall (bn_range F32 eps17) (a_vals T_va).
Proof.
  split_and!; [exact bn_fx|bok 2| |done|].
  - split_and!; [by repeat constructor|by repeat constructor|cbn; lia].
  - assert (RV eps17 = bpow radix2 (-17)) as He.
    { unfold RV, eps17. cbn [SF2R cond_Zopp]. unfold F2R. cbn [Fnum Fexp].
      change (IZR (Z.pos (2 ^ 52))) with (bpow radix2 52). rewrite <-bpow_plus. reflexivity. }
    assert (bpow radix2 (-17) <= 1)%R. { change 1%R with (bpow radix2 0). apply bpow_le. done. }
    assert (uround F32 <= / 64)%R as Hu. { unfold uround. change (/ 64)%R with (bpow radix2 (-6)). apply bpow_le. done. }
    pose proof (uround_pos F32). pose proof (bpow_ge_0 radix2 (-17)).
    assert ((1 + uround F32) ^ 2 <= 2)%R as Hp by nra.
    change (a_vals T_va) with ((fun z => VF (flt_of_Z F32 z)) <$> [4; 9]). apply Forall_fmap, Forall_forall. intros z Hz.
    assert (0 <= z <= 10) as Hr by (rewrite !elem_of_cons, elem_of_nil in Hz; lia). unfold compose.
    destruct (fl_int z ltac:(lia)) as [F R]. unfold bn_range. rewrite R, He.
    assert (IZR 0 <= IZR z <= IZR 10)%R as Hz2 by (split; apply IZR_le; lia).
    split_and!; [done|apply bpow_le; done|exact F|lra|].
    apply Rlt_le_trans with (bpow radix2 5); [|apply bpow_le; done]. change (bpow radix2 5) with 32%R. nra.
Qed.
