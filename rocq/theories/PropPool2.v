(** * PropPool2: pooling is defined exactly when every result fits the element type (C41, C42) *)
From stdpp Require Import gmap list.
From Coq Require Import ZArith Lia Floats.SpecFloat.
From Verif Require Import Base Mem Spec SpecNN ModelCore ModelNN Logic ProofCore ProofPool4 RefuteConv Fixture.
Open Scope Z_scope.

Theorem C41_exact : forall p T nb nc sd ks ss ps ls o E s,
  wf s -> alloc_all E -> hooks_ok E -> holds (heap s) p T -> init T ->
  a_dims T = nb :: nc :: sd -> (1 <= length sd <= 3)%nat -> win_ok sd ks ss ps ls ->
  prodZ ks <= INT64_MAX -> prodZ (win_outs sd ks ss ps ls) <= INT_MAX ->
  (Z.to_nat (prodZ ks) <= e_fuel E)%nat -> (Z.to_nat (prodZ (win_outs sd ks ss ps ls)) <= e_fuel E)%nat ->
  fits (tsz (a_type T)) (nb :: nc :: win_outs sd ks ss ps ls) ->
  ((forall b c x, in_box (nb :: nc :: win_outs sd ks ss ps ls) (b :: c :: x) ->
      pool_avg (a_type T) (prodZ ks) (window T ks ss ps ls b c x) <> None) ->
   exists T3, a_type T3 = a_type T /\ a_dev T3 = a_dev T /\
     a_dims T3 = nb :: nc :: win_outs sd ks ss ps ls /\ valid T3 /\
     (forall b c x, in_box (a_dims T3) (b :: c :: x) ->
        pool_avg (a_type T) (prodZ ks) (window T ks ss ps ls b c x) = Some (at_ T3 (b :: c :: x))) /\
     makes (aitisa_pooling (HPtr p) PAvg ks ss ps ls o) E s T3) /\
  ((exists b c x, in_box (nb :: nc :: win_outs sd ks ss ps ls) (b :: c :: x) /\
      pool_avg (a_type T) (prodZ ks) (window T ks ss ps ls b c x) = None) ->
   aitisa_pooling (HPtr p) PAvg ks ss ps ls o E s = UB UB_fconv).
Proof.
  intros p T nb nc sd ks ss ps ls o E s Hwf HE HH HT Hin Hdim Hrank Hok Hks Hos Hf1 Hf2 Hfit. split.
  - exact (pooling_defined PAvg p T nb nc sd ks ss ps ls o E s Hwf HE HH HT Hdim Hrank Hok Hks Hos Hf1 Hf2 Hfit).
  - exact (pooling_stuck PAvg p T nb nc sd ks ss ps ls o E s Hwf HE HT Hin Hdim Hrank Hok Hks Hos Hf1 Hf2 Hfit).
Qed.
Print Assumptions C41_exact.
Theorem C42_exact : forall p T nb nc sd ks ss ps ls o E s,
  wf s -> alloc_all E -> hooks_ok E -> holds (heap s) p T -> init T ->
  a_dims T = nb :: nc :: sd -> (1 <= length sd <= 3)%nat -> win_ok sd ks ss ps ls ->
  prodZ ks <= INT64_MAX -> prodZ (win_outs sd ks ss ps ls) <= INT_MAX ->
  (Z.to_nat (prodZ ks) <= e_fuel E)%nat -> (Z.to_nat (prodZ (win_outs sd ks ss ps ls)) <= e_fuel E)%nat ->
  fits (tsz (a_type T)) (nb :: nc :: win_outs sd ks ss ps ls) ->
  ((forall b c x, in_box (nb :: nc :: win_outs sd ks ss ps ls) (b :: c :: x) ->
      pool_max0 (a_type T) (window T ks ss ps ls b c x) <> None) ->
   exists T3, a_type T3 = a_type T /\ a_dev T3 = a_dev T /\
     a_dims T3 = nb :: nc :: win_outs sd ks ss ps ls /\ valid T3 /\
     (forall b c x, in_box (a_dims T3) (b :: c :: x) ->
        pool_max0 (a_type T) (window T ks ss ps ls b c x) = Some (at_ T3 (b :: c :: x))) /\
     makes (aitisa_pooling (HPtr p) PMax ks ss ps ls o) E s T3) /\
  ((exists b c x, in_box (nb :: nc :: win_outs sd ks ss ps ls) (b :: c :: x) /\
      pool_max0 (a_type T) (window T ks ss ps ls b c x) = None) ->
   aitisa_pooling (HPtr p) PMax ks ss ps ls o E s = UB UB_fconv).
Proof.
  intros p T nb nc sd ks ss ps ls o E s Hwf HE HH HT Hin Hdim Hrank Hok Hks Hos Hf1 Hf2 Hfit. split.
  - exact (pooling_defined PMax p T nb nc sd ks ss ps ls o E s Hwf HE HH HT Hdim Hrank Hok Hks Hos Hf1 Hf2 Hfit).
  - exact (pooling_stuck PMax p T nb nc sd ks ss ps ls o E s Hwf HE HT Hin Hdim Hrank Hok Hks Hos Hf1 Hf2 Hfit).
Qed.
Print Assumptions C42_exact.

(** int64: windows 1 2, 2 INT64_MAX and INT64_MAX - 1, INT64_MAX.  The last average and the
    last two maxima are 2^63 in double. *)
Definition T_p64 : atensor := AT I64 cpu [1; 1; 4] [VI 1; VI 2; VI (2 ^ 63 - 2); VI (2 ^ 63 - 1)].
Lemma T_p64_valid : valid T_p64. Proof. lit_valid. Qed.
Example C41_exact_ex : wf (fx [T_p64]) /\ holds (heap (fx [T_p64])) 0 T_p64 /\ init T_p64 /\
  win_ok [4] [2] [1] [0] [1] /\ win_outs [4] [2] [1] [0] [1] = [3] /\ fits (tsz I64) [1; 1; 3] /\
  (pool_avg I64 2 <$> (window T_p64 [2] [1] [0] [1] 0 0 <$> [[0]; [1]; [2]]))
  = [Some (VI 1); Some (VI (2 ^ 62)); None] /\
  (pool_max0 I64 <$> (window T_p64 [2] [1] [0] [1] 0 0 <$> [[0]; [1]; [2]]))
  = [Some (VI 2); None; None].
Proof.
  split_and!; [apply fx_wf|exact (fx_holds [T_p64] 0 T_p64 eq_refl T_p64_valid)| | |done| |vm_compute; reflexivity|vm_compute; reflexivity].
  - repeat constructor; vm_compute; discriminate.
  - cbn. unfold win_ok1. lims. lia.
  - vm_compute. repeat constructor; discriminate.
Qed.
Example C41_exact_run : aitisa_pooling (HPtr 0) PAvg [2] [1] [0] [1] HNull E0 (fx [T_p64]) = UB UB_fconv /\
  aitisa_pooling (HPtr 0) PMax [2] [1] [0] [1] HNull E0 (fx [T_p64]) = UB UB_fconv.
Proof. split; vm_compute; reflexivity. Qed.
Example C41_exact_stride : exists r s',
  aitisa_pooling (HPtr 0) PAvg [2] [3] [0] [1] HNull E0 (fx [T_p64]) = Done r s' /\
  peek E0 s' r = Some (SUCCESS, [1; 1; 1], [VI 1]).
Proof. apply run_ex. vm_compute. reflexivity. Qed.
