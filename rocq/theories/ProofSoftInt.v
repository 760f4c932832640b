(** * ProofSoftInt: softmax of integers *)
From stdpp Require Import gmap list list_numbers.
From Coq Require Import ZArith Lia ZifyBool ZifyNat Reals Lra Floats.SpecFloat.
From Flocq Require Import Core IEEE754.BinarySingleNaN.
From Verif Require Import Base Mem Spec SpecReal SpecNN SpecError SpecSoft SpecExp SpecSoftInt.
From Verif Require Import ProofFloat ProofFloat2 ProofFloat3 ProofFloat4 ProofError ProofNN ProofSoft ProofExp ProofExp2 ProofExp3.
Open Scope Z_scope.

(** ** Integers as doubles *)
Lemma dbl_abs z : Z.abs z <= 2 ^ 64 -> is64 (dbl_of_Z z) (rnd F64 (IZR z)).
Proof.
  intros Hz. apply dbl_of_Z_rnd. change (rnd64 (IZR z)) with (rnd F64 (IZR z)).
  assert (fmt F64 (bpow radix2 64)) as Hf by (apply generic_format_bpow; vm_compute; discriminate).
  assert (- bpow radix2 64 <= IZR z <= bpow radix2 64)%R as [H1 H2].
  { rewrite bpow_IZR, <-opp_IZR by lia. split; apply IZR_le; lia. }
  apply Rle_lt_trans with (bpow radix2 64); [|by apply bpow_lt].
  apply Rabs_le. split.
  - rewrite <-(rnd_fmt F64 (- bpow radix2 64)) by by apply generic_format_opp. by apply rnd_le.
  - rewrite <-(rnd_fmt F64 (bpow radix2 64)) by done. by apply rnd_le.
Qed.
Lemma rnd_Z z : Z.abs z <= 2 ^ 53 -> rnd F64 (IZR z) = IZR z.
Proof. intros H. apply rnd_fmt. by apply int_format. Qed.

(** ** Exponentials of integers *)
Definition within (t : tcode) (z : Z) : Prop := tmin t <= z <= tmax t.
Lemma range_64 t z : is_float t = false -> within t z -> - 2 ^ 63 <= z < 2 ^ 64.
Proof.
  intros Ht [H1 H2].
  assert (- 2 ^ 63 <= tmin t) by (clear - Ht; destruct t; (discriminate Ht || (vm_compute; discriminate))).
  assert (tmax t < 2 ^ 64) by (clear - Ht; destruct t; (discriminate Ht || (vm_compute; reflexivity))). lia.
Qed.
Lemma limit_pos t : 0 <= exp_limit t <= 44. Proof. destruct t; cbn; lia. Qed.

Lemma limit_le t : is_float t = false -> (17 / 16 * exp (IZR (exp_limit t)) < IZR (tmax t))%R.
Proof.
  assert (forall z M, 0 <= z -> 17 * 27183 ^ z < 16 * M * 10000 ^ z -> (17 / 16 * exp (IZR z) < IZR M)%R) as H.
  { intros z M Hz Hc. rewrite exp_Z by done.
    assert (exp 1 * 10000 <= 27183)%R as H1 by (pose proof exp_1_le; lra).
    assert (0 <= exp 1 * 10000)%R as H0 by (pose proof (exp_pos 1); lra).
    pose proof (pow_incr _ _ (Z.to_nat z) (conj H0 H1)) as Hp.
    rewrite Rpow_mult_distr, !pow_Z in Hp by done.
    assert (0 < IZR (10000 ^ z))%R as Hpos by (apply IZR_lt; by apply Z.pow_pos_nonneg).
    apply IZR_lt in Hc. rewrite !mult_IZR in Hc.
    apply (Rmult_lt_reg_r (IZR (10000 ^ z))); [done|]. lra. }
  intros Ht. apply H; [apply limit_pos|]. clear - Ht; destruct t; (discriminate Ht || (vm_compute; reflexivity)).
Qed.
Lemma limit_gt t : is_float t = false -> (IZR (tmax t) + 2 <= 15 / 16 * exp (IZR (exp_limit t + 1)))%R.
Proof.
  assert (forall z M, 0 <= z -> 16 * (M + 2) * 10000 ^ z <= 15 * 27182 ^ z -> (IZR M + 2 <= 15 / 16 * exp (IZR z))%R) as H.
  { intros z M Hz Hc. rewrite exp_Z by done.
    assert (27182 <= exp 1 * 10000)%R as H1 by (pose proof exp_1_ge; lra).
    assert (0 <= 27182)%R as H0 by lra.
    pose proof (pow_incr _ _ (Z.to_nat z) (conj H0 H1)) as Hp.
    rewrite Rpow_mult_distr, !pow_Z in Hp by done.
    assert (0 < IZR (10000 ^ z))%R as Hpos by (apply IZR_lt; by apply Z.pow_pos_nonneg).
    apply IZR_le in Hc. rewrite !mult_IZR, plus_IZR in Hc.
    apply (Rmult_le_reg_r (IZR (10000 ^ z))); [done|]. lra. }
  intros Ht. apply H; [pose proof (limit_pos t); lia|]. clear - Ht; destruct t; (discriminate Ht || (vm_compute; discriminate)).
Qed.

Section exps.
Context (t : tcode) (Ht : is_float t = false) (ex : spec_float -> spec_float) (eps : R).
Context (Heps : (0 <= eps <= / 16)%R) (Hex : exp_close ex eps) (H0 : RV (ex (dbl_of_Z 0)) = 1%R).

Lemma of_double_big f : is_finite_SF f = true -> (IZR (tmax t) + 1 <= RV f)%R -> of_double t f = None.
Proof using Ht.
  intros Hf Hr. unfold of_double. rewrite Ht, (flt_trunc_ok f Hf).
  assert (0 <= tmax t) as Hp by (clear - Ht; destruct t; (discriminate Ht || (vm_compute; discriminate))).
  assert (tmax t + 1 <= Ztrunc (RV f)) as H.
  { rewrite <-(Ztrunc_IZR (tmax t + 1)), plus_IZR. apply Ztrunc_le. exact Hr. }
  unfold in_range. by replace ((tmin t <=? _) && _) with false by lia.
Qed.
Lemma of_double_fit f : is_finite_SF f = true -> (0 <= RV f <= IZR (tmax t))%R -> of_double t f = Some (VI (Zfloor (RV f))).
Proof using Ht.
  intros Hf Hr. unfold of_double. rewrite Ht, (flt_trunc_ok f Hf), Ztrunc_floor by lra.
  assert (tmin t <= 0) as Hp by (clear - Ht; destruct t; (discriminate Ht || (vm_compute; discriminate))).
  assert (0 <= Zfloor (RV f)) as H1 by (apply Zfloor_lub; lra).
  assert (Zfloor (RV f) <= tmax t) as H2 by (rewrite <-(Zfloor_IZR (tmax t)); apply Zfloor_le; lra).
  unfold in_range. by replace ((tmin t <=? _) && _) with true by lia.
Qed.

Lemma int_exp_spec z : within t z ->
  (z < 0 -> of_double t (ex (dbl_of_Z z)) = Some (VI 0)) /\
  (0 <= z <= exp_limit t -> exists w, of_double t (ex (dbl_of_Z z)) = Some (VI w) /\ 1 <= w <= tmax t) /\
  (exp_limit t < z -> of_double t (ex (dbl_of_Z z)) = None).
Proof using Ht Heps Hex H0.
  intros Hw. pose proof (range_64 t z Ht Hw) as Hz.
  pose proof (dbl_abs z ltac:(lia)) as Hd. pose proof (is64_finite _ _ Hd) as Fd.
  pose proof (is64_valid _ _ Hd) as Vd. pose proof (is64_R _ _ Hd) as Rd.
  set (d := dbl_of_Z z) in *. pose proof h64_small as Hh.
  assert (1 <= tmax t) as Hp by (clear - Ht; destruct t; (discriminate Ht || (vm_compute; discriminate))).
  pose proof (limit_pos t) as Hl. split_and!.
  - intros Hn. assert (RV d <= -1)%R as Hr.
    { rewrite Rd. rewrite <-(rnd_Z (-1)) by done. apply rnd_le. apply IZR_le. lia. }
    destruct (exp_in_range ex eps d Hex Vd Fd ltac:(lra)) as (Vv & Fv & Pv & Hv).
    pose proof (exp_incr _ _ Hr) as He. replace (-1)%R with (- (1))%R in He by ring. rewrite exp_Ropp in He.
    assert (/ exp 1 <= / 2)%R as He2 by (apply Rinv_le_contravar; [lra|pose proof exp_1_ge; lra]).
    pose proof (exp_pos (RV d)) as Hep. apply Rabs_le_inv in Hv.
    assert (RV (ex d) < 1)%R as Hlt by nra.
    rewrite of_double_fit; [|done|split; [done|]; apply IZR_le in Hp; lra].
    do 2 f_equal. apply Zfloor_imp. change (0 + 1) with 1. split; [exact Pv|exact Hlt].
  - intros Hn. assert (RV d = IZR z) as Hr by (rewrite Rd; apply rnd_Z; lia).
    destruct (exp_in_range ex eps d Hex Vd Fd) as (Vv & Fv & Pv & Hv).
    { rewrite Hr. apply (IZR_le z 709). lia. }
    rewrite Hr in Hv. apply Rabs_le_inv in Hv.
    assert (exp (IZR z) <= exp (IZR (exp_limit t)))%R as He by (apply exp_incr, IZR_le; lia).
    pose proof (limit_le t Ht) as HL. pose proof (exp_pos (IZR z)) as Hep.
    assert (1 <= exp (IZR z))%R as He1.
    { rewrite <-exp_0. apply exp_incr. apply (IZR_le 0). lia. }
    assert (exists M, IZR (tmax t) = M /\ (17 / 16 * exp (IZR (exp_limit t)) + h64 <= M)%R) as (M & HM & HML).
    { exists (IZR (tmax t)). split; [done|].
      destruct (Z.eq_dec (exp_limit t) 0) as [E0|]; [by destruct t|].
      assert (17 * 27183 ^ exp_limit t <= 16 * (tmax t - 1) * 10000 ^ exp_limit t) as Hc
        by (clear - Ht; destruct t; (discriminate Ht || (vm_compute; discriminate))).
      assert (17 / 16 * exp (IZR (exp_limit t)) <= IZR (tmax t - 1))%R as HZ.
      { rewrite exp_Z by lia.
        assert (exp 1 * 10000 <= 27183)%R as H1 by (pose proof exp_1_le; lra).
        assert (0 <= exp 1 * 10000)%R as H00 by (pose proof (exp_pos 1); lra).
        pose proof (pow_incr _ _ (Z.to_nat (exp_limit t)) (conj H00 H1)) as HP.
        rewrite Rpow_mult_distr, !pow_Z in HP by lia.
        assert (0 < IZR (10000 ^ exp_limit t))%R as Hpos by (apply IZR_lt; apply Z.pow_pos_nonneg; lia).
        apply IZR_le in Hc. rewrite !mult_IZR in Hc.
        apply (Rmult_le_reg_r (IZR (10000 ^ exp_limit t))); [done|]. lra. }
      rewrite minus_IZR in HZ. lra. }
    assert (RV (ex d) <= IZR (tmax t))%R as Hup by (rewrite HM; nra).
    rewrite of_double_fit by done. eexists. split; [done|].
    assert (1 <= RV (ex d))%R as Hlo.
    { destruct (Z.eq_dec z 0) as [->|Hz0]; [unfold d; lra|].
      assert (exp 1 <= exp (IZR z))%R by (apply exp_incr, (IZR_le 1); lia). pose proof exp_1_ge. nra. }
    split; [by apply Zfloor_lub|]. rewrite <-(Zfloor_IZR (tmax t)). by apply Zfloor_le.
  - intros Hn. assert (IZR (exp_limit t + 1) <= RV d)%R as Hr.
    { rewrite Rd. rewrite <-(rnd_Z (exp_limit t + 1)) by lia. apply rnd_le. apply IZR_le. lia. }
    destruct (proj1 Hex d Vd Fd) as (Vv & [(Fv & Pv & Hv)|(-> & _)]).
    2:{ unfold of_double. by rewrite Ht. }
    apply of_double_big; [done|]. apply Rabs_le_inv in Hv. pose proof (exp_incr _ _ Hr) as He.
    pose proof (limit_gt t Ht) as HL. pose proof (exp_pos (RV d)).
    assert (eps * exp (RV d) <= / 16 * exp (RV d))%R by (apply Rmult_le_compat_r; lra). lra.
Qed.
End exps.
