(** * ProofRoot2: exactly when the square root of a 64-bit integer is one too large *)
From stdpp Require Import gmap list.
From Coq Require Import ZArith Lia Reals Lra Floats.SpecFloat.
From Flocq Require Import Core IEEE754.BinarySingleNaN Relative.
From Verif Require Import Base Mem Spec SpecReal SpecScale SpecExact SpecRoot ModelCore ModelMath Logic ProofCore
  ProofFloat ProofFloat2 ProofFloat3 ProofSqrt ProofScale ProofRoot.
Open Scope Z_scope.

(** The double below the integer [y]. *)
Lemma pred_int y k : 0 <= k <= 32 -> 2 ^ k < y <= 2 ^ (k + 1) ->
  generic_format radix2 (SpecFloat.fexp 53 1024) (IZR y) /\
  pred radix2 (SpecFloat.fexp 53 1024) (IZR y) = (IZR y - bpow radix2 (k - 52))%R.
Proof.
  intros Hk Hy.
  assert (2 ^ (k + 1) <= 2 ^ 33) as Hb by (apply Z.pow_le_mono_r; lia).
  assert (0 < 2 ^ k) as Hk0 by (apply Z.pow_pos_nonneg; lia).
  assert (generic_format radix2 (SpecFloat.fexp 53 1024) (IZR y)) as Hf by (apply int_format; lia).
  split; [done|].
  assert (IZR y <> 0)%R as Hnz by (apply not_0_IZR; lia).
  assert (0 <= IZR y)%R as Hm0 by (apply IZR_le; lia).
  rewrite pred_eq_pos by done. unfold pred_pos.
  destruct (Z.eq_dec y (2 ^ (k + 1))) as [->|Hne].
  - rewrite <-bpow_IZR by lia. rewrite mag_bpow.
    rewrite Req_bool_true by (f_equal; lia). f_equal. f_equal.
    unfold SpecFloat.fexp, SpecFloat.emin. lia.
  - assert (mag radix2 (IZR y) = (k + 1) :> Z) as Hmag.
    { apply mag_unique_pos. rewrite !bpow_IZR by lia. replace (k + 1 - 1) with k by lia.
      split; [apply IZR_le; lia|apply IZR_lt; lia]. }
    rewrite Hmag. rewrite Req_bool_false.
    + rewrite ulp_neq_0 by done. unfold cexp. rewrite Hmag. f_equal. f_equal.
      unfold SpecFloat.fexp, SpecFloat.emin. lia.
    + rewrite bpow_IZR by lia. replace (k + 1 - 1) with k by lia. intros H%eq_IZR. lia.
Qed.

Lemma pow_scale k : 0 <= k <= 32 -> (bpow radix2 (k - 52) * IZR (2 ^ 52) = IZR (2 ^ k))%R.
Proof.
  intros Hk. rewrite <-(bpow_IZR 52), <-(bpow_IZR k) by lia. rewrite <-bpow_plus. f_equal. lia.
Qed.

(** Rounding the root of the integer [w] reaches [y]. *)
Lemma root_reaches y k w : 0 <= k <= 32 -> 2 ^ k < y <= 2 ^ (k + 1) -> 0 <= w ->
  ((y * y - w) * 2 ^ 52 < y * 2 ^ k -> (IZR y <= rnd64 (sqrt (IZR w)))%R) /\
  (y * 2 ^ k <= (y * y - w) * 2 ^ 52 -> (rnd64 (sqrt (IZR w)) < IZR y)%R).
Proof.
  intros Hk Hy Hw. destruct (pred_int y k Hk Hy) as [Hf Hp].
  pose proof fexp64_valid as Hval. pose proof (pow_scale k Hk) as Hsc.
  assert (0 < 2 ^ k) as Hk0 by (apply Z.pow_pos_nonneg; lia).
  set (h := bpow radix2 (k - 52)) in *.
  assert (0 < h)%R as Hh0 by apply bpow_gt_0.
  assert (h <= 1)%R as Hh1.
  { change 1%R with (bpow radix2 0). apply bpow_le. lia. }
  assert (2 <= IZR y)%R as Hy2 by (apply IZR_le; lia).
  assert (0 <= IZR w)%R as Hw0 by (apply IZR_le; lia).
  assert (sqrt (IZR w) * sqrt (IZR w) = IZR w)%R as Hqq by now apply sqrt_sqrt.
  assert (0 <= sqrt (IZR w))%R as Hq0 by apply sqrt_pos.
  set (q := sqrt (IZR w)) in *.
  assert (0 < IZR (2 ^ 52))%R as Hpos by (apply IZR_lt; lia).
  split; intros Hc.
  - apply round_N_ge_midp; [done|done|]. rewrite Hp.
    assert ((y * y - w) * 2 ^ 52 <= (y - 1) * 2 ^ k) as Hi.
    { assert ((y * y - w) * 2 ^ 52 = (y * y - w) * 2 ^ (52 - k) * 2 ^ k) as He.
      { rewrite <-Z.mul_assoc, <-Z.pow_add_r by lia. do 2 f_equal. lia. }
      rewrite He in Hc |- *. apply Zmult_lt_reg_r in Hc; [|done].
      apply Z.mul_le_mono_nonneg_r; lia. }
    apply IZR_le in Hi. rewrite !mult_IZR, !minus_IZR, mult_IZR, <-Hsc in Hi.
    assert (IZR y * IZR y - IZR w <= (IZR y - 1) * h)%R as Hi2.
    { apply Rmult_le_reg_r with (IZR (2 ^ 52)); [done|]. lra. }
    assert (IZR y - h / 2 < q)%R; [|lra].
    apply Rnot_le_lt. intros Hle.
    assert (q * q <= (IZR y - h / 2) * (IZR y - h / 2))%R as Hsq by (apply Rmult_le_compat; lra).
    rewrite Hqq in Hsq. assert (h * h <= h * 1)%R by (apply Rmult_le_compat_l; lra). lra.
  - apply IZR_le in Hc. rewrite !mult_IZR, !minus_IZR, mult_IZR, <-Hsc in Hc.
    assert (IZR y * h <= IZR y * IZR y - IZR w)%R as Hc2.
    { apply Rmult_le_reg_r with (IZR (2 ^ 52)); [done|]. lra. }
    apply Rle_lt_trans with (IZR y - h)%R; [|lra]. rewrite <-Hp.
    apply round_N_le_midp; [done|now apply generic_format_pred|].
    rewrite succ_pred by done. rewrite Hp.
    assert (q < IZR y - h / 2)%R; [|lra].
    apply Rnot_le_lt. intros Hle.
    assert ((IZR y - h / 2) * (IZR y - h / 2) <= q * q)%R as Hsq by (apply Rmult_le_compat; lra).
    rewrite Hqq in Hsq. assert (0 < h * h)%R by (apply Rmult_lt_0_compat; lra). lra.
Qed.

Lemma sqrt_int_exact z : 0 <= z < 2 ^ 64 -> rounded_root z (Ztrunc (rnd64 (sqrt (rnd64 (IZR z))))).
Proof.
  intros Hz. destruct (sqrt_int_off z Hz) as [Hy _]. cbv zeta in Hy.
  pose proof (Z.sqrt_spec z ltac:(lia)) as Hs. cbv zeta in Hs. unfold Z.succ in Hs.
  pose proof (Z.sqrt_nonneg z) as Hn0.
  destruct (round_int z) as (w & Hw). exists w. split; [done|]. cbv zeta.
  unfold nearest_double in Hw. rewrite rnd_rnd64 in Hw. rewrite <-Hw in *.
  assert (0 <= w) as Hw0.
  { apply le_IZR. rewrite Hw. apply rnd64_nonneg. apply IZR_le. lia. }
  set (n := Z.sqrt z) in *. set (y := Ztrunc _) in *.
  assert (n < 2 ^ 32) as Hn1.
  { apply Z.nle_gt. intros H. assert (2 ^ 32 * 2 ^ 32 <= n * n) by (apply Z.mul_le_mono_nonneg; lia). lia. }
  destruct (Z.eq_dec n 0) as [Hn|Hn].
  { assert (z = 0) as -> by nia. rewrite (rnd64_int 0) in Hw by lia. apply eq_IZR in Hw as ->.
    right. rewrite Hn. split; [vm_compute; discriminate|]. unfold y.
    rewrite sqrt_0, (rnd64_int 0) by lia. apply Ztrunc_IZR. }
  pose proof (Z.log2_spec n ltac:(lia)) as Hk. unfold Z.succ in Hk.
  assert (0 <= Z.log2 n) as Hk0 by apply Z.log2_nonneg.
  assert (Z.log2 n <= 32) as Hk1.
  { change 32 with (Z.log2 (2 ^ 32)). apply Z.log2_le_mono. lia. }
  destruct (root_reaches (n + 1) (Z.log2 n) w ltac:(lia) ltac:(lia) Hw0) as [Hr1 Hr2].
  assert (y = Zfloor (rnd64 (sqrt (IZR w)))) as Hyf.
  { unfold y. apply Ztrunc_floor. apply rnd64_nonneg, sqrt_pos. }
  destruct (Z_lt_le_dec (((n + 1) * (n + 1) - w) * 2 ^ 52) ((n + 1) * 2 ^ Z.log2 n)) as [Hc|Hc]; [left|right];
    (split; [done|]).
  - specialize (Hr1 Hc). apply Zfloor_le in Hr1. rewrite Zfloor_IZR in Hr1. lia.
  - specialize (Hr2 Hc).
    assert (IZR y < IZR (n + 1))%R as H.
    { eapply Rle_lt_trans; [|exact Hr2]. rewrite Hyf. apply Zfloor_lb. }
    apply lt_IZR in H. lia.
Qed.

(** How far the nearest double may be. *)
Lemma nearest_error z w e : 54 <= e -> 0 < z < 2 ^ e -> nearest_double z w -> Z.abs (w - z) <= 2 ^ (e - 54).
Proof.
  intros He Hz Hw. unfold nearest_double in Hw. rewrite rnd_rnd64 in Hw.
  apply le_IZR. rewrite abs_IZR, minus_IZR, Hw, <-bpow_IZR by lia.
  pose proof fexp64_valid as Hval.
  eapply Rle_trans; [apply error_le_half_ulp; done|].
  assert (IZR z <> 0)%R as Hnz by (apply not_0_IZR; lia).
  rewrite ulp_neq_0 by done.
  assert (mag radix2 (IZR z) <= e) as Hm.
  { apply mag_le_bpow; [done|]. rewrite <-abs_IZR, bpow_IZR by lia. apply IZR_lt. lia. }
  assert (bpow radix2 (cexp radix2 (SpecFloat.fexp 53 1024) (IZR z)) <= bpow radix2 (e - 53))%R as Hb.
  { apply bpow_le. unfold cexp, SpecFloat.fexp, SpecFloat.emin. lia. }
  replace (e - 53) with (1 + (e - 54)) in Hb by lia. rewrite bpow_plus in Hb.
  change (bpow radix2 1) with 2%R in Hb. lra.
Qed.
Lemma nearest_even z w : 2 ^ 53 < z < 2 ^ 54 -> nearest_double z w -> w = 2 * ZnearestE (IZR z / 2).
Proof.
  intros Hz Hw. unfold nearest_double in Hw. rewrite rnd_rnd64 in Hw. apply eq_IZR. rewrite Hw, mult_IZR.
  assert (mag radix2 (IZR z) = 54 :> Z) as Hm.
  { apply mag_unique_pos. rewrite !bpow_IZR by lia. split; [apply IZR_le|apply IZR_lt]; change (54 - 1) with 53; lia. }
  unfold rnd64, round, scaled_mantissa, cexp. rewrite Hm. unfold Defs.F2R. cbn [Defs.Fnum Defs.Fexp].
  change (SpecFloat.fexp 53 1024 54) with 1. change (bpow radix2 1) with 2%R. change (bpow radix2 (- (1))) with (/ 2)%R.
  unfold Rdiv. lra.
Qed.
Lemma nearest_below_square m w : 2 ^ 53 < m * m - 1 < 2 ^ 54 -> nearest_double (m * m - 1) w -> m * m - 1 <= w.
Proof.
  intros Hm Hw. rewrite (nearest_even _ _ Hm Hw).
  destruct (Z.Even_or_Odd m) as [[i ->]|[i ->]].
  - assert (IZR (2 * i * (2 * i) - 1) / 2 = IZR (2 * (i * i)) - / 2)%R as ->.
    { rewrite minus_IZR, !mult_IZR. lra. }
    assert (Zfloor (IZR (2 * (i * i)) - / 2) = 2 * (i * i) - 1) as Hf.
    { apply Zfloor_imp. rewrite plus_IZR, !minus_IZR. lra. }
    assert (Zceil (IZR (2 * (i * i)) - / 2) = 2 * (i * i)) as Hc.
    { apply Zceil_imp. rewrite minus_IZR. lra. }
    unfold Znearest. rewrite Hf, Hc. rewrite minus_IZR.
    rewrite Rcompare_Eq by lra.
    replace (Z.even (2 * (i * i) - 1)) with false; [cbn [negb]; lia|].
    replace (2 * (i * i) - 1) with (1 + 2 * (i * i - 1)) by lia. by rewrite Z.even_add_mul_2.
  - replace (IZR ((2 * i + 1) * (2 * i + 1) - 1) / 2)%R with (IZR (2 * i * i + 2 * i)).
    + rewrite Zrnd_IZR by apply valid_rnd_N. lia.
    + replace ((2 * i + 1) * (2 * i + 1) - 1) with (2 * (2 * i * i + 2 * i)) by lia. rewrite (mult_IZR 2). lra.
Qed.

(** One below the square of any integer above 2^26 the root is wrong. *)
Lemma root_wrong m y : 2 ^ 26 < m <= 2 ^ 32 -> rounded_root (m * m - 1) y -> y = m.
Proof.
  intros Hm (w & Hw & Hy). cbv zeta in Hy.
  assert (Z.sqrt (m * m - 1) = m - 1) as Hn.
  { apply Z.sqrt_unique. unfold Z.succ. nia. }
  rewrite Hn in Hy. replace (m - 1 + 1) with m in Hy by lia.
  destruct Hy as [[_ H]|[Hc _]]; [done|]. exfalso.
  pose proof (Z.log2_spec (m - 1) ltac:(lia)) as Hk. unfold Z.succ in Hk.
  set (k := Z.log2 (m - 1)) in *.
  assert (26 <= k) as Hk1.
  { change 26 with (Z.log2 (2 ^ 26)). apply Z.log2_le_mono. lia. }
  assert (k < 32) as Hk2.
  { apply Z.log2_lt_pow2; lia. }
  assert (0 < 2 ^ k) as Hp0 by (apply Z.pow_pos_nonneg; lia).
  rewrite Z.pow_add_r in Hk by lia. change (2 ^ 1) with 2 in Hk.
  destruct (Z.eq_dec k 26) as [->|Hk3].
  { assert (m * m - 1 <= w) as Hl.
    { destruct (Z_le_gt_dec (m * m - 1) (2 ^ 53)) as [Hs|Hs].
      - assert (w = m * m - 1) as ->; [|lia]. eapply nearest_unique; [done|]. apply nearest_small. nia.
      - apply nearest_below_square; [|done]. nia. }
    nia. }
  assert (1 < m * m) as Hmm by nia.
  assert (2 ^ 54 <= 2 ^ k * 2 ^ k) as Hb.
  { rewrite <-Z.pow_add_r by lia. apply Z.pow_le_mono_r; lia. }
  destruct (Z_lt_le_dec (m * m - 1) (2 ^ (2 * k + 1))) as [Hz|Hz].
  - pose proof (nearest_error (m * m - 1) w (2 * k + 1) ltac:(lia) ltac:(lia) Hw) as He.
    assert (2 ^ (2 * k + 1 - 54) * 2 ^ 53 = 2 ^ k * 2 ^ k) as Hpp.
    { rewrite <-!Z.pow_add_r by lia. f_equal. lia. }
    set (P := 2 ^ k) in *. set (Q := 2 ^ (2 * k + 1 - 54)) in *. clearbody P Q. 
    assert (P * P < m * P) by (apply Z.mul_lt_mono_pos_r; lia).
    assert (m * m - w <= Q + 1) by lia. nia.
  - pose proof (nearest_error (m * m - 1) w (2 * k + 2) ltac:(lia)) as He.
    assert (2 ^ (2 * k + 2) = 4 * (2 ^ k * 2 ^ k)) as Hp4.
    { rewrite <-Z.pow_add_r by lia. change 4 with (2 ^ 2). rewrite <-Z.pow_add_r by lia. f_equal. lia. }
    assert (m * m <= (2 * 2 ^ k) * (2 * 2 ^ k)) as Hm4 by (apply Z.mul_le_mono_nonneg; lia).
    specialize (He ltac:(lia) Hw).
    assert (2 ^ (2 * k + 2 - 54) * 2 ^ 52 = 2 ^ k * 2 ^ k) as Hpp.
    { rewrite <-!Z.pow_add_r by lia. f_equal. lia. }
    assert (2 ^ (2 * k + 1) = 2 * (2 ^ k * 2 ^ k)) as Hp2.
    { rewrite <-Z.pow_add_r by lia. change 2 with (2 ^ 1) at 3. rewrite <-Z.pow_add_r by lia. f_equal. lia. }
    set (P := 2 ^ k) in *. set (Q := 2 ^ (2 * k + 2 - 54)) in *. rewrite Hp2 in Hz. clear Hp2 Hp4. clearbody P Q.
    assert (m * m - w <= Q + 1) by lia.
    assert (m * P <= P * P + 2 ^ 52) as Hle by lia.
    assert (4 * (m * P) <= 5 * (P * P)) by lia.
    assert (4 * m <= 5 * P) by nia. nia.
Qed.

(** The whole operation. *)
Lemma sqrt_exact p T o E s :
  wf s -> holds (heap s) p T -> init T -> is_float (a_type T) = false ->
  Forall (fun v => ~ negative v) (a_vals T) ->
  exists ys, Forall2 (fun v y => exists z, v = VI z /\ rounded_root z y) (a_vals T) ys /\
  makes_or_nomem (aitisa_sqrt (HPtr p) o) E s o (AT (a_type T) (a_dev T) (a_dims T) (VI <$> ys)).
Proof.
  intros Hwf HT Hin Hf Hz.
  destruct (sqrt_ok p T o E s Hwf HT Hin Hz) as (ws & Hws & Hm).
  assert (exists ys, ws = VI <$> ys /\ Forall2 (fun v y => exists z, v = VI z /\ rounded_root z y) (a_vals T) ys)
    as (ys & -> & Hys); [|eauto].
  assert (Forall (val_ok (a_type T)) (a_vals T)) as Hok by apply Hin.
  clear Hm Hin HT. revert Hok Hz. induction Hws as [|v w vs ws Hw Hws IH]; intros Hok Hz.
  { exists []; split; constructor. }
  apply Forall_cons in Hok as [Hv Hvs]. apply Forall_cons in Hz as [Hn Hns].
  destruct (IH Hvs Hns) as (ys & -> & Hys).
  destruct v as [z|f|]; [|destruct Hv as [Hv _]; congruence|destruct Hv].
  destruct Hw as (y & [= ->] & _ & Hy & _). cbn in Hn.
  exists (y :: ys). split; [done|]. constructor; [|done]. exists z. split; [done|].
  assert (0 <= z < 2 ^ 64) as Hz.
  { destruct Hv as [_ Hv]. revert Hv. unfold tmin, tmax, bits. destruct (a_type T); try done; cbn; lia. }
  rewrite Hy. exact (sqrt_int_exact z Hz).
Qed.
Lemma rounded_root_unique z y y' : rounded_root z y -> rounded_root z y' -> y = y'.
Proof.
  intros (w & Hw & H) (w' & Hw' & H'). rewrite (nearest_unique _ _ _ Hw' Hw) in H'. cbv zeta in H, H'. lia.
Qed.
Lemma root_right z y : 0 <= z < 2 ^ 52 -> rounded_root z y -> y = Z.sqrt z.
Proof.
  intros Hz (w & Hw & Hy). cbv zeta in Hy.
  assert (w = z) as ->.
  { eapply nearest_unique; [done|]. apply nearest_small. lia. }
  destruct Hy as [[Hc _]|[_ H]]; [|done]. exfalso.
  pose proof (Z.sqrt_spec z ltac:(lia)) as Hs. cbv zeta in Hs. unfold Z.succ in Hs.
  pose proof (Z.sqrt_nonneg z) as Hn0. set (n := Z.sqrt z) in *.
  assert (n < 2 ^ 26) as Hn1.
  { apply Z.nle_gt. intros H. assert (2 ^ 26 * 2 ^ 26 <= n * n) by (apply Z.mul_le_mono_nonneg; lia). lia. }
  assert (2 ^ Z.log2 n <= 2 ^ 26) as Hl.
  { apply Z.pow_le_mono_r; [lia|]. change 26 with (Z.log2 (2 ^ 26)). apply Z.log2_le_mono. lia. }
  assert (0 < 2 ^ Z.log2 n) by (apply Z.pow_pos_nonneg; [lia|apply Z.log2_nonneg]).
  assert ((n + 1) * 2 ^ Z.log2 n <= 2 ^ 26 * 2 ^ 26) by (apply Z.mul_le_mono_nonneg; lia). lia.
Qed.
Lemma root_facts :
  (forall z y y', rounded_root z y -> rounded_root z y' -> y = y') /\
  (forall z y, 0 <= z < 2 ^ 52 -> rounded_root z y -> y = Z.sqrt z) /\
  (forall m y, 2 ^ 26 < m <= 2 ^ 32 -> rounded_root (m * m - 1) y -> y = m).
Proof. split_and!; [exact rounded_root_unique|exact root_right|exact root_wrong]. Qed.
Lemma sqrt_wrong p T o E s i m :
  wf s -> holds (heap s) p T -> init T -> is_float (a_type T) = false ->
  Forall (fun v => ~ negative v) (a_vals T) ->
  a_vals T !! i = Some (VI (m * m - 1)) -> 2 ^ 26 < m <= 2 ^ 32 ->
  exists ys, ys !! i = Some m /\ m * m - 1 < m * m /\
  makes_or_nomem (aitisa_sqrt (HPtr p) o) E s o (AT (a_type T) (a_dev T) (a_dims T) (VI <$> ys)).
Proof.
  intros Hwf HT Hin Hf Hz Hi Hm.
  destruct (sqrt_exact p T o E s Hwf HT Hin Hf Hz) as (ys & Hys & Hmk). exists ys. split_and!; [|lia|done].
  destruct (Forall2_lookup_l _ _ _ _ _ Hys Hi) as (y & Hy & z & [= <-] & Hr). by rewrite Hy, (root_wrong m y Hm Hr).
Qed.
