(** * ProofRoot: integer square roots through double, for all 64-bit values *)
From stdpp Require Import gmap list.
From Coq Require Import ZArith Lia Reals Lra Floats.SpecFloat.
From Flocq Require Import Core IEEE754.BinarySingleNaN Relative.
From Verif Require Import Base Mem Spec SpecReal SpecExact ModelCore ModelMath Logic ProofCore ProofFloat ProofFloat2 ProofFloat3 ProofSqrt.
Open Scope Z_scope.

Local Notation u := (/ 9007199254740992)%R.
Lemma rel64 x : (1 <= x)%R -> (Rabs (rnd64 x - x) <= u * x)%R.
Proof.
  intros Hx.
  pose proof (relative_error_N_FLT radix2 (3 - 1024 - 53) 53 Hp64 (fun x => negb (Z.even x)) x) as H.
  rewrite (Rabs_pos_eq x) in H by lra.
  assert (/ 2 * bpow radix2 (- (53) + 1) = u)%R as He.
  { replace (bpow radix2 (- (53) + 1)) with (/ 4503599627370496)%R; [lra|].
    change (- (53) + 1) with (- (52)). rewrite bpow_neg by lia. reflexivity. }
  rewrite He in H. apply H.
  apply Rle_trans with 1%R; [change 1%R with (bpow radix2 0); now apply bpow_le|easy].
Qed.

(** Anything closer to the integer [m] than half an ulp rounds to [m]. *)
Lemma near_int m k x : 0 <= k <= 32 -> 2 ^ k < m < 2 ^ (k + 1) ->
  (Rabs (x - IZR m) < bpow radix2 (k - 53))%R -> rnd64 x = IZR m.
Proof.
  intros Hk Hm Hx.
  assert (2 ^ (k + 1) <= 2 ^ 33) as Hb by (apply Z.pow_le_mono_r; lia).
  assert (0 < 2 ^ k) as Hk0 by (apply Z.pow_pos_nonneg; lia).
  assert (generic_format radix2 (SpecFloat.fexp 53 1024) (IZR m)) as Hf by (apply int_format; lia).
  assert (IZR m <> 0)%R as Hnz by (apply not_0_IZR; lia).
  assert (0 <= IZR m)%R as Hm0 by (apply IZR_le; lia).
  assert (mag radix2 (IZR m) = (k + 1) :> Z) as Hmag.
  { apply mag_unique_pos. rewrite !bpow_IZR by lia. replace (k + 1 - 1) with k by lia.
    split; [apply IZR_le; lia|apply IZR_lt; lia]. }
  assert (ulp radix2 (SpecFloat.fexp 53 1024) (IZR m) = bpow radix2 (k - 52)) as Hu.
  { rewrite ulp_neq_0 by easy. unfold cexp. rewrite Hmag. f_equal.
    unfold SpecFloat.fexp, SpecFloat.emin. lia. }
  assert (bpow radix2 (k - 52) = 2 * bpow radix2 (k - 53))%R as Hh.
  { replace (k - 52) with (1 + (k - 53)) by lia. rewrite bpow_plus. reflexivity. }
  pose proof fexp64_valid as Hval.
  apply Rabs_def2 in Hx. apply Rle_antisym.
  - apply round_N_le_midp; [easy|easy|].
    rewrite succ_eq_pos by easy. rewrite Hu, Hh. lra.
  - apply round_N_ge_midp; [easy|easy|].
    rewrite pred_eq_pos by easy. unfold pred_pos. rewrite Hmag.
    destruct (Req_bool_spec (IZR m) (bpow radix2 (k + 1 - 1))) as [He|_].
    + exfalso. rewrite bpow_IZR in He by lia. apply eq_IZR in He.
      replace (k + 1 - 1) with k in He by lia. lia.
    + rewrite Hu, Hh. lra.
Qed.

(** Rounding the square of an integer of at most 32 bits does not spoil its root. *)
Lemma sqrt_sqr m : 0 <= m <= 2 ^ 32 -> rnd64 (sqrt (rnd64 (IZR (m * m)))) = IZR m.
Proof.
  intros Hm.
  destruct (Z.eq_dec m 0) as [->|Hm0].
  { change (0 * 0) with 0. rewrite (rnd64_int 0) by lia. rewrite sqrt_0. now rewrite (rnd64_int 0) by lia. }
  assert (0 < m) as Hm1 by lia.
  pose proof (Z.log2_spec m Hm1) as Hk. remember (Z.log2 m) as k eqn:Hkdef.
  assert (0 <= k) as Hk0 by (subst k; apply Z.log2_nonneg).
  assert (k <= 32) as Hk1.
  { subst k. change 32 with (Z.log2 (2 ^ 32)). apply Z.log2_le_mono. lia. }
  clear Hkdef. unfold Z.succ in Hk.
  destruct (Z.eq_dec m (2 ^ k)) as [->|Hne].
  { rewrite <-Z.pow_add_r by lia. rewrite <-(bpow_IZR (k + k)) by lia. rewrite rnd64_bpow by lia.
    rewrite bpow_plus. rewrite sqrt_square by apply bpow_ge_0. rewrite rnd64_bpow by lia.
    apply bpow_IZR. lia. }
  apply near_int with k; [lia|lia|].
  set (r := rnd64 (IZR (m * m))).
  assert (1 <= IZR m)%R as H1 by (apply IZR_le; lia).
  assert (Rabs (r - IZR m * IZR m) <= u * (IZR m * IZR m))%R as Hr.
  { unfold r. rewrite <-mult_IZR. apply rel64. apply IZR_le. nia. }
  assert (0 < 2 ^ k) as Hp by (apply Z.pow_pos_nonneg; lia).
  assert (IZR m <= 2 * bpow radix2 k - 1)%R as Hm2.
  { rewrite bpow_IZR by lia. rewrite <-mult_IZR, <-minus_IZR. apply IZR_le.
    rewrite Z.pow_add_r in Hk by lia. lia. }
  assert (bpow radix2 k <= 4294967296)%R as Hb.
  { rewrite bpow_IZR by lia. apply IZR_le. change 4294967296 with (2 ^ 32). apply Z.pow_le_mono_r; lia. }
  assert (bpow radix2 (k - 53) = bpow radix2 k * u)%R as ->.
  { unfold Z.sub. rewrite bpow_plus. f_equal. }
  generalize dependent (bpow radix2 k). intros B HB2 HB1.
  assert (0 < B)%R as HB0 by lra.
  generalize dependent r. intros r Hr. generalize dependent (IZR m). intros M H1 HM Hr.
  assert (1 <= M * M)%R as HMM by (rewrite <-(Rmult_1_l 1) at 1; apply Rmult_le_compat; lra).
  assert (0 <= r)%R as Hr0.
  { apply Rabs_le_inv in Hr. lra. }
  set (x := sqrt r). assert (x * x = r)%R as Hx by now apply sqrt_sqrt.
  assert (0 <= x)%R as Hx0 by apply sqrt_pos.
  assert (M * (1 - u) <= x)%R as Hxl.
  { apply Rnot_lt_le. intros H.
    assert (x * x < M * (1 - u) * (M * (1 - u)))%R.
    { apply Rmult_le_0_lt_compat; lra. }
    apply Rabs_le_inv in Hr.
    assert (M * (1 - u) * (M * (1 - u)) = (M * M) * ((1 - u) * (1 - u)))%R as He by ring.
    rewrite He in H0.
    assert ((1 - u) * (1 - u) <= 1 - u)%R as Hs by lra.
    assert ((M * M) * ((1 - u) * (1 - u)) <= (M * M) * (1 - u))%R by (apply Rmult_le_compat_l; lra).
    lra. }
  assert (Rabs (x - M) * (x + M) = Rabs (r - M * M))%R as Hfac.
  { rewrite <-(Rabs_pos_eq (x + M)) at 1 by lra. rewrite <-Rabs_mult. f_equal. rewrite <-Hx. ring. }
  apply Rnot_le_lt. intros Hbig.
  assert (B * u * (M * (2 - u)) <= Rabs (x - M) * (x + M))%R as Hl.
  { apply Rmult_le_compat; [| |easy|lra].
    - apply Rmult_le_pos; lra.
    - apply Rmult_le_pos; lra. }
  rewrite Hfac in Hl.
  assert (B * u * (M * (2 - u)) <= u * (M * M))%R as Hl2 by lra.
  assert (B * (2 - u) <= M)%R as Hl3.
  { apply Rmult_le_reg_l with (u * M)%R; [apply Rmult_lt_0_compat; lra|]. lra. }
  lra.
Qed.

(** The computed root: at least the true one, at most one more, and too large only
    just below a perfect square. *)
Lemma sqrt_int_off z : 0 <= z < 2 ^ 64 ->
  let y := Ztrunc (rnd64 (sqrt (rnd64 (IZR z)))) in
  Z.sqrt z <= y <= Z.sqrt z + 1 /\ (y * y - z) * 2 ^ 51 <= y * y.
Proof.
  intros Hz y. pose proof (Z.sqrt_spec z ltac:(lia)) as Hs. cbv zeta in Hs. unfold Z.succ in Hs.
  pose proof (Z.sqrt_nonneg z) as Hn0. set (n := Z.sqrt z) in *.
  assert (n < 2 ^ 32) as Hn1.
  { apply Z.nle_gt. intros H. assert (2 ^ 32 * 2 ^ 32 <= n * n) by (apply Z.mul_le_mono_nonneg; lia). lia. }
  set (w := rnd64 (sqrt (rnd64 (IZR z)))) in *.
  assert (IZR n <= w)%R as H1.
  { rewrite <-(sqrt_sqr n) by lia. apply rnd64_le, sqrt_le_1_alt, rnd64_le, IZR_le. lia. }
  assert (w <= IZR (n + 1))%R as H2.
  { rewrite <-(sqrt_sqr (n + 1)) by lia. apply rnd64_le, sqrt_le_1_alt, rnd64_le, IZR_le. lia. }
  assert (0 <= IZR n)%R as Hn2 by (apply IZR_le; lia).
  assert (n <= y <= n + 1) as Hy.
  { unfold y. rewrite Ztrunc_floor by lra. split.
    - rewrite <-(Zfloor_IZR n). now apply Zfloor_le.
    - rewrite <-(Zfloor_IZR (n + 1)). now apply Zfloor_le. }
  split; [exact Hy|].
  destruct (Z.eq_dec y n) as [He|Hne]; [rewrite He; nia|].
  assert (y = n + 1) as Hy1 by lia.
  destruct (Z.eq_dec z 0) as [->|Hz0].
  { exfalso. assert (n = 0) as Hn by (unfold n; reflexivity).
    unfold y, w in Hy1. rewrite (rnd64_int 0), sqrt_0, (rnd64_int 0) in Hy1 by lia.
    rewrite Ztrunc_IZR in Hy1. lia. }
  assert (w = IZR y) as Hw.
  { apply Rle_antisym; [rewrite Hy1; easy|].
    unfold y. rewrite Ztrunc_floor by lra. apply Zfloor_lb. }
  (* errors of the two roundings *)
  assert (1 <= IZR z)%R as Hz1 by (apply IZR_le; lia).
  pose proof (rel64 (IZR z) Hz1) as Hr. set (r := rnd64 (IZR z)) in *.
  assert (1 <= r)%R as Hr1.
  { unfold r. rewrite <-(rnd64_int 1) by lia. now apply rnd64_le. }
  assert (1 <= sqrt r)%R as Hq1 by (rewrite <-sqrt_1; now apply sqrt_le_1_alt).
  pose proof (rel64 (sqrt r) Hq1) as Hx. fold w in Hx. rewrite Hw in Hx.
  assert (sqrt r * sqrt r = r)%R as Hxx by (apply sqrt_sqrt; lra).
  set (x := sqrt r) in *.
  apply Rabs_le_inv in Hr, Hx.
  assert (IZR y * (1 - u) <= x)%R as Hxl by lra.
  assert (1 <= IZR y)%R as Hy0 by (apply IZR_le; lia).
  assert (IZR y * (1 - u) * (IZR y * (1 - u)) <= x * x)%R as Hsq.
  { apply Rmult_le_compat; lra. }
  rewrite Hxx in Hsq.
  assert (1 <= IZR y * IZR y)%R as Hyy by (rewrite <-(Rmult_1_l 1) at 1; apply Rmult_le_compat; lra).
  assert ((IZR y * IZR y) * (1 - 2 * u) <= IZR z * (1 + u))%R as Hlast by lra.
  assert ((IZR y * IZR y - IZR z) * 2251799813685248 <= IZR y * IZR y)%R as Hfin by lra.
  apply le_IZR. rewrite mult_IZR, minus_IZR, mult_IZR. exact Hfin.
Qed.

(** The whole operation on an integer tensor. *)
Lemma sqrt_off p T o E s :
  wf s -> holds (heap s) p T -> init T -> is_float (a_type T) = false ->
  Forall (fun v => ~ negative v) (a_vals T) ->
  exists ys, Forall2 near_root (a_vals T) ys /\
  makes_or_nomem (aitisa_sqrt (HPtr p) o) E s o (AT (a_type T) (a_dev T) (a_dims T) (VI <$> ys)).
Proof.
  intros Hwf HT Hin Hf Hz.
  destruct (sqrt_ok p T o E s Hwf HT Hin Hz) as (ws & Hws & Hm).
  assert (exists ys, ws = VI <$> ys /\ Forall2 near_root (a_vals T) ys) as (ys & -> & Hys); [|eauto].
  assert (Forall (val_ok (a_type T)) (a_vals T)) as Hok by apply Hin.
  clear Hm Hin HT. revert Hok Hz. induction Hws as [|v w vs ws Hw Hws IH]; intros Hok Hz.
  { exists []; split; constructor. }
  apply Forall_cons in Hok as [Hv Hvs]. apply Forall_cons in Hz as [Hn Hns].
  destruct (IH Hvs Hns) as (ys & -> & Hys).
  destruct v as [z|f|]; [|destruct Hv as [Hv _]; congruence|destruct Hv].
  destruct Hw as (y & [= ->] & _ & Hy & _). cbn in Hn.
  exists (y :: ys). split; [done|]. constructor; [|done]. exists z. split; [done|].
  assert (0 <= z < 2 ^ 64) as Hz.
  { destruct Hv as [_ Hv]. revert Hv. unfold tmin, tmax, bits. destruct (a_type T); try done; cbn; lia. }
  destruct (sqrt_int_off z Hz) as [H1 H2]. change (rnd F64) with rnd64 in Hy. rewrite <-Hy in H1, H2.
  destruct (Z.eq_dec y (Z.sqrt z)) as [He|Hne]; [by left|right].
  assert (y = Z.sqrt z + 1) as Hy1 by lia. split; [done|].
  pose proof (Z.sqrt_spec z ltac:(lia)) as Hs. cbv zeta in Hs. unfold Z.succ in Hs.
  pose proof (Z.sqrt_nonneg z). rewrite <-Hy1 in Hs. split; [lia|].
  assert (Z.sqrt z < 2 ^ 32) as Hn1.
  { apply Z.nle_gt. intros Hge. assert (2 ^ 32 * 2 ^ 32 <= Z.sqrt z * Z.sqrt z) by (apply Z.mul_le_mono_nonneg; lia). lia. }
  assert (y * y <= 2 ^ 32 * 2 ^ 32) by (apply Z.mul_le_mono_nonneg; lia). lia.
Qed.
