(** * ProofFloat5: floor(n / s + 1) computed in double *)
From Coq Require Import ZArith Lia Reals Lra Floats.SpecFloat.
From Flocq Require Import Core IEEE754.BinarySingleNaN.
From Verif Require Import Base Spec ProofFloat.
Open Scope Z_scope.

Lemma rnd64_le x y : (x <= y)%R -> (rnd64 x <= rnd64 y)%R.
Proof. apply round_le; [apply fexp64_valid|apply (valid_rnd_round_mode mode_NE)]. Qed.
Lemma rnd64_int z : Z.abs z <= 2 ^ 53 -> rnd64 (IZR z) = IZR z.
Proof. intros. apply round_generic; [apply valid_rnd_N|now apply int_format]. Qed.

(** [a - 2^-e] is a double when [a * 2^e] is small enough *)
Lemma below_format a e : 0 <= e <= 52 -> 0 < a -> a * 2 ^ e <= 2 ^ 53 ->
  rnd64 (IZR a - bpow radix2 (- e)) = (IZR a - bpow radix2 (- e))%R.
Proof.
  intros He Ha Hp. apply round_generic; [apply valid_rnd_N|].
  change (SpecFloat.fexp 53 1024) with (FLT_exp (3 - 1024 - 53) 53).
  apply generic_format_FLT. exists (Float radix2 (a * 2 ^ e - 1) (- e)).
  - unfold F2R. cbn [Fnum Fexp]. rewrite minus_IZR, mult_IZR, <-bpow_IZR by lia.
    rewrite Rmult_minus_distr_r, Rmult_assoc, <-bpow_plus.
    replace (e + - e) with 0 by lia. cbn [bpow]. ring.
  - cbn [Fnum]. assert (0 < 2 ^ e) by (apply pow2_pos; lia).
    change (radix2 ^ 53) with (2 ^ 53). rewrite Z.abs_eq; nia.
  - cbn [Fexp]. lia.
Qed.

Lemma pow_above s : 1 <= s <= 2 ^ 52 -> exists e, 0 <= e <= 52 /\ s <= 2 ^ e < 2 * s.
Proof.
  intros Hs. exists (Z.log2_up s). split; [split|].
  - apply Z.log2_up_nonneg.
  - apply Z.log2_up_le_pow2; lia.
  - destruct (Z.eq_dec s 1) as [->|Hn]; [easy|].
    destruct (Z.log2_up_spec s ltac:(lia)) as [H1 H2]. split; [exact H2|].
    pose proof (Z.log2_up_pos s ltac:(lia)).
    replace (Z.log2_up s) with (Z.succ (Z.pred (Z.log2_up s))) by lia.
    rewrite Z.pow_succ_r by lia. lia.
Qed.

(** the largest value the sum can round to *)
Lemma quot_plus_one n s : 0 <= n -> 1 <= s -> n + 2 * s <= 2 ^ 52 ->
  (IZR (n / s + 1) <= rnd64 (rnd64 (IZR n / IZR s) + 1) < IZR (n / s + 2))%R.
Proof.
  intros Hn Hs Hb.
  assert (0 < IZR s)%R as Hsp by (apply IZR_lt; lia).
  set (m := n / s). pose proof (Z.div_mod n s ltac:(lia)) as Hdm. fold m in Hdm.
  pose proof (Z.mod_pos_bound n s ltac:(lia)) as Hr.
  assert (0 <= m) as Hm0 by (apply Z.div_pos; lia).
  assert (m <= n) as Hmn by nia.
  assert (IZR n = IZR s * IZR m + IZR (n mod s))%R as HnR.
  { rewrite <-mult_IZR, <-plus_IZR. now rewrite <-Hdm. }
  assert (IZR m <= IZR n / IZR s)%R as Hlo.
  { apply Rmult_le_reg_r with (IZR s); [exact Hsp|]. unfold Rdiv.
    rewrite Rmult_assoc, Rinv_l, Rmult_1_r by lra.
    assert (0 <= IZR (n mod s))%R by (apply IZR_le; lia). lra. }
  split.
  - rewrite <-(rnd64_int (m + 1)) by lia. apply rnd64_le. rewrite plus_IZR.
    apply Rplus_le_compat_r. rewrite <-(rnd64_int m) by lia. now apply rnd64_le.
  - destruct (pow_above s ltac:(lia)) as (e & He & Hse).
    assert (IZR n / IZR s <= IZR (m + 1) - bpow radix2 (- e))%R as Hhi.
    { apply Rle_trans with (IZR (m + 1) - / IZR s)%R.
      - apply Rmult_le_reg_r with (IZR s); [exact Hsp|]. unfold Rdiv.
        rewrite Rmult_minus_distr_r, Rmult_assoc, !Rinv_l, Rmult_1_r, plus_IZR by lra.
        assert (IZR (n mod s) <= IZR (s - 1))%R as H1 by (apply IZR_le; lia).
        rewrite minus_IZR in H1. lra.
      - rewrite bpow_opp, bpow_IZR by lia.
        assert (/ IZR (2 ^ e) <= / IZR s)%R; [|lra].
        apply Rinv_le; [exact Hsp|]. apply IZR_le. lia. }
    assert (rnd64 (IZR n / IZR s) <= IZR (m + 1) - bpow radix2 (- e))%R as H1.
    { rewrite <-below_format; [now apply rnd64_le|lia|lia|nia]. }
    apply Rle_lt_trans with (IZR (m + 2) - bpow radix2 (- e))%R.
    + rewrite <-below_format; [|lia|lia|nia]. apply rnd64_le.
      rewrite !plus_IZR in *. lra.
    + pose proof (bpow_gt_0 radix2 (- e)). lra.
Qed.

Lemma int64_op z : Z.abs z <= 2 ^ 53 -> (Rabs (rnd64 (IZR z)) < bpow radix2 1024)%R.
Proof.
  intros Hz. rewrite rnd64_int by exact Hz. rewrite <-abs_IZR.
  apply Rle_lt_trans with (bpow radix2 53).
  - rewrite bpow_IZR by lia. now apply IZR_le.
  - apply bpow_lt. lia.
Qed.
Lemma iadd_ok x y a b : is64 x (IZR a) -> is64 y (IZR b) -> Z.abs (a + b) <= 2 ^ 53 ->
  is64 (dadd x y) (IZR (a + b)).
Proof.
  intros Hx Hy Hz. rewrite <-(rnd64_int _ Hz). rewrite plus_IZR. apply dadd_ok; try easy.
  rewrite <-plus_IZR. now apply int64_op.
Qed.
Lemma isub_ok x y a b : is64 x (IZR a) -> is64 y (IZR b) -> Z.abs (a - b) <= 2 ^ 53 ->
  is64 (dsub x y) (IZR (a - b)).
Proof.
  intros Hx Hy Hz. rewrite <-(rnd64_int _ Hz). rewrite minus_IZR. apply dsub_ok; try easy.
  rewrite <-minus_IZR. now apply int64_op.
Qed.
Lemma imul_ok x y a b : is64 x (IZR a) -> is64 y (IZR b) -> Z.abs (a * b) <= 2 ^ 53 ->
  is64 (dmul x y) (IZR (a * b)).
Proof.
  intros Hx Hy Hz. rewrite <-(rnd64_int _ Hz). rewrite mult_IZR. apply dmul_ok; try easy.
  rewrite <-mult_IZR. now apply int64_op.
Qed.

(** pooling's output extent *)
Lemma extent_double d p b s : 0 <= d <= 2 ^ 51 -> 0 <= 2 * p < 2 ^ 31 -> 0 <= b < 2 ^ 31 ->
  1 <= s < 2 ^ 31 -> b + 1 <= d + 2 * p ->
  flt_trunc (dbl_floor (dadd (ddiv (dsub
      (dsub (dadd (dbl_of_Z d) (dmul (dbl_of_Z 2) (dbl_of_Z p))) (dbl_of_Z b))
      (dbl_of_Z 1)) (dbl_of_Z s)) (dbl_of_Z 1)))
  = Some ((d + 2 * p - b - 1) / s + 1).
Proof.
  intros Hd Hp Hb Hs Hw. set (n := d + 2 * p - b - 1).
  assert (0 <= n < 2 ^ 52) as Hn by lia.
  assert (is64 (dsub (dsub (dadd (dbl_of_Z d) (dmul (dbl_of_Z 2) (dbl_of_Z p))) (dbl_of_Z b))
                (dbl_of_Z 1)) (IZR n)) as H1.
  { apply isub_ok; [|apply dbl_of_Z_ok; lia|lia].
    apply isub_ok; [|apply dbl_of_Z_ok; lia|lia].
    apply iadd_ok; [apply dbl_of_Z_ok; lia| |lia].
    apply imul_ok; [apply dbl_of_Z_ok; lia|apply dbl_of_Z_ok; lia|lia]. }
  assert (is64 (dbl_of_Z s) (IZR s)) as H2 by (apply dbl_of_Z_ok; lia).
  pose proof (ddiv_ok _ _ _ _ H1 H2 ltac:(apply not_0_IZR; lia)
    (rnd64_small n s Hn ltac:(lia))) as H3.
  pose proof (quot_plus_one n s ltac:(lia) ltac:(lia) ltac:(lia)) as Hq.
  pose proof (quot_range n s Hn ltac:(lia)) as Hqr.
  assert (is64 (dadd (ddiv (dsub
      (dsub (dadd (dbl_of_Z d) (dmul (dbl_of_Z 2) (dbl_of_Z p))) (dbl_of_Z b))
      (dbl_of_Z 1)) (dbl_of_Z s)) (dbl_of_Z 1)) (rnd64 (rnd64 (IZR n / IZR s) + 1))) as H4.
  { apply dadd_ok; [exact H3|apply (dbl_of_Z_ok 1); lia|].
    assert (IZR (n / s + 2) <= IZR (2 ^ 53))%R as H5 by (apply IZR_le; lia).
    rewrite <-bpow_IZR in H5 by lia.
    assert (bpow radix2 53 < bpow radix2 1024)%R by (apply bpow_lt; lia).
    assert (0 <= IZR (n / s + 1))%R by (apply IZR_le; lia).
    apply Rabs_def1; lra. }
  assert (Zfloor (rnd64 (rnd64 (IZR n / IZR s) + 1)) = n / s + 1) as Hfl.
  { apply Zfloor_imp. replace (n / s + 1 + 1) with (n / s + 2) by lia. exact Hq. }
  apply dbl_floor_ok in H4; rewrite Hfl in *; [|lia].
  apply trunc_ok in H4. rewrite H4. now rewrite Ztrunc_IZR.
Qed.
