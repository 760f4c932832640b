(** * ProofFloat3: square roots and arithmetic on float elements *)
From Coq Require Import ZArith Lia Reals Lra Floats.SpecFloat.
From Flocq Require Import Core IEEE754.BinarySingleNaN Relative Double_rounding.
From Verif Require Import Base Spec SpecReal ProofFloat ProofFloat2.
Open Scope Z_scope.

(** ** Square root of an integer through double *)
Lemma rnd64_le x y : (x <= y)%R -> (rnd64 x <= rnd64 y)%R.
Proof. apply round_le; [apply fexp64_valid|apply (valid_rnd_round_mode mode_NE)]. Qed.
Lemma rnd64_int z : Z.abs z <= 2 ^ 53 -> rnd64 (IZR z) = IZR z.
Proof. intros. apply round_generic; [apply (valid_rnd_round_mode mode_NE)|]. now apply int_format. Qed.
Lemma rnd64_bpow e : 0 <= e <= 1000 -> rnd64 (bpow radix2 e) = bpow radix2 e.
Proof.
  intros He. apply round_generic; [apply (valid_rnd_round_mode mode_NE)|].
  apply generic_format_bpow. unfold SpecFloat.fexp, SpecFloat.emin. lia.
Qed.

Lemma sqrt_pow2 k : 0 <= k -> sqrt (IZR (2 ^ (2 * k))) = IZR (2 ^ k).
Proof.
  intros Hk. replace (2 * k) with (k + k) by lia. rewrite Z.pow_add_r by lia. rewrite mult_IZR.
  apply sqrt_square. apply IZR_le. apply Z.pow_nonneg. lia.
Qed.

Lemma rnd64_nonneg x : (0 <= x)%R -> (0 <= rnd64 x)%R.
Proof.
  intros Hx. replace 0%R with (rnd64 0); [now apply rnd64_le|].
  unfold rnd64. apply round_0. apply (valid_rnd_round_mode mode_NE).
Qed.

Lemma dbl_of_Z_64 z : 0 <= z <= 2 ^ 64 -> is64 (dbl_of_Z z) (rnd64 (IZR z)) /\
  (0 <= rnd64 (IZR z))%R.
Proof.
  intros Hz.
  assert (0 <= rnd64 (IZR z) <= bpow radix2 64)%R as Hr.
  { split.
    - apply rnd64_nonneg. apply IZR_le. lia.
    - rewrite <-(rnd64_bpow 64) by lia. apply rnd64_le. rewrite bpow_IZR by lia. apply IZR_le. lia. }
  split; [|apply Hr]. apply dbl_of_Z_rnd. rewrite Rabs_pos_eq by apply Hr.
  apply Rle_lt_trans with (1 := proj2 Hr). now apply bpow_lt.
Qed.

Lemma sqrt_int_val z : 0 <= z <= 2 ^ 64 ->
  flt_trunc (dsqrt (dbl_of_Z z)) = Some (Ztrunc (rnd64 (sqrt (rnd64 (IZR z))))).
Proof.
  intros Hz. destruct (dbl_of_Z_64 z Hz) as [H1 H2]. apply trunc_ok. now apply dsqrt_ok.
Qed.

Lemma sqrt_int_bound z k : 0 <= k <= 32 -> 0 <= z <= 2 ^ (2 * k) ->
  0 <= Ztrunc (rnd64 (sqrt (rnd64 (IZR z)))) <= 2 ^ k.
Proof.
  intros Hk Hz.
  assert (0 <= rnd64 (sqrt (rnd64 (IZR z))) <= IZR (2 ^ k))%R as [H1 H2].
  { split; [apply rnd64_nonneg, sqrt_pos|].
    rewrite <-bpow_IZR by lia. rewrite <-(rnd64_bpow k) by lia. apply rnd64_le.
    rewrite (bpow_IZR k), <-sqrt_pow2 by lia. apply sqrt_le_1_alt.
    rewrite <-(bpow_IZR (2 * k)) by lia. rewrite <-(rnd64_bpow (2 * k)) by lia. apply rnd64_le.
    rewrite bpow_IZR by lia. apply IZR_le. lia. }
  rewrite Ztrunc_floor by easy. split.
  - apply Zfloor_lub. easy.
  - rewrite <-(Zfloor_IZR (2 ^ k)). now apply Zfloor_le.
Qed.

(** Below 2^52 the truncated double square root is the integer square root. *)
Lemma sqrt_int_floor z : 0 <= z < 2 ^ 52 ->
  Ztrunc (rnd64 (sqrt (rnd64 (IZR z)))) = Z.sqrt z.
Proof.
  intros Hz. rewrite (rnd64_int z) by lia.
  set (n := Z.sqrt z).
  pose proof (Z.sqrt_spec z ltac:(lia)) as Hs. fold n in Hs. cbv zeta in Hs. unfold Z.succ in Hs.
  assert (0 <= n) as Hn0 by (unfold n; apply Z.sqrt_nonneg).
  assert (n < 2 ^ 26) as Hn1.
  { apply Z.nle_gt. intros H. assert (2 ^ 26 * 2 ^ 26 <= n * n) by (apply Z.mul_le_mono_nonneg; lia). lia. }
  assert (0 <= IZR z)%R as Hz0 by (apply IZR_le; lia).
  assert (IZR n <= sqrt (IZR z))%R as Hlo.
  { rewrite <-(sqrt_square (IZR n)) by (apply IZR_le; lia). apply sqrt_le_1_alt.
    rewrite <-mult_IZR. apply IZR_le. lia. }
  assert (sqrt (IZR z) < IZR (n + 1))%R as Hhi.
  { rewrite <-(sqrt_square (IZR (n + 1))) by (apply IZR_le; lia). apply sqrt_lt_1_alt.
    split; [easy|]. rewrite <-mult_IZR. apply IZR_lt. nia. }
  assert (IZR n <= rnd64 (sqrt (IZR z)))%R as Hr1.
  { rewrite <-(rnd64_int n) by lia. now apply rnd64_le. }
  assert (rnd64 (sqrt (IZR z)) < IZR (n + 1))%R as Hr2.
  { assert (rnd64 (sqrt (IZR z)) <= IZR (n + 1))%R as Hle.
    { rewrite <-(rnd64_int (n + 1)) by lia. apply rnd64_le. lra. }
    destruct Hle as [Hlt|Heq]; [easy|exfalso].
    destruct (Z.eq_dec z 0) as [->|Hnz].
    { rewrite sqrt_0 in Heq. unfold rnd64 in Heq.
      rewrite round_0 in Heq by apply (valid_rnd_round_mode mode_NE).
      apply (f_equal Zfloor) in Heq. rewrite !Zfloor_IZR in Heq. lia. }
    assert (Rabs (rnd64 (sqrt (IZR z)) - sqrt (IZR z)) <= / 2 * bpow radix2 (- 53 + 1) * Rabs (sqrt (IZR z)))%R as He.
    { apply (relative_error_N_FLT radix2 (3 - 1024 - 53) 53 Hp64 (fun x => negb (Z.even x))).
      rewrite Rabs_pos_eq by apply sqrt_pos.
      apply Rle_trans with 1%R; [change 1%R with (bpow radix2 0); now apply bpow_le|].
      rewrite <-sqrt_1. apply sqrt_le_1_alt. apply IZR_le. lia. }
    rewrite Heq in He. rewrite (Rabs_pos_eq (sqrt _)) in He by apply sqrt_pos.
    rewrite Rabs_pos_eq in He by lra.
    set (x := sqrt (IZR z)) in *.
    assert (x * x = IZR z)%R as Hxx by (now apply sqrt_sqrt).
    (* (n+1 - x) (n+1 + x) >= 1 *)
    assert (1 <= (IZR (n + 1) - x) * (IZR (n + 1) + x))%R as Hp.
    { replace ((IZR (n + 1) - x) * (IZR (n + 1) + x))%R with (IZR ((n + 1) * (n + 1)) - IZR z)%R
        by (rewrite mult_IZR, <-Hxx; ring).
      rewrite <-minus_IZR. apply IZR_le. nia. }
    assert (IZR (n + 1) <= 67108864)%R as Hm by (apply IZR_le; lia).
    assert (0 <= x)%R as Hx0 by apply sqrt_pos.
    replace (bpow radix2 (- 53 + 1)) with (/ 4503599627370496)%R in He.
    2:{ rewrite bpow_neg by lia. reflexivity. }
    assert ((IZR (n + 1) - x) * (IZR (n + 1) + x) <= (/ 2 * / 4503599627370496 * x) * (67108864 + 67108864))%R as Hq.
    { apply Rmult_le_compat; try lra. }
    assert (x <= 67108864)%R by lra. lra. }
  rewrite Ztrunc_floor.
  - apply Zfloor_imp. rewrite plus_IZR in *. lra.
  - apply Rle_trans with (2 := Hr1). apply IZR_le. lia.
Qed.

(** ** Square root of floats *)
Lemma round64_FLT x : round radix2 (FLT_exp (-1074) 53) ZnearestE x = rnd64 x.
Proof. reflexivity. Qed.

Lemma flt_conv64_val f : vb F32 f = true -> is_finite_SF f = true ->
  is64 (flt_conv F64 f) (SF2R radix2 f).
Proof.
  intros Hv Hf. destruct f as [s|s| |s m e]; try discriminate.
  - exists (B754_zero s). now split.
  - destruct (flt_conv_exact F64 s m e) as (H1 & H2 & H3).
    + apply (fmt_incl F32 F64); [easy|easy|now apply fmt_val].
    + apply Rlt_trans with (1 := val_small F32 _ Hv). now apply bpow_lt.
    + destruct (bin_of F64 _ (flt_conv_valid F64 (S754_finite s m e))) as [a Ha].
      exists a. rewrite Ha in *. rewrite SF2R_B2SF in H1. rewrite is_finite_SF_B2SF in H2. auto.
Qed.

Lemma sqrt_f64 f : vb F64 f = true -> is_finite_SF f = true -> (0 <= RV f)%R ->
  is64 (dsqrt f) (rnd F64 (sqrt (RV f))).
Proof. intros. apply dsqrt_ok; [now apply is64_intro|easy]. Qed.

Lemma round_round_f32 x : fmt F32 x ->
  rnd F32 (rnd F64 (sqrt x)) = rnd F32 (sqrt x).
Proof.
  intros Hx.
  apply (round_round_sqrt_FLT radix2 (3 - 128 - 24) 24 (3 - 1024 - 53) 53); try easy.
  - left. easy.
  - apply FLT_format_generic; easy.
Qed.

Lemma flt_conv_rnd t f : is_finite_SF f = true ->
  (Rabs (rnd t (RV f)) < bpow radix2 (femax t))%R ->
  is_finite_SF (flt_conv t f) = true /\ RV (flt_conv t f) = rnd t (RV f).
Proof.
  intros Hf Hr. destruct f as [s|s| |s m e]; try discriminate.
  - split; [easy|]. simpl. unfold rnd. rewrite round_0; [easy|]. apply (valid_rnd_round_mode mode_NE).
  - destruct (flt_conv_R t s m e Hr) as (H1 & H2 & _). auto.
Qed.

Lemma rnd_le t x y : (x <= y)%R -> (rnd t x <= rnd t y)%R.
Proof.
  apply round_le; [apply (fexp_correct (fprec t) (femax t)); apply Hp|
    apply (valid_rnd_round_mode mode_NE)].
Qed.
Lemma rnd_fmt t x : fmt t x -> rnd t x = x.
Proof. intros. now apply round_generic; [apply (valid_rnd_round_mode mode_NE)|]. Qed.
Lemma rnd_0 t : rnd t 0 = 0%R.
Proof. unfold rnd. apply round_0. apply (valid_rnd_round_mode mode_NE). Qed.

Lemma sqrt_small_f32 x : (0 <= x < bpow radix2 128)%R ->
  (Rabs (rnd F32 (sqrt x)) < bpow radix2 128)%R.
Proof.
  intros [Hx Hx2].
  assert (0 <= rnd F32 (sqrt x))%R.
  { rewrite <-(rnd_0 F32). apply rnd_le, sqrt_pos. }
  rewrite Rabs_pos_eq by easy.
  apply Rle_lt_trans with (bpow radix2 64); [|now apply bpow_lt].
  rewrite <-(rnd_fmt F32 (bpow radix2 64)).
  2:{ apply generic_format_bpow. easy. }
  apply rnd_le. rewrite <-(sqrt_square (bpow radix2 64)) by apply bpow_ge_0.
  apply sqrt_le_1_alt. rewrite <-bpow_plus. apply Rlt_le. exact Hx2.
Qed.

(** All types at once. *)
Lemma sqrt_flt t f : is_float t = true -> vb t f = true -> f <> S754_infinity true ->
  (0 <= RV f)%R ->
  let g := flt_conv t (dsqrt (flt_conv F64 f)) in
  vb t g = true /\ (is_finite_SF f = false -> g = f) /\
  (is_finite_SF f = true -> is_finite_SF g = true /\ RV g = rnd t (sqrt (RV f))).
Proof.
  intros Ht Hv Hni Hnn g. split; [apply flt_conv_valid|]. split.
  - intros Hf. unfold g. destruct f as [s|[|]| |s m e]; easy.
  - intros Hf. unfold g. destruct t; try discriminate Ht.
    + destruct (flt_conv64_val f Hv Hf) as (b & Hb1 & Hb2 & Hb3).
      assert (is64 (dsqrt (flt_conv F64 f)) (rnd F64 (sqrt (RV f)))) as H64.
      { apply dsqrt_ok; [|easy]. now apply flt_conv64_val. }
      rewrite <-(round_round_f32 (RV f)) by now apply fmt_val.
      rewrite <-(is64_R _ _ H64) at 1.
      apply flt_conv_rnd; [now apply (is64_finite _ _ H64)|].
      rewrite (is64_R _ _ H64), round_round_f32 by now apply fmt_val.
      apply sqrt_small_f32. split; [easy|].
      apply Rle_lt_trans with (1 := Rle_abs _). now apply (val_small F32).
    + rewrite (flt_conv_same F64 f Hv).
      assert (is64 (dsqrt f) (rnd F64 (sqrt (RV f)))) as H64 by now apply sqrt_f64.
      rewrite flt_conv_same by apply (is64_valid _ _ H64).
      split; [now apply (is64_finite _ _ H64)|]. now apply is64_R.
Qed.

(** ** Elementwise arithmetic on floats *)
Lemma flt_op_spec t o x y : vb t x = true -> vb t y = true ->
  is_finite_SF x = true -> is_finite_SF y = true -> (o = OpDiv -> RV y <> 0%R) ->
  let e := op_real o (RV x) (RV y) in
  ((Rabs (rnd t e) < bpow radix2 (femax t))%R ->
     is_finite_SF (flt_op t o x y) = true /\ RV (flt_op t o x y) = rnd t e) /\
  ((bpow radix2 (femax t) <= Rabs (rnd t e))%R -> exists s, flt_op t o x y = S754_infinity s).
Proof.
  intros Hx Hy. destruct (bin_of t x Hx) as [a ->], (bin_of t y Hy) as [b ->].
  rewrite !is_finite_SF_B2SF, !SF2R_B2SF. intros Ha Hb Hd e.
  assert (exists c : binary_float (fprec t) (femax t), flt_op t o (B2SF a) (B2SF b) = B2SF c /\
    if Rlt_bool (Rabs (rnd t e)) (bpow radix2 (femax t))
    then B2R c = rnd t e /\ is_finite c = true
    else exists s, B2SF c = S754_infinity s) as (c & -> & H).
  { destruct o; unfold flt_op.
    - exists (Bplus mode_NE a b). split; [apply (SFadd_eq (fprec t) (femax t))|].
      pose proof (Bplus_correct _ _ (Hp t) (Hm t) mode_NE a b Ha Hb) as H.
      unfold e, op_real, rnd. destruct Rlt_bool; [tauto|]. destruct H as [H _]. eexists. exact H.
    - exists (Bminus mode_NE a b). split; [apply (SFsub_eq (fprec t) (femax t))|].
      pose proof (Bminus_correct _ _ (Hp t) (Hm t) mode_NE a b Ha Hb) as H.
      unfold e, op_real, rnd. destruct Rlt_bool; [tauto|]. destruct H as [H _]. eexists. exact H.
    - exists (Bmult mode_NE a b). split; [apply (SFmul_eq (fprec t) (femax t))|].
      pose proof (Bmult_correct _ _ (Hp t) (Hm t) mode_NE a b) as H.
      unfold e, op_real, rnd. destruct Rlt_bool.
      + destruct H as (H1 & H2 & _). rewrite H2, Ha, Hb. auto.
      + eexists. exact H.
    - exists (Bdiv mode_NE a b). split; [apply (SFdiv_eq (fprec t) (femax t))|].
      pose proof (Bdiv_correct _ _ (Hp t) (Hm t) mode_NE a b (Hd eq_refl)) as H.
      unfold e, op_real, rnd. destruct Rlt_bool.
      + destruct H as (H1 & H2 & _). rewrite H2, Ha. auto.
      + eexists. exact H. }
  rewrite is_finite_SF_B2SF, SF2R_B2SF. split; intros Hr.
  - rewrite Rlt_bool_true in H by easy. tauto.
  - rewrite Rlt_bool_false in H by easy. exact H.
Qed.

Lemma flt_op_nan t o x y : x = S754_nan \/ y = S754_nan -> flt_op t o x y = S754_nan.
Proof. intros [-> | ->]; destruct o; try reflexivity; destruct x; reflexivity. Qed.

Lemma special_finite o x y : op_special o x y = None ->
  is_finite_SF x = true /\ is_finite_SF y = true /\ (o = OpDiv -> RV y <> 0%R).
Proof.
  destruct x as [s|s| |s m e], y as [s'|s'| |s' m' e'], o; try discriminate; intros _;
    (split; [reflexivity|split; [reflexivity|]]); try discriminate; intros _.
  - destruct s'; [apply Rlt_not_eq; now apply F2R_lt_0|apply Rgt_not_eq; now apply F2R_gt_0].
  - destruct s'; [apply Rlt_not_eq; now apply F2R_lt_0|apply Rgt_not_eq; now apply F2R_gt_0].
Qed.

Lemma sign_le f : is_finite_SF f = true -> if sign_SF f then (RV f <= 0)%R else (0 <= RV f)%R.
Proof.
  destruct f as [s|s| |s m e]; try discriminate; intros _.
  - destruct s; simpl; lra.
  - destruct s; simpl; [apply F2R_le_0|apply F2R_ge_0]; simpl; lia.
Qed.

Lemma rnd_big_nz t e : (bpow radix2 (femax t) <= Rabs (rnd t e))%R -> e <> 0%R.
Proof.
  intros H ->. unfold rnd in H. rewrite round_0 in H by typeclasses eauto. rewrite Rabs_R0 in H.
  pose proof (bpow_gt_0 radix2 (femax t)). lra.
Qed.

Lemma sign_B2SF t (b : binary_float (fprec t) (femax t)) : sign_SF (B2SF b) = Bsign b.
Proof. now destruct b. Qed.

(** The special cases are IEEE's, and the others round with the right sign. *)
Lemma flt_op_special t o x y v : op_special o x y = Some v -> flt_op t o x y = v.
Proof.
  destruct x as [s|s| |s m e], y as [s'|s'| |s' m' e'], o; try discriminate; cbn;
    intros [= <-]; try reflexivity; destruct s, s'; reflexivity.
Qed.

Lemma flt_op_full t o x y : vb t x = true -> vb t y = true -> op_special o x y = None ->
  let e := op_real o (RV x) (RV y) in
  ((Rabs (rnd t e) < bpow radix2 (femax t))%R ->
     is_finite_SF (flt_op t o x y) = true /\ RV (flt_op t o x y) = rnd t e /\
     sign_SF (flt_op t o x y) = op_sign o x y e) /\
  ((bpow radix2 (femax t) <= Rabs (rnd t e))%R -> flt_op t o x y = S754_infinity (op_sign o x y e)).
Proof.
  intros Hx Hy Hs. destruct (special_finite _ _ _ Hs) as (Fx & Fy & Hd). clear Hs.
  pose proof (sign_le x Fx) as Lx. pose proof (sign_le y Fy) as Ly. revert Fx Fy Hd Lx Ly.
  destruct (bin_of t x Hx) as [a ->], (bin_of t y Hy) as [b ->].
  rewrite !is_finite_SF_B2SF, !SF2R_B2SF. intros Ha Hb Hd Lx Ly e.
  assert (exists c : binary_float (fprec t) (femax t), flt_op t o (B2SF a) (B2SF b) = B2SF c /\
    if Rlt_bool (Rabs (rnd t e)) (bpow radix2 (femax t))
    then B2R c = rnd t e /\ is_finite c = true /\ Bsign c = op_sign o (B2SF a) (B2SF b) e
    else B2SF c = S754_infinity (op_sign o (B2SF a) (B2SF b) e)) as (c & -> & H).
  { assert (forall z : binary_float (fprec t) (femax t), is_finite z = true -> is_nan z = false) as Hnan
      by (now intros []).
    rewrite !sign_B2SF in Lx, Ly.
    destruct o; unfold flt_op.
    - exists (Bplus mode_NE a b). split; [apply (SFadd_eq (fprec t) (femax t))|].
      pose proof (Bplus_correct _ _ (Hp t) (Hm t) mode_NE a b Ha Hb) as H.
      unfold op_sign. rewrite !sign_B2SF.
      unfold op_real in e. unfold e, rnd in *. destruct Rlt_bool eqn:Hr.
      + destruct H as (H1 & H2 & H3). split; [easy|]. split; [easy|]. rewrite H3.
        destruct (Rcompare_spec (B2R a + B2R b) 0) as [Hc|Hc|Hc].
        * rewrite Req_bool_false, Rlt_bool_true; easy || lra.
        * rewrite Req_bool_true; easy.
        * rewrite Req_bool_false, Rlt_bool_false; easy || lra.
      + destruct H as [H Hsg]. cbn in H. rewrite H. f_equal. clear H.
        assert (bpow radix2 (femax t) <= Rabs (rnd t (B2R a + B2R b)))%R as Hbig.
        { unfold rnd. apply Rnot_lt_le. intros Hlt. rewrite Rlt_bool_true in Hr by exact Hlt. discriminate. }
        apply rnd_big_nz in Hbig. rewrite Req_bool_false by easy. rewrite <-Hsg in Ly.
        destruct (Bsign a); symmetry; [apply Rlt_bool_true|apply Rlt_bool_false]; lra.
    - exists (Bminus mode_NE a b). split; [apply (SFsub_eq (fprec t) (femax t))|].
      pose proof (Bminus_correct _ _ (Hp t) (Hm t) mode_NE a b Ha Hb) as H.
      unfold op_sign. rewrite !sign_B2SF.
      unfold op_real in e. unfold e, rnd in *. destruct Rlt_bool eqn:Hr.
      + destruct H as (H1 & H2 & H3). split; [easy|]. split; [easy|]. rewrite H3.
        destruct (Rcompare_spec (B2R a - B2R b) 0) as [Hc|Hc|Hc].
        * rewrite Req_bool_false, Rlt_bool_true; easy || lra.
        * rewrite Req_bool_true; easy.
        * rewrite Req_bool_false, Rlt_bool_false; easy || lra.
      + destruct H as [H Hsg]. cbn in H. rewrite H. f_equal. clear H.
        assert (bpow radix2 (femax t) <= Rabs (rnd t (B2R a - B2R b)))%R as Hbig.
        { unfold rnd. apply Rnot_lt_le. intros Hlt. rewrite Rlt_bool_true in Hr by exact Hlt. discriminate. }
        apply rnd_big_nz in Hbig. rewrite Req_bool_false by easy.
        destruct (Bsign a), (Bsign b); try discriminate Hsg; symmetry; [apply Rlt_bool_true|apply Rlt_bool_false]; lra.
    - exists (Bmult mode_NE a b). split; [apply (SFmul_eq (fprec t) (femax t))|].
      pose proof (Bmult_correct _ _ (Hp t) (Hm t) mode_NE a b) as H.
      unfold op_sign. rewrite !sign_B2SF. unfold e, op_real, rnd. destruct Rlt_bool.
      + destruct H as (H1 & H2 & H3). rewrite Ha, Hb in H2. auto.
      + exact H.
    - exists (Bdiv mode_NE a b). split; [apply (SFdiv_eq (fprec t) (femax t))|].
      pose proof (Bdiv_correct _ _ (Hp t) (Hm t) mode_NE a b (Hd eq_refl)) as H.
      unfold op_sign. rewrite !sign_B2SF. unfold e, op_real, rnd. destruct Rlt_bool.
      + destruct H as (H1 & H2 & H3). rewrite Ha in H2. auto.
      + exact H. }
  rewrite is_finite_SF_B2SF, SF2R_B2SF, sign_B2SF. split; intros Hr.
  - rewrite Rlt_bool_true in H by easy. tauto.
  - rewrite Rlt_bool_false in H by easy. exact H.
Qed.

(** The specification determines the result. *)
Lemma bin_spec_unique t o a b w w' : bin_spec t o a b w -> bin_spec t o a b w' -> w = w'.
Proof.
  destruct a as [x|x|], b as [y|y|]; try (simpl; congruence).
  - intros [H1 H2] [H1' H2'].
    assert (int_defined t o x y \/ ~ int_defined t o x y) as [Hd|Hd].
    { unfold int_defined. generalize (op_int o x y). intros z.
      assert (forall P Q : Prop, P \/ ~ P -> Q \/ ~ Q -> (P /\ Q) \/ ~ (P /\ Q)) as Hand by tauto.
      apply Hand.
      - destruct o; try (left; discriminate). destruct (Z.eq_dec y 0) as [Hy|Hy]; [right|left]; tauto.
      - destruct t; try (left; exact I); lia. }
    + destruct (H1 Hd) as (r & -> & Hr & Hm1). destruct (H1' Hd) as (r' & -> & Hr' & Hm1').
      f_equal. f_equal. rewrite <-Hm1' in Hm1. clear -Hr Hr' Hm1.
      assert (tmax t - tmin t < 2 ^ bits t) as Hw by (destruct t; unfold tmin, tmax, bits; simpl; lia).
      assert (0 < 2 ^ bits t) by (apply Z.pow_pos_nonneg; destruct t; unfold bits; simpl; lia).
      pose proof (Z.div_mod r (2 ^ bits t) ltac:(lia)) as D1. pose proof (Z.div_mod r' (2 ^ bits t) ltac:(lia)) as D2.
      rewrite Hm1 in D1. generalize dependent (2 ^ bits t). intros b _ Hw Hb D1 D2.
      assert (r - r' = b * (r / b - r' / b)) as He by lia. assert (- b < r - r' < b) as Hlt by lia.
      clear -He Hlt Hb. set (k := r / b - r' / b) in *. assert (k = 0) by nia. subst. nia.
    + now rewrite (H2 Hd), (H2' Hd).
  - intros (r & -> & Hv & H) (r' & -> & Hv' & H'). f_equal. f_equal.
    destruct (op_special o x y); [congruence|]. cbv zeta in H, H'. destruct H as [H1 H2], H' as [H1' H2'].
    destruct (Rlt_or_le (Rabs (rnd t (op_real o (RV x) (RV y)))) (bpow radix2 (femax t))) as [Hr|Hr].
    + destruct (H1 Hr) as (F1 & R1 & S1). destruct (H1' Hr) as (F2 & R2 & S2).
      apply (SF_inj t); congruence.
    + rewrite (H2 Hr), (H2' Hr). reflexivity.
Qed.
