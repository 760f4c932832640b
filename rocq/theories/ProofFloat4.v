(** * ProofFloat4: the values of sigmoid and tanh *)
From Coq Require Import ZArith Lia Reals Lra Floats.SpecFloat.
From Flocq Require Import Core IEEE754.BinarySingleNaN.
From Verif Require Import Base Spec SpecReal ProofFloat ProofFloat2 ProofFloat3.
Open Scope Z_scope.

Lemma done_valid : vb F64 done = true. Proof. reflexivity. Qed.
Lemma done_R : RV done = 1%R.
Proof. apply (is64_R _ _ (dbl_of_Z_ok 1 ltac:(lia))). Qed.
Lemma done_finite : is_finite_SF done = true. Proof. reflexivity. Qed.
Lemma fmt_int t z : is_float t = true -> Z.abs z <= 2 ^ 24 -> fmt t (IZR z).
Proof.
  intros Ht Hz. apply int_fmt. etransitivity; [exact Hz|]. apply Z.pow_le_mono_r; [easy|].
  destruct t; try discriminate; unfold fprec; lia.
Qed.
Lemma rnd_int t z : is_float t = true -> Z.abs z <= 2 ^ 24 -> rnd t (IZR z) = IZR z.
Proof. intros. now apply rnd_fmt, fmt_int. Qed.
Lemma rnd_R1 t : is_float t = true -> rnd t 1 = 1%R.
Proof. intros. now apply (rnd_int t 1). Qed.
Lemma rnd_Rm1 t : is_float t = true -> rnd t (-1) = (-1)%R.
Proof. intros. now apply (rnd_int t (-1)). Qed.
Lemma bpow_gt_1 t : is_float t = true -> (1 < bpow radix2 (femax t))%R.
Proof. intros Ht. apply (bpow_lt radix2 0). destruct t; try discriminate; reflexivity. Qed.
Lemma rnd_unit t x : is_float t = true -> (-1 <= x <= 1)%R -> (-1 <= rnd t x <= 1)%R.
Proof.
  intros Ht [H1 H2]. split; [rewrite <-(rnd_Rm1 t Ht)|rewrite <-(rnd_R1 t Ht)]; now apply rnd_le.
Qed.
Lemma rnd_unit_small t x : is_float t = true -> (-1 <= x <= 1)%R ->
  (Rabs (rnd t x) < bpow radix2 (femax t))%R.
Proof.
  intros Ht Hx. eapply Rle_lt_trans; [|apply (bpow_gt_1 t Ht)].
  pose proof (rnd_unit t x Ht Hx). apply Rabs_le. lra.
Qed.
Lemma rnd_nonneg t x : (0 <= x)%R -> (0 <= rnd t x)%R.
Proof. intros. rewrite <-(rnd_0 t). now apply rnd_le. Qed.

Lemma div_unit n d : (0 < d)%R -> (- d <= n <= d)%R -> (-1 <= n / d <= 1)%R.
Proof.
  intros Hd Hn. split; apply (Rmult_le_reg_r d); try easy; unfold Rdiv;
    rewrite Rmult_assoc, Rinv_l by lra; lra.
Qed.
Lemma div_nonneg n d : (0 < d)%R -> (0 <= n)%R -> (0 <= n / d)%R.
Proof.
  intros Hd Hn. apply (Rmult_le_reg_r d); try easy; unfold Rdiv;
    rewrite Rmult_assoc, Rinv_l by lra; lra.
Qed.

Lemma sigmoid_num t e : is_float t = true -> vb F64 e = true ->
  is_finite_SF e = true -> (0 <= RV e)%R ->
  let y := flt_conv t (ddiv done (dadd done e)) in
  is_finite_SF y = true /\ (0 <= RV y <= 1)%R /\
  ((Rabs (rnd F64 (1 + RV e)) < bpow radix2 1024)%R ->
   RV y = rnd t (rnd F64 (1 / rnd F64 (1 + RV e)))).
Proof.
  intros Ht He Hf Hpos y.
  destruct (flt_op_spec F64 OpAdd done e done_valid He done_finite Hf ltac:(easy)) as [H1 H2].
  cbv zeta in H1, H2. unfold op_real in H1, H2. rewrite done_R in H1, H2.
  change (flt_op F64 OpAdd done e) with (dadd done e) in *.
  destruct (Rlt_or_le (Rabs (rnd F64 (1 + RV e))) (bpow radix2 1024)) as [Hs|Hs].
  - destruct (H1 Hs) as [Hdf Hdv].
    assert (1 <= rnd F64 (1 + RV e))%R as Hge.
    { rewrite <-(rnd_R1 F64 eq_refl) at 1. apply rnd_le. lra. }
    assert (vb F64 (dadd done e) = true) as Hdval.
    { apply (flt_op_valid F64 OpAdd); easy. }
    assert (0 <= 1 / rnd F64 (1 + RV e) <= 1)%R as Hq.
    { split; [apply div_nonneg; lra|]. apply div_unit; lra. }
    destruct (flt_op_spec F64 OpDiv done (dadd done e) done_valid Hdval done_finite Hdf)
      as [H3 _]; [intros _; rewrite Hdv; lra|].
    cbv zeta in H3. unfold op_real in H3. rewrite done_R, Hdv in H3.
    change (flt_op F64 OpDiv done (dadd done e)) with (ddiv done (dadd done e)) in H3.
    destruct H3 as [H3 H4]; [apply (rnd_unit_small F64); [easy|lra]|].
    pose proof (rnd_unit F64 _ eq_refl (conj (Rle_trans _ _ _ (ltac:(lra) : (-1 <= 0)%R) (proj1 Hq)) (proj2 Hq))) as Hu.
    pose proof (rnd_nonneg F64 _ (proj1 Hq)) as Hu0.
    destruct (flt_conv_rnd t (ddiv done (dadd done e)) H3) as [H5 H6].
    { rewrite H4. now apply rnd_unit_small. }
    rewrite H4 in H6. fold y in H5, H6. rewrite H6. split; [easy|]. split; [|easy].
    split; [now apply rnd_nonneg|]. now apply rnd_unit.
  - destruct (H2 Hs) as [b Hb]. unfold y. rewrite Hb.
    assert (ddiv done (S754_infinity b) = S754_zero b) as -> by (now destruct b).
    split; [easy|]. split; [cbn; lra|]. intros Hs'. now apply Rlt_not_le in Hs'.
Qed.
Lemma sigmoid_num_inf t : flt_conv t (ddiv done (dadd done (S754_infinity false))) = S754_zero false.
Proof. reflexivity. Qed.

Lemma tanh_num t a b : is_float t = true -> vb F64 a = true -> vb F64 b = true ->
  is_finite_SF a = true -> is_finite_SF b = true -> (0 <= RV a)%R -> (0 <= RV b)%R ->
  (0 < RV a + RV b)%R ->
  let y := flt_conv t (ddiv (dsub a b) (dadd a b)) in
  is_finite_SF y = true /\ (-1 <= RV y <= 1)%R /\
  ((Rabs (rnd F64 (RV a + RV b)) < bpow radix2 1024)%R ->
   RV y = rnd t (rnd F64 (rnd F64 (RV a - RV b) / rnd F64 (RV a + RV b)))).
Proof.
  intros Ht Ha Hb Fa Fb Pa Pb Pab y.
  destruct (flt_op_spec F64 OpAdd a b Ha Hb Fa Fb ltac:(easy)) as [H1 H2].
  destruct (flt_op_spec F64 OpSub a b Ha Hb Fa Fb ltac:(easy)) as [K1 _].
  cbv zeta in H1, H2, K1. unfold op_real in H1, H2, K1.
  change (flt_op F64 OpAdd a b) with (dadd a b) in *.
  change (flt_op F64 OpSub a b) with (dsub a b) in *.
  assert (rnd F64 (RV a) = RV a) as Ra by (now apply rnd_fmt, (fmt_val F64)).
  assert (rnd F64 (RV b) = RV b) as Rb by (now apply rnd_fmt, (fmt_val F64)).
  assert (- RV b <= rnd F64 (RV a - RV b) <= RV a)%R as [D1 D2].
  { split.
    - assert (rnd F64 (- RV b) = - RV b)%R as <-.
      { apply rnd_fmt. apply generic_format_opp. now apply (fmt_val F64). }
      apply rnd_le. lra.
    - rewrite <-Ra at 2. apply rnd_le. lra. }
  pose proof (val_small F64 a Ha) as Sa. pose proof (val_small F64 b Hb) as Sb.
  rewrite Rabs_pos_eq in Sa by easy. rewrite Rabs_pos_eq in Sb by easy.
  destruct K1 as [Kf Kv].
  { apply Rabs_lt. lra. }
  assert (RV a <= rnd F64 (RV a + RV b) /\ RV b <= rnd F64 (RV a + RV b))%R as [G1 G2].
  { split; [rewrite <-Ra at 1|rewrite <-Rb at 1]; apply rnd_le; lra. }
  destruct (Rlt_or_le (Rabs (rnd F64 (RV a + RV b))) (bpow radix2 1024)) as [Hs|Hs].
  - destruct (H1 Hs) as [Hdf Hdv].
    assert (0 < rnd F64 (RV a + RV b))%R as Hgt by (destruct (Req_dec (RV a) 0); lra).
    assert (vb F64 (dadd a b) = true) as Vd by (now apply (flt_op_valid F64 OpAdd)).
    assert (vb F64 (dsub a b) = true) as Vs by (now apply (flt_op_valid F64 OpSub)).
    assert (-1 <= rnd F64 (RV a - RV b) / rnd F64 (RV a + RV b) <= 1)%R as Hq.
    { apply div_unit; lra. }
    destruct (flt_op_spec F64 OpDiv (dsub a b) (dadd a b) Vs Vd Kf Hdf) as [H3 _];
      [intros _; rewrite Hdv; lra|].
    cbv zeta in H3. unfold op_real in H3. rewrite Kv, Hdv in H3.
    change (flt_op F64 OpDiv (dsub a b) (dadd a b)) with (ddiv (dsub a b) (dadd a b)) in H3.
    destruct H3 as [H3 H4]; [now apply (rnd_unit_small F64)|].
    pose proof (rnd_unit F64 _ eq_refl Hq) as Hu.
    destruct (flt_conv_rnd t (ddiv (dsub a b) (dadd a b)) H3) as [H5 H6].
    { rewrite H4. now apply rnd_unit_small. }
    rewrite H4 in H6. fold y in H5, H6. rewrite H6. split; [easy|]. split; [|easy].
    now apply rnd_unit.
  - destruct (H2 Hs) as [c Hc]. unfold y. rewrite Hc.
    destruct (dsub a b) as [z|z| |z m e]; try discriminate Kf.
    + destruct z, c; (split; [easy|]; split; [cbn; lra|intros Hs'; now apply Rlt_not_le in Hs']).
    + destruct z, c; (split; [easy|]; split; [cbn; lra|intros Hs'; now apply Rlt_not_le in Hs']).
Qed.
