(** * ProofAcc2: error bounds for batch normalisation *)
From stdpp Require Import gmap list list_numbers.
From Coq Require Import ZArith Lia Reals Lra Floats.SpecFloat.
From Flocq Require Import Core Relative Plus_error IEEE754.BinarySingleNaN.
From Verif Require Import Base Mem Spec SpecReal SpecNN SpecError SpecSoft SpecNorm SpecAcc.
From Verif Require Import ProofFloat ProofFloat2 ProofFloat3 ProofFloat4 ProofError ProofSoft ProofAcc.
Open Scope Z_scope.

(** ** Roundings *)
Lemma uround_half t : is_float t = true -> (uround t <= / 8)%R.
Proof. intros Ht. unfold uround. change (/ 8)%R with (bpow radix2 (-3)). apply bpow_le. destruct t; try done; cbn; lia. Qed.
Lemma fmt_min t : is_float t = true -> fmt t (bpow radix2 (2 - femax t)).
Proof.
  intros Ht. apply generic_format_bpow. destruct t; try done; unfold SpecFloat.fexp, SpecFloat.emin; cbn; lia.
Qed.
Lemma rnd_normal t x : is_float t = true -> (bpow radix2 (2 - femax t) <= Rabs x)%R ->
  exists e, (Rabs e <= uround t)%R /\ rnd t x = (x * (1 + e))%R.
Proof.
  intros Ht Hx. destruct (relative_error_N_FLT_ex radix2 (3 - femax t - fprec t) (fprec t) (Hp t)
    (fun z => negb (Z.even z)) x) as (e & He & Hr).
  { replace (3 - femax t - fprec t + fprec t - 1) with (2 - femax t) by lia. exact Hx. }
  exists e. split; [|exact Hr]. eapply Rle_trans; [exact He|]. right.
  unfold uround. change (/ 2)%R with (bpow radix2 (-1)). rewrite <-bpow_plus. f_equal. lia.
Qed.
Lemma rnd_min t x : is_float t = true -> (bpow radix2 (2 - femax t) <= x)%R -> (bpow radix2 (2 - femax t) <= rnd t x)%R.
Proof. intros Ht Hx. rewrite <-(rnd_fmt t (bpow radix2 (2 - femax t))) by by apply fmt_min. by apply rnd_le. Qed.

(** ** Operations *)
Lemma special_none o x y : is_finite_SF x = true -> is_finite_SF y = true -> (o = OpDiv -> RV y <> 0%R) ->
  op_special o x y = None.
Proof.
  intros Hx Hy Hd. destruct x as [?|?| |? ? ?]; try done; destruct y as [?|?| |? ? ?]; try done; destruct o; try done;
    exfalso; apply (Hd eq_refl); reflexivity.
Qed.
Lemma bin_finite t o x y r : bin_spec t o (VF x) (VF y) (Some (VF r)) ->
  (o <> OpDiv \/ (is_finite_SF y = true /\ RV y <> 0%R)) -> is_finite_SF r = true ->
  is_finite_SF x = true /\ is_finite_SF y = true /\ RV r = rnd t (op_real o (RV x) (RV y)).
Proof.
  intros (r' & [= <-] & Hv & H) Ho Hf. destruct (op_special o x y) as [v|] eqn:Hs.
  - exfalso. subst v. revert Hs Hf Ho. clear.
    destruct x as [?|?| |? ? ?], y as [?|?| |? ? ?], o; try done; cbn; intros [= <-];
      repeat match goal with |- context [Bool.eqb ?a ?b] => destruct (Bool.eqb a b) end; try done;
      intros _ [Ho|[Ho1 Ho2]]; done.
  - destruct (special_finite _ _ _ Hs) as (H1 & H2 & _). split; [done|]. split; [done|]. destruct H as [Ha Hb].
    destruct (Rlt_or_le (Rabs (rnd t (op_real o (RV x) (RV y)))) (bpow radix2 (femax t))) as [Hlt|Hge].
    + by apply Ha.
    + rewrite (Hb Hge) in Hf. done.
Qed.
Lemma bin_small t o x y r : bin_spec t o (VF x) (VF y) (Some (VF r)) ->
  is_finite_SF x = true -> is_finite_SF y = true -> (o = OpDiv -> RV y <> 0%R) ->
  (Rabs (rnd t (op_real o (RV x) (RV y))) < bpow radix2 (femax t))%R ->
  is_finite_SF r = true /\ RV r = rnd t (op_real o (RV x) (RV y)).
Proof.
  intros (r' & [= <-] & Hv & H) Fx Fy Hd Hlt. rewrite special_none in H by done. destruct H as [Ha _].
  destruct (Ha Hlt) as (? & ? & _). done.
Qed.
Lemma bin_float t o a b w : bin_spec t o a b (Some w) -> is_float t = true -> val_ok t a -> val_ok t b ->
  exists x y r, a = VF x /\ b = VF y /\ w = VF r /\ vb t x = true /\ vb t y = true /\ vb t r = true.
Proof.
  intros H Ht Ha Hb. destruct a as [|x|]; [destruct Ha; congruence| |done]. destruct b as [|y|]; [destruct Hb; congruence| |done].
  destruct H as (r & [= ->] & Hv & _). destruct Ha, Hb. eauto 10.
Qed.

(** ** The denominator *)
Lemma bn_root t eps va e a d : is_float t = true -> bn_range t eps va -> val_ok t va ->
  conv_spec F64 t (VF eps) (Some e) -> bin_spec t OpAdd va e (Some a) -> sqrt_spec t a (Some d) ->
  let D := sqrt (val_real va + RV eps) in
  exists g, d = VF g /\ vb t g = true /\ is_finite_SF g = true /\ (0 < D)%R /\
    ((1 - uround t) ^ 2 * D <= RV g <= (1 + uround t) ^ 2 * D)%R.
Proof.
  intros Ht (Fe & He & (fv & -> & Fv) & Hva & Htop) Vva Hc Ha Hs. cbn [val_real] in *.
  pose proof (uround_pos t) as Hu. pose proof (uround_half t Ht) as Hu8. set (u := uround t) in *.
  set (m := bpow radix2 (2 - femax t)) in *. assert (0 < m)%R as Hm by apply bpow_gt_0.
  unfold conv_spec in Hc. rewrite Ht in Hc. destruct Hc as (fe & [= ->] & Vfe & _ & Hc & _).
  destruct (rnd_normal t (RV eps) Ht) as (e1 & He1 & Hr1). { rewrite Rabs_pos_eq by lra. exact He. }
  pose proof (rnd_min t (RV eps) Ht He) as Hm1. fold m in Hm1. fold u in He1.
  apply Rabs_le_inv in He1.
  assert (Rabs (rnd t (RV eps)) < bpow radix2 (femax t))%R as Hsm.
  { rewrite Rabs_pos_eq by lra. rewrite Hr1. nra. }
  destruct (Hc Fe Hsm) as (Rfe & Ffe & _). rewrite Hr1 in Rfe.
  destruct (bin_float t OpAdd (VF fv) (VF fe) a Ha Ht Vva) as (x & y & fa & [= <-] & [= <-] & -> & _ & _ & Vfa).
  { split; done. }
  destruct Vva as [_ Vfv].
  destruct (rnd_add_err t (RV fv) (RV fe) (fmt_val t fv Vfv) (fmt_val t fe Vfe)) as (e2 & He2 & Hr2).
  fold u in He2. apply Rabs_le_inv in He2.
  assert (0 <= RV fv + RV fe)%R as Hpos by nra.
  assert (RV fv + RV fe <= (1 + u) * (RV fv + RV eps))%R as U1 by nra.
  assert ((1 - u) * (RV fv + RV eps) <= RV fv + RV fe)%R as L1 by nra.
  assert (0 <= RV fv + RV eps)%R as Hp0 by lra.
  assert ((RV fv + RV fe) * (1 + e2) <= (1 + u) ^ 2 * (RV fv + RV eps))%R as U2.
  { apply Rle_trans with ((RV fv + RV fe) * (1 + u))%R; [apply Rmult_le_compat_l; lra|]. nra. }
  assert ((1 - u) ^ 2 * (RV fv + RV eps) <= (RV fv + RV fe) * (1 + e2))%R as L2.
  { apply Rle_trans with ((RV fv + RV fe) * (1 - u))%R; [nra|apply Rmult_le_compat_l; lra]. }
  destruct (bin_small t OpAdd fv fe fa Ha Fv Ffe ltac:(done)) as [Ffa Rfa].
  { cbn [op_real]. rewrite Hr2, Rabs_pos_eq; [lra|]. apply Rmult_le_pos; lra. }
  cbn [op_real] in Rfa.
  assert (m <= RV fa)%R as Hma. { rewrite Rfa. apply rnd_min; [done|]. rewrite Rfe, <-Hr1. fold m. lra. }
  rewrite Hr2 in Rfa.
  destruct Hs as (g & [= ->] & Vg & _ & Hs). destruct (Hs Ffa) as [Fg Rg].
  assert (m <= sqrt (RV fa))%R as Hms.
  { rewrite <-(sqrt_square m) by lra. apply sqrt_le_1_alt.
    assert (m <= 1)%R. { change 1%R with (bpow radix2 0). apply bpow_le. destruct t; try done; cbn; lia. } nra. }
  destruct (rnd_normal t (sqrt (RV fa)) Ht) as (e3 & He3 & Hr3). { rewrite Rabs_pos_eq by lra. exact Hms. }
  fold u in He3. apply Rabs_le_inv in He3.
  cbv zeta. set (D := sqrt (RV fv + RV eps)).
  assert (0 < D)%R as HD by (apply sqrt_lt_R0; lra).
  exists g. split_and!; try done; rewrite Rg, Hr3.
  - assert ((1 - u) * D <= sqrt (RV fa))%R as Hl.
    { rewrite Rfa. unfold D. rewrite <-(sqrt_square (1 - u)) by lra. rewrite <-sqrt_mult_alt by nra. apply sqrt_le_1_alt. lra. }
    nra.
  - assert (sqrt (RV fa) <= (1 + u) * D)%R as Hh.
    { rewrite Rfa. unfold D. rewrite <-(sqrt_square (1 + u)) by lra. rewrite <-sqrt_mult_alt by nra. apply sqrt_le_1_alt. lra. }
    nra.
Qed.

(** ** The algebra of the bound *)
Lemma prod_close u p q lp hp lq hq : (0 <= lp <= p)%R -> (p <= hp)%R -> (0 <= lq <= q)%R -> (q <= hq)%R -> u = (p * q)%R ->
  (0 <= lp * lq <= u)%R /\ (u <= hp * hq)%R.
Proof.
  intros [] ? [] ? ->. split; [split|]; [by apply Rmult_le_pos|by apply Rmult_le_compat|apply Rmult_le_compat; lra].
Qed.
Lemma ratio_close u D g : (0 <= u <= / 8)%R -> (0 < D)%R -> ((1 - u) ^ 2 * D <= g <= (1 + u) ^ 2 * D)%R ->
  (0 < g)%R /\ (0 <= / (1 + u) ^ 2 <= D / g)%R /\ (D / g <= / (1 - u) ^ 2)%R.
Proof.
  intros Hu HD [Hl Hh]. assert (0 < (1 - u) ^ 2)%R as H1 by (apply pow_lt; lra).
  assert (0 < (1 + u) ^ 2)%R as H2 by (apply pow_lt; lra).
  assert (0 < g)%R as Hg by (eapply Rlt_le_trans; [|exact Hl]; by apply Rmult_lt_0_compat).
  split; [done|]. split; [split|].
  - left. by apply Rinv_0_lt_compat.
  - apply (Rmult_le_reg_r g); [done|]. apply (Rmult_le_reg_l ((1 + u) ^ 2)); [done|].
    field_simplify; [lra|lra|lra].
  - apply (Rmult_le_reg_r g); [done|]. apply (Rmult_le_reg_l ((1 - u) ^ 2)); [done|].
    field_simplify; [lra|lra|lra].
Qed.
Lemma one_close u d : (Rabs d <= u)%R -> (0 <= u <= / 8)%R -> (0 <= 1 - u <= 1 + d)%R /\ (1 + d <= 1 + u)%R.
Proof. intros H Hu. apply Rabs_le_inv in H. lra. Qed.
Lemma bn_factor u T : (0 <= u <= / 8)%R ->
  ((1 - u) ^ 4 * / (1 + u) ^ 2 <= T)%R -> (T <= (1 + u) ^ 4 * / (1 - u) ^ 2)%R ->
  (Rabs (T - 1) <= (1 + u) ^ 4 / (1 - u) ^ 2 - 1)%R.
Proof.
  intros Hu Hl Hh. assert (0 < (1 - u) ^ 2)%R as H1 by (apply pow_lt; lra).
  assert (0 < (1 + u) ^ 2)%R as H2 by (apply pow_lt; lra).
  assert (2 <= (1 - u) ^ 4 * / (1 + u) ^ 2 + (1 + u) ^ 4 * / (1 - u) ^ 2)%R as Hs.
  { apply (Rmult_le_reg_r ((1 + u) ^ 2 * (1 - u) ^ 2)); [by apply Rmult_lt_0_compat|].
    replace (((1 - u) ^ 4 * / (1 + u) ^ 2 + (1 + u) ^ 4 * / (1 - u) ^ 2) * ((1 + u) ^ 2 * (1 - u) ^ 2))%R
      with ((1 - u) ^ 6 + (1 + u) ^ 6)%R by (field; lra).
    set (v := (u * u)%R). assert (0 <= v)%R by (unfold v; nra).
    replace (2 * ((1 + u) ^ 2 * (1 - u) ^ 2))%R with (2 - 4 * v + 2 * (v * v))%R by (unfold v; ring).
    replace ((1 - u) ^ 6 + (1 + u) ^ 6)%R with (2 + 30 * v + 30 * (v * v) + 2 * (v * v * v))%R by (unfold v; ring).
    assert (0 <= v * v)%R by nra. assert (0 <= v * v * v)%R by nra. lra. }
  apply Rabs_le. unfold Rdiv. lra.
Qed.
Lemma bn_algebra u tn D g N sc bi d5 d6 d7 d8 h6 h7 :
  (0 <= u <= / 8)%R -> (0 < D)%R -> ((1 - u) ^ 2 * D <= g <= (1 + u) ^ 2 * D)%R ->
  (Rabs d5 <= u)%R -> (Rabs d6 <= u)%R -> (Rabs d7 <= u)%R -> (Rabs d8 <= u)%R ->
  (Rabs h6 <= tn)%R -> (Rabs h7 <= tn)%R ->
  (Rabs ((sc * ((N * (1 + d5)) / g * (1 + d6) + h6) * (1 + d7) + h7 + bi) * (1 + d8) - (sc * (N / D) + bi))
   <= ((1 + u) ^ 4 / (1 - u) ^ 2 - 1) * Rabs (sc * (N / D)) + u * Rabs bi + (Rabs sc * (1 + u) + 1) * (1 + u) * tn)%R.
Proof.
  intros Hu HD Hg H5 H6 H7 H8 K6 K7. destruct (ratio_close u D g Hu HD Hg) as (Hg0 & Hr1 & Hr2).
  destruct (one_close _ _ H5 Hu) as [A5 B5], (one_close _ _ H6 Hu) as [A6 B6], (one_close _ _ H7 Hu) as [A7 B7],
    (one_close _ _ H8 Hu) as [A8 B8].
  destruct (prod_close _ _ _ _ _ _ _ A5 B5 A6 B6 eq_refl) as [A56 B56].
  destruct (prod_close _ _ _ _ _ _ _ A7 B7 A8 B8 eq_refl) as [A78 B78].
  destruct (prod_close _ _ _ _ _ _ _ A56 B56 A78 B78 eq_refl) as [AP BP].
  destruct (prod_close _ _ _ _ _ _ _ AP BP Hr1 Hr2 eq_refl) as [AT BT].
  set (T := ((1 + d5) * (1 + d6) * ((1 + d7) * (1 + d8)) * (D / g))%R) in *.
  assert (Rabs (T - 1) <= (1 + u) ^ 4 / (1 - u) ^ 2 - 1)%R as HT.
  { apply bn_factor; [done| |].
    - replace ((1 - u) ^ 4)%R with ((1 - u) * (1 - u) * ((1 - u) * (1 - u)))%R by ring. lra.
    - replace ((1 + u) ^ 4)%R with ((1 + u) * (1 + u) * ((1 + u) * (1 + u)))%R by ring. lra. }
  replace ((sc * ((N * (1 + d5)) / g * (1 + d6) + h6) * (1 + d7) + h7 + bi) * (1 + d8) - (sc * (N / D) + bi))%R
    with ((T - 1) * (sc * (N / D)) + bi * d8 + (sc * (1 + d7) * h6 + h7) * (1 + d8))%R
    by (unfold T; field; lra).
  eapply Rle_trans; [apply Rabs_triang|]. apply Rplus_le_compat.
  - eapply Rle_trans; [apply Rabs_triang|]. rewrite !Rabs_mult. apply Rplus_le_compat.
    + apply Rmult_le_compat_r; [|done]. apply Rmult_le_pos; apply Rabs_pos.
    + rewrite Rmult_comm. apply Rmult_le_compat_r; [apply Rabs_pos|done].
  - rewrite Rabs_mult, (Rabs_pos_eq (1 + d8)) by lra.
    assert (Rabs (sc * (1 + d7) * h6 + h7) <= (Rabs sc * (1 + u) + 1) * tn)%R as Hx.
    { eapply Rle_trans; [apply Rabs_triang|]. rewrite !Rabs_mult, (Rabs_pos_eq (1 + d7)) by lra.
      pose proof (Rabs_pos sc). pose proof (Rabs_pos h6).
      assert (Rabs sc * (1 + d7) * Rabs h6 <= Rabs sc * (1 + u) * tn)%R; [|lra].
      apply Rmult_le_compat; [apply Rmult_le_pos; lra|lra|apply Rmult_le_compat_l; lra|lra]. }
    replace ((Rabs sc * (1 + u) + 1) * (1 + u) * tn)%R with ((Rabs sc * (1 + u) + 1) * tn * (1 + u))%R by ring.
    apply Rmult_le_compat; [apply Rabs_pos|lra|done|lra].
Qed.
Lemma quot_close u D g N d5 d6 : (0 <= u <= / 8)%R -> (0 < D)%R -> ((1 - u) ^ 2 * D <= g <= (1 + u) ^ 2 * D)%R ->
  (Rabs d5 <= u)%R -> (Rabs d6 <= u)%R ->
  (Rabs (N * (1 + d5) / g * (1 + d6)) <= (1 + u) ^ 2 / (1 - u) ^ 2 * Rabs (N / D))%R.
Proof.
  intros Hu HD Hg H5 H6. destruct (ratio_close u D g Hu HD Hg) as (Hg0 & Hr1 & Hr2).
  destruct (one_close _ _ H5 Hu) as [A5 B5], (one_close _ _ H6 Hu) as [A6 B6].
  destruct (prod_close _ _ _ _ _ _ _ A5 B5 A6 B6 eq_refl) as [A56 B56].
  destruct (prod_close _ _ _ _ _ _ _ A56 B56 Hr1 Hr2 eq_refl) as [AT BT].
  replace (N * (1 + d5) / g * (1 + d6))%R with ((1 + d5) * (1 + d6) * (D / g) * (N / D))%R by (field; lra).
  rewrite Rabs_mult. apply Rmult_le_compat_r; [apply Rabs_pos|]. rewrite Rabs_pos_eq by lra.
  unfold Rdiv. replace ((1 + u) ^ 2)%R with ((1 + u) * (1 + u))%R by ring. exact BT.
Qed.

(** ** One element *)
Lemma bn_is_accurate t eps va sc bi me x w : is_float t = true -> bn_range t eps va ->
  val_ok t va -> val_ok t sc -> val_ok t bi -> val_ok t me -> val_ok t x ->
  bn_is t eps va sc bi me x w -> bn_accurate t eps va sc bi me x w.
Proof.
  intros Ht Hrg Vva Vsc Vbi Vme Vx (e & a & d & y & z & v & Hc & Ha & _ & Hs & Hy & Hz & Hv & Hw).
  destruct (bn_root t eps va e a d Ht Hrg Vva Hc Ha Hs) as (g & -> & Vg & Fg & HD & Hg). clear Hc Ha Hs.
  destruct (bin_float _ _ _ _ _ Hy Ht Vx Vme) as (fx & fm & fy & -> & -> & -> & Vfx & Vfm & Vfy).
  destruct (bin_float _ _ _ _ _ Hz Ht (conj Ht Vfy) (conj Ht Vg)) as (? & ? & fz & [= <-] & [= <-] & -> & _ & _ & Vfz).
  destruct (bin_float _ _ _ _ _ Hv Ht Vsc (conj Ht Vfz)) as (fs & ? & fv & -> & [= <-] & -> & Vfs & _ & Vfv).
  destruct (bin_float _ _ _ _ _ Hw Ht (conj Ht Vfv) Vbi) as (? & fb & fw & [= <-] & -> & -> & _ & Vfb & Vfw).
  pose proof (uround_pos t) as Hu0. pose proof (uround_half t Ht) as Hu8.
  destruct (ratio_close (uround t) _ _ (conj (Rlt_le _ _ Hu0) Hu8) HD Hg) as (Hg0 & _).
  assert (RV g <> 0%R) as Hgn by lra.
  unfold bn_accurate, bn_real, bn_error, bn_safe, bn_quot. cbv zeta. cbn [val_real].
  set (D := sqrt (val_real va + RV eps)) in *. set (u := uround t) in *.
  destruct (rnd_add_err t (RV fx) (- RV fm) (fmt_val t fx Vfx)) as (d5 & H5 & R5).
  { apply generic_format_opp, fmt_val; done. }
  fold u in H5. change (RV fx + - RV fm)%R with (RV fx - RV fm)%R in R5.
  destruct (rnd_err t (RV fy / RV g)) as (d6 & h6 & H6 & K6 & R6). fold u in H6.
  destruct (rnd_err t (RV fs * RV fz)) as (d7 & h7 & H7 & K7 & R7). fold u in H7.
  destruct (rnd_add_err t (RV fv) (RV fb) (fmt_val t fv Vfv) (fmt_val t fb Vfb)) as (d8 & H8 & R8). fold u in H8.
  assert (0 <= u <= / 8)%R as Hu by lra.
  split.
  - intros (f & [= <-] & Ff).
    destruct (bin_finite _ _ _ _ _ Hw ltac:(by left) Ff) as (F1 & F2 & E8).
    destruct (bin_finite _ _ _ _ _ Hv ltac:(by left) F1) as (F3 & F4 & E7).
    destruct (bin_finite _ _ _ _ _ Hz ltac:(by right) F4) as (F5 & _ & E6).
    destruct (bin_finite _ _ _ _ _ Hy ltac:(by left) F5) as (F6 & F7 & E5).
    split. { repeat constructor; eexists; eauto. }
    cbn [op_real] in *. rewrite E8, R8, E7, R7, E6, R6, E5, R5. by apply bn_algebra.
  - rewrite !Forall_cons. intros ((? & [= <-] & Fs) & (? & [= <-] & Fb) & (? & [= <-] & Fm) & (? & [= <-] & Fx) & _).
    intros (S5 & S6 & S7 & S8).
    destruct (bin_small _ _ _ _ _ Hy Fx Fm ltac:(done)) as (Fy & E5).
    { cbn [op_real]. rewrite R5, Rabs_mult. destruct (one_close _ _ H5 Hu). rewrite (Rabs_pos_eq (1 + d5)) by lra.
      eapply Rle_lt_trans; [|exact S5]. rewrite Rmult_comm. apply Rmult_le_compat_r; [apply Rabs_pos|lra]. }
    cbn [op_real] in *. rewrite R5 in E5.
    set (zb := ((1 + u) ^ 2 / (1 - u) ^ 2 * Rabs ((RV fx - RV fm) / D) + tiny t)%R) in *.
    assert (Rabs (rnd t (RV fy / RV g)) <= zb)%R as B6.
    { rewrite R6. eapply Rle_trans; [apply Rabs_triang|]. unfold zb. apply Rplus_le_compat; [|done].
      rewrite E5. by apply quot_close. }
    destruct (bin_small _ _ _ _ _ Hz Fy Fg ltac:(done)) as (Fz & E6). { cbn [op_real]. lra. }
    cbn [op_real] in *. rewrite <-E6 in B6.
    set (yb := ((1 + u) * (Rabs (RV fs) * zb) + tiny t)%R) in *.
    assert (Rabs (rnd t (RV fs * RV fz)) <= yb)%R as B7.
    { rewrite R7. eapply Rle_trans; [apply Rabs_triang|]. unfold yb. apply Rplus_le_compat; [|done].
      destruct (one_close _ _ H7 Hu). rewrite !Rabs_mult, (Rabs_pos_eq (1 + d7)), Rmult_comm by lra.
      pose proof (Rabs_pos (RV fs)). pose proof (Rabs_pos (RV fz)).
      apply Rmult_le_compat; [lra|by apply Rmult_le_pos|lra|]. by apply Rmult_le_compat_l. }
    destruct (bin_small _ _ _ _ _ Hv Fs Fz ltac:(done)) as (Fv & E7). { cbn [op_real]. lra. }
    cbn [op_real] in *. rewrite <-E7 in B7.
    destruct (bin_small _ _ _ _ _ Hw Fv Fb ltac:(done)) as (Fw & _); [|by eexists].
    cbn [op_real]. rewrite R8. destruct (one_close _ _ H8 Hu). rewrite Rabs_mult, (Rabs_pos_eq (1 + d8)) by lra.
    eapply Rle_lt_trans; [|exact S8]. rewrite Rmult_comm.
    apply Rmult_le_compat; [lra|apply Rabs_pos|lra|]. eapply Rle_trans; [apply Rabs_triang|]. lra.
Qed.
