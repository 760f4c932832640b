(** * ProofAuto3: naturally assigned arithmetic samples *)
From stdpp Require Import gmap list list_numbers.
From Coq Require Import ZArith Lia Reals Lra Floats.SpecFloat.
From Coq Require Import ZifyBool ZifyNat.
From Flocq Require Import Core IEEE754.BinarySingleNaN.
From Verif Require Import Base Mem Spec SpecReal SpecNN SpecError ModelCore ModelBasic ModelMath ModelSample ModelAuto SpecAuto.
From Verif Require Import ProofFloat ProofFloat2 ProofFloat3 ProofFloat4 ProofCast ProofError.
From Verif Require Import Logic ProofCore ProofCore2 ProofCore3 ProofKernel ProofBasic ProofMath ProofSqrt ProofAuto ProofAuto2.
Open Scope Z_scope.

Lemma natural_ok t i w : natural_spec t i w -> val_ok t w.
Proof.
  unfold natural_spec. destruct (is_float t) eqn:Hf.
  - intros (f & -> & Hv & _). done.
  - intros (z & -> & Hz & _). done.
Qed.

Lemma natural_value t i w : is_float t = false -> Z.of_nat i + 1 <= tmax t -> tmin t <= 0 ->
  natural_spec t i w -> w = VI (Z.of_nat i + 1).
Proof.
  intros Hf Hm Hm0. unfold natural_spec. rewrite Hf. intros (z & -> & Hz & Hc). f_equal.
  rewrite <-(wrap_id t z Hz), <-(wrap_id t (Z.of_nat i + 1)) by lia.
  unfold wrap. destruct (is_signed t); [|done]. f_equal.
  rewrite <-(Zplus_mod_idemp_l z), <-(Zplus_mod_idemp_l (Z.of_nat i + 1)). by rewrite Hc.
Qed.

Lemma natural_range t i f : is_float t = true -> Z.of_nat i + 1 <= 2 ^ 30 -> natural_spec t i (VF f) ->
  valid_binary (fprec t) (femax t) f = true /\ is_finite_SF f = true /\ (1 / 20 <= RV f <= 536870912)%R.
Proof.
  intros Ht Hi. unfold natural_spec. rewrite Ht. intros (g & [= <-] & Hv & Hf & He).
  split; [done|]. split; [done|]. apply Rabs_between in He.
  assert (0 <= uround t <= / 16777216)%R as [Hu0 Hu1].
  { split; [apply bpow_ge_0|]. change (/ 16777216)%R with (bpow radix2 (-24)). unfold uround. apply bpow_le.
    destruct t; try done; cbn; lia. }
  set (n := IZR (Z.of_nat i + 1)) in *.
  assert (1 <= n <= 1073741824)%R as [Hn0 Hn1].
  { unfold n. split; [apply (IZR_le 1); lia|apply (IZR_le _ 1073741824); lia]. }
  assert (0 <= uround t * n <= n / 16777216)%R as [? ?] by nra.
  replace (6 * uround t * (n / 10))%R with (6 / 10 * (uround t * n))%R in He by field. lra.
Qed.

Lemma natural_bin t o n i x y : natural_case t o n -> Z.of_nat i < n -> n * Z.of_nat (tsz t) < 2 ^ 32 ->
  natural_spec t i x -> natural_spec t i y ->
  op_defined t o x y /\
  (forall w, bin_spec t o x y (Some w) -> val_ok t w /\ (is_float t = true -> finite_val w)).
Proof.
  intros Hc Hi Hn Hx Hy. destruct (is_float t) eqn:Ht.
  - assert (exists f, x = VF f) as [f ->] by (unfold natural_spec in Hx; rewrite Ht in Hx; destruct Hx as (f & -> & _); eauto).
    assert (exists f, y = VF f) as [g ->] by (unfold natural_spec in Hy; rewrite Ht in Hy; destruct Hy as (g & -> & _); eauto).
    split; [done|].
    assert (Z.of_nat i + 1 <= 2 ^ 30) as Hi' by (destruct t; try done; cbn [tsz] in Hn; lia).
    destruct (natural_range t i f Ht Hi' Hx) as (Vx & Fx & Rx0 & Rx1).
    destruct (natural_range t i g Ht Hi' Hy) as (Vy & Fy & Ry0 & Ry1).
    intros w (r & [= ->] & Hv & Hr).
    split; [done|]. intros _. exists r. split; [done|].
    assert (op_special o f g = None) as Hs.
    { destruct f as [s|s| |s m e], g as [s'|s'| |s' m' e']; try done; cbn [SF2R] in *; try lra. }
    rewrite Hs in Hr. destruct Hr as [Hr _]. apply Hr.
    apply Rle_lt_trans with (bpow radix2 60).
    2:{ apply bpow_lt. destruct t; try done; cbn; lia. }
    unfold rnd. apply abs_round_le_generic.
    + apply (@fexp_correct (fprec t) (femax t) (Hp t)).
    + apply valid_rnd_N.
    + apply generic_format_bpow. unfold SpecFloat.fexp, SpecFloat.emin. destruct t; cbn; lia.
    + change (bpow radix2 60) with 1152921504606846976%R. apply Rabs_le.
      destruct o; cbn [op_real]; try nra.
      assert (0 <= RV f / RV g <= 536870912 * 20)%R; [|lra]. unfold Rdiv.
      assert (0 < / RV g <= 20)%R as [? ?].
      { split; [apply Rinv_0_lt_compat; lra|]. replace 20%R with (/ (1 / 20))%R by field.
        apply Rinv_le_contravar; lra. }
      split; [apply Rmult_le_pos; lra|]. apply Rmult_le_compat; lra.
  - assert (tmin t <= 0 /\ 2 ^ 29 <= tmax t \/ False) as [[Hm0 Hm]|[]].
    { destruct t; try done; left; vm_compute; split; discriminate. }
    assert (Z.of_nat i + 1 < 2 ^ 30) as Hi1 by (destruct t; try done; cbn [tsz] in Hn; lia).
    assert (Z.of_nat i + 1 <= tmax t) as Hi2.
    { destruct t; try done; cbn [tsz] in Hn;
        match goal with |- _ <= ?b => let c := eval vm_compute in b in change b with c end; lia. }
    rewrite (natural_value t i x Ht Hi2 Hm0 Hx), (natural_value t i y Ht Hi2 Hm0 Hy).
    set (z := Z.of_nat i + 1) in *. assert (0 < z) by lia.
    assert (int_defined t o z z) as Hd.
    { split; [lia|]. destruct t; try done; cbn [tsz] in Hn; destruct o; cbn [op_int]; try lia; try (specialize (Hc eq_refl));
        first [nia|rewrite Z.quot_same by lia; lia]. }
    split; [done|]. intros w [Hw _]. destruct (Hw Hd) as (r & [= ->] & Hr & _). done.
Qed.

Lemma natural_pass E s o t dims : wf s -> alloc_all E -> fits (tsz t) dims ->
  prodZ dims * Z.of_nat (tsz t) < UINT32_MOD -> prodZ dims <= INT_MAX -> natural_case t o (prodZ dims) ->
  exists p1 l1 s1 p2 l2 s2 s3,
    natural_operand dims (code_of t) E s = Done (p1, l1) s1 /\
    natural_operand dims (code_of t) E s1 = Done (p2, l2) s2 /\
    auto_case (aitisa_binary_op o) (itself (aitisa_binary_op o))
      (Opd dims (code_of t) 0 p1 l1) (Opd dims (code_of t) 0 p2 l2) None t (same_as t) E s2 = Done true s3.
Proof.
  intros Hwf HA Hf Hl Hmax Hc.
  destruct (natural_operand_ok dims t (Dev 0 0) E s Hwf Hf Hl HA) as (p1 & l1 & s1 & ws & R1 & W1 & K1 & N1 & S1).
  destruct (natural_operand_ok dims t (Dev 0 0) E s1 W1 Hf Hl HA) as (p2 & l2 & s2 & vs & R2 & W2 & K2 & N2 & S2).
  cbn [dev_type] in *. apply (supplied_mono _ _ _ _ K2) in S1.
  exists p1, l1, s1, p2, l2, s2.
  set (x1 := Opd dims (code_of t) 0 p1 l1) in *. set (x2 := Opd dims (code_of t) 0 p2 l2) in *.
  assert (valid (AT t (Dev 0 0) dims ws)) as V1 by apply S1.
  assert (valid (AT t (Dev 0 0) dims vs)) as V2 by apply S2.
  pose proof (valid_len _ V1) as L1. pose proof (valid_len _ V2) as L2. cbn [a_vals a_dims] in L1, L2.
  unfold UINT32_MOD in Hl.
  assert (forall i x y, ws !! i = Some x -> vs !! i = Some y ->
    op_defined t o x y /\
    (forall w, bin_spec t o x y (Some w) -> val_ok t w /\ (is_float t = true -> finite_val w))) as Hb.
  { intros i x y Hx Hy. apply (natural_bin t o (prodZ dims) i); auto. apply lookup_lt_Some in Hx. lia. }
  assert (exists zs, Forall3 (fun x y w => bin_val t o x y = Some w) ws vs zs /\
     Forall (val_ok t) zs /\ (is_float t = true -> Forall finite_val zs)) as (zs & Z1 & Z2 & Z3).
  { assert (length ws = length vs) as Hlen by lia.
    assert (Forall (val_ok t) ws) as I1.
    { apply Forall_lookup_2. intros i x Hx. by eapply natural_ok, N1. }
    assert (Forall (val_ok t) vs) as I2.
    { apply Forall_lookup_2. intros i x Hx. by eapply natural_ok, N2. }
    clear -Hb Hlen I1 I2. revert vs Hb Hlen I1 I2. induction ws as [|x ws IH]; intros [|y vs] Hb Hlen I1 I2; try done.
    { exists []. split; [constructor|]. done. }
    destruct (IH vs) as (zs & Z1 & Z2 & Z3).
    { intros i a b Ha Hb'. by apply (Hb (S i)). }
    { by injection Hlen. }
    { by inversion I1. }
    { by inversion I2. }
    destruct (Hb O x y eq_refl eq_refl) as [Hd Hw].
    pose proof (bin_val_spec t o x y ltac:(by inversion I1) ltac:(by inversion I2)) as Hs.
    assert (exists w, bin_val t o x y = Some w) as [w Hw'].
    { destruct x as [a|a|], y as [b|b|]; try (inversion I1; by inversion I2).
      - destruct Hs as [Hs _]. destruct (Hs Hd) as (r & -> & _). eauto.
      - inversion I1 as [|? ? Q1]; inversion I2 as [|? ? Q2]. cbn in Q1, Q2. exfalso. destruct Q1, Q2. congruence.
      - inversion I1 as [|? ? Q1]; inversion I2 as [|? ? Q2]. cbn in Q1, Q2. exfalso. destruct Q1, Q2. congruence.
      - destruct Hs as (r & -> & _). eauto. }
    rewrite Hw' in Hs. destruct (Hw w Hs) as [Hok Hfin].
    exists (w :: zs). split; [by constructor|]. split; [by constructor|]. intros Ht. constructor; auto. }
  destruct (self_verdict E s2 (aitisa_binary_op o) x1 x2 (AT t (Dev 0 0) dims ws) (AT t (Dev 0 0) dims vs)
    (AT t (Dev 0 0) dims zs)) as (b & s3 & Hr & Hb'); try done.
  { intros s' q1 q2 o' Hwf' Q1 Q2.
    apply (binary_rule o q1 q2 (AT t (Dev 0 0) dims ws) (AT t (Dev 0 0) dims vs) zs); done. }
  { split; [done|]. cbn [a_vals a_dims]. rewrite <-L1. f_equal. clear -Z1. induction Z1; cbn; congruence. }
  exists s3. split; [done|]. split; [done|]. cbn [a_type a_vals] in *.
  rewrite (proj2 Hb' Z3) in Hr. exact Hr.
Qed.
