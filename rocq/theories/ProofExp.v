(** * ProofExp: a correctly rounded exp, and where exp overflows *)
From Coq Require Import ZArith Lia Reals Lra Floats.SpecFloat.
From Flocq Require Import Core IEEE754.BinarySingleNaN.
From Verif Require Import Base Spec SpecReal SpecError SpecExp.
From Verif Require Import ProofFloat ProofFloat2 ProofFloat3 ProofFloat4 ProofError.
Open Scope Z_scope.

(** ** The correctly rounded exp *)
Lemma exp_rounded_fin x : is_finite_SF x = true ->
  exp_rounded x =
    let r := rnd F64 (exp (RV x)) in
    let fe := SpecFloat.fexp 53 1024 in
    SpecFloat.binary_normalize 53 1024
      (Ztrunc (scaled_mantissa radix2 fe r)) (cexp radix2 fe r) false.
Proof. now destruct x. Qed.

Lemma exp_rounded_val x : is_finite_SF x = true ->
  vb F64 (exp_rounded x) = true /\
  ((rnd F64 (exp (RV x)) < bpow radix2 1024)%R ->
    is_finite_SF (exp_rounded x) = true /\ RV (exp_rounded x) = rnd F64 (exp (RV x))) /\
  ((bpow radix2 1024 <= rnd F64 (exp (RV x)))%R -> exp_rounded x = S754_infinity false).
Proof.
  intros Hf. rewrite (exp_rounded_fin x Hf). cbv zeta. set (r := rnd F64 (exp (RV x))).
  assert (0 <= r)%R as Hr by (apply rnd_nonneg, Rlt_le, exp_pos).
  assert (fmt F64 r) as Hfm by (unfold r, rnd; apply generic_format_round; typeclasses eauto).
  rewrite (binary_normalize_eq 53 1024).
  set (m := Ztrunc _). set (e := cexp _ _ _).
  pose proof (binary_normalize_correct 53 1024 (Hp F64) (Hm F64) mode_NE m e false) as H. cbv zeta in H.
  assert (F2R (Float radix2 m e) = r) as HF by (symmetry; exact Hfm).
  rewrite HF in H.
  assert (round radix2 (SpecFloat.fexp 53 1024) (round_mode mode_NE) r = r) as Hrr
    by (apply round_generic; [apply (valid_rnd_round_mode mode_NE)|exact Hfm]).
  rewrite Hrr in H. rewrite (Rabs_pos_eq r) in H by easy.
  split; [apply valid_binary_B2SF|]. rewrite is_finite_SF_B2SF, SF2R_B2SF. split.
  - intros Hlt. rewrite Rlt_bool_true in H by easy. now destruct H as (H1 & H2 & _).
  - intros Hge. rewrite Rlt_bool_false in H by easy. rewrite Rlt_bool_false in H by easy. exact H.
Qed.

Lemma exp_rounded_close : exp_close exp_rounded (uround F64).
Proof.
  split; [|easy]. intros x Hv Hf. destruct (exp_rounded_val x Hf) as (V & H1 & H2). split; [exact V|].
  destruct (Rlt_or_le (rnd F64 (exp (RV x))) (bpow radix2 1024)) as [Hlt|Hge].
  - left. destruct (H1 Hlt) as [Ff Fr]. split; [exact Ff|]. rewrite Fr.
    split; [apply rnd_nonneg, Rlt_le, exp_pos|].
    destruct (rnd_err F64 (exp (RV x))) as (e & h & He & Hh & ->).
    replace (exp (RV x) * (1 + e) + h - exp (RV x))%R with (e * exp (RV x) + h)%R by ring.
    eapply Rle_trans; [apply Rabs_triang|]. rewrite Rabs_mult, (Rabs_pos_eq (exp (RV x))) by apply Rlt_le, exp_pos.
    apply Rplus_le_compat.
    + apply Rmult_le_compat_r; [apply Rlt_le, exp_pos|exact He].
    + eapply Rle_trans; [exact Hh|]. unfold tiny. apply bpow_le. now unfold femax, fprec.
  - right. split; [now apply H2|]. destruct (Rle_or_lt (bpow radix2 1023) (exp (RV x))) as [Hc|Hc]; [exact Hc|].
    exfalso. assert (rnd F64 (exp (RV x)) <= bpow radix2 1023)%R as Hle.
    { rewrite <-(rnd_fmt F64 (bpow radix2 1023)).
      - apply rnd_le. lra.
      - apply generic_format_bpow. now vm_compute. }
    assert (bpow radix2 1023 < bpow radix2 1024)%R by now apply bpow_lt. lra.
Qed.

(** ** Bounds on e *)
Lemma fact_S n : INR (fact (S n)) = (INR (S n) * INR (fact n))%R.
Proof. now rewrite fact_simpl, mult_INR. Qed.
Lemma fact0 : INR (fact 0) = 1%R. Proof. reflexivity. Qed.
Lemma fact1 : INR (fact 1) = 1%R. Proof. rewrite fact_S, fact0. change (INR 1) with (INR (Z.to_nat 1)). rewrite INR_IZR_INZ, Z2Nat.id by lia. lra. Qed.
Lemma fact2 : INR (fact 2) = 2%R. Proof. rewrite fact_S, fact1. change (INR 2) with (INR (Z.to_nat 2)). rewrite INR_IZR_INZ, Z2Nat.id by lia. lra. Qed.
Lemma fact3 : INR (fact 3) = 6%R. Proof. rewrite fact_S, fact2. change (INR 3) with (INR (Z.to_nat 3)). rewrite INR_IZR_INZ, Z2Nat.id by lia. lra. Qed.
Lemma fact4 : INR (fact 4) = 24%R. Proof. rewrite fact_S, fact3. change (INR 4) with (INR (Z.to_nat 4)). rewrite INR_IZR_INZ, Z2Nat.id by lia. lra. Qed.
Lemma fact5 : INR (fact 5) = 120%R. Proof. rewrite fact_S, fact4. change (INR 5) with (INR (Z.to_nat 5)). rewrite INR_IZR_INZ, Z2Nat.id by lia. lra. Qed.
Lemma fact6 : INR (fact 6) = 720%R. Proof. rewrite fact_S, fact5. change (INR 6) with (INR (Z.to_nat 6)). rewrite INR_IZR_INZ, Z2Nat.id by lia. lra. Qed.
Lemma fact7 : INR (fact 7) = 5040%R. Proof. rewrite fact_S, fact6. change (INR 7) with (INR (Z.to_nat 7)). rewrite INR_IZR_INZ, Z2Nat.id by lia. lra. Qed.
Lemma fact8 : INR (fact 8) = 40320%R. Proof. rewrite fact_S, fact7. change (INR 8) with (INR (Z.to_nat 8)). rewrite INR_IZR_INZ, Z2Nat.id by lia. lra. Qed.
Lemma fact9 : INR (fact 9) = 362880%R. Proof. rewrite fact_S, fact8. change (INR 9) with (INR (Z.to_nat 9)). rewrite INR_IZR_INZ, Z2Nat.id by lia. lra. Qed.
Lemma exp_1_ge : (2.7182 <= exp 1)%R.
Proof.
  unfold exp. destruct (exist_exp 1) as [l Hl]. cbn [proj1_sig]. unfold exp_in, infinite_sum in Hl.
  eapply Rle_trans; [|apply (sum_incr (fun i => / INR (fact i) * 1 ^ i)%R 8 l)].
  - cbn [sum_f_R0]. rewrite ?fact0, ?fact1, ?fact2, ?fact3, ?fact4, ?fact5, ?fact6, ?fact7, ?fact8, ?fact9. rewrite !pow1. lra.
  - exact Hl.
  - intros n. rewrite pow1, Rmult_1_r. apply Rlt_le, Rinv_0_lt_compat, INR_fact_lt_0.
Qed.
Lemma exp_1_le : (exp 1 <= 2.7183)%R.
Proof.
  assert (/ 2.7183 <= exp (-1))%R as H.
  { unfold exp. destruct (exist_exp (-1)) as [l Hl]. cbn [proj1_sig]. unfold exp_in, infinite_sum in Hl.
    pose (Un := fun n => (/ INR (fact n))%R).
    assert (forall n, tg_alt Un n = / INR (fact n) * (-1) ^ n)%R as He by (intros n; unfold tg_alt, Un; ring).
    assert (Un_cv (fun N => sum_f_R0 (tg_alt Un) N) l) as Hcv.
    { intros eps Heps. destruct (Hl eps Heps) as [N HN]. exists N. intros n Hn.
      rewrite (sum_eq _ (fun n => / INR (fact n) * (-1) ^ n)%R); [now apply HN|]. intros. apply He. }
    destruct (alternated_series_ineq Un l 4) as [H1 _].
    - intros n. unfold Un. apply Rinv_le_contravar; [apply INR_fact_lt_0|]. apply le_INR. cbn. lia.
    - intros eps Heps. destruct (cv_speed_pow_fact 1 eps Heps) as [N HN]. exists N. intros n Hn.
      specialize (HN n Hn). rewrite pow1 in HN. unfold Rdiv in HN. now rewrite Rmult_1_l in HN.
    - exact Hcv.
    - eapply Rle_trans; [|exact H1]. cbn [Nat.mul Nat.add]. cbn [sum_f_R0]. unfold tg_alt, Un. rewrite ?fact0, ?fact1, ?fact2, ?fact3, ?fact4, ?fact5, ?fact6, ?fact7, ?fact8, ?fact9. cbn [pow]. lra. }
  replace (-1)%R with (- (1))%R in H by ring. rewrite exp_Ropp in H. apply Rinv_le_contravar in H; [|apply Rinv_0_lt_compat; lra].
  rewrite !Rinv_inv in H. exact H.
Qed.
Lemma exp_INR n : exp (INR n) = (exp 1 ^ n)%R.
Proof.
  induction n as [|n IH]; [apply exp_0|]. rewrite S_INR, exp_plus, IH. cbn [pow]. ring.
Qed.
Lemma exp_Z z : 0 <= z -> exp (IZR z) = (exp 1 ^ Z.to_nat z)%R.
Proof. intros. rewrite <-exp_INR, INR_IZR_INZ, Z2Nat.id; easy. Qed.
Lemma pow_Z z k : 0 <= k -> (IZR z ^ Z.to_nat k)%R = IZR (z ^ k).
Proof. intros. rewrite pow_IZR, Z2Nat.id; easy. Qed.

(** exp overflows between 709 and 710. *)
Lemma exp_709 : (exp 709 < bpow radix2 1023)%R.
Proof.
  rewrite exp_Z by easy.
  assert (exp 1 * 10000 <= 27183)%R as H by (pose proof exp_1_le; lra).
  assert (0 <= exp 1 * 10000)%R as H0 by (pose proof (exp_pos 1); lra).
  pose proof (pow_incr _ _ (Z.to_nat 709) (conj H0 H)) as Hp.
  rewrite Rpow_mult_distr, !pow_Z in Hp by easy.
  apply (Rmult_lt_reg_r (IZR (10000 ^ 709))); [apply IZR_lt; easy|].
  eapply Rle_lt_trans; [exact Hp|]. rewrite bpow_IZR by easy. rewrite <-mult_IZR. apply IZR_lt. vm_compute. reflexivity.
Qed.
Lemma exp_709_ge : (bpow radix2 1002 <= exp 709)%R.
Proof.
  rewrite exp_Z by easy.
  assert (27182 <= exp 1 * 10000)%R as H by (pose proof exp_1_ge; lra).
  assert (0 <= 27182)%R as H0 by lra.
  pose proof (pow_incr _ _ (Z.to_nat 709) (conj H0 H)) as Hp.
  rewrite Rpow_mult_distr, !pow_Z in Hp by easy.
  apply (Rmult_le_reg_r (IZR (10000 ^ 709))); [apply IZR_lt; easy|].
  eapply Rle_trans; [|exact Hp]. rewrite bpow_IZR by easy. rewrite <-mult_IZR. apply IZR_le. vm_compute. discriminate.
Qed.
Lemma exp_710 : (8 / 7 * bpow radix2 1024 < exp 710)%R.
Proof.
  rewrite exp_Z by easy.
  assert (27182 <= exp 1 * 10000)%R as H by (pose proof exp_1_ge; lra).
  assert (0 <= 27182)%R as H0 by lra.
  pose proof (pow_incr _ _ (Z.to_nat 710) (conj H0 H)) as Hp.
  rewrite Rpow_mult_distr, !pow_Z in Hp by easy.
  apply (Rmult_lt_reg_r (IZR (10000 ^ 710))); [apply IZR_lt; easy|].
  eapply Rlt_le_trans; [|exact Hp]. rewrite bpow_IZR by easy.
  apply (Rmult_lt_reg_r 7); [lra|].
  replace (8 / 7 * IZR (2 ^ 1024) * IZR (10000 ^ 710) * 7)%R with (8 * IZR (2 ^ 1024) * IZR (10000 ^ 710))%R by field.
  rewrite <-!mult_IZR. apply IZR_lt. vm_compute. reflexivity.
Qed.
Lemma exp_incr x y : (x <= y)%R -> (exp x <= exp y)%R.
Proof. intros [H| ->]; [left; now apply exp_increasing|now right]. Qed.
