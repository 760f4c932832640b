(** * ProofExp3: softmax against the real function; tanh near 0; overflows *)
From stdpp Require Import gmap list list_numbers.
From Coq Require Import ZArith Lia ZifyBool ZifyNat Reals Lra Floats.SpecFloat.
From Flocq Require Import Core IEEE754.BinarySingleNaN.
From Verif Require Import Base Mem Spec SpecReal SpecNN SpecError SpecSoft SpecExp.
From Verif Require Import ProofFloat ProofFloat2 ProofFloat3 ProofFloat4 ProofError ProofNN ProofSoft ProofExp ProofExp2.
Open Scope Z_scope.

Lemma exp_le_Z z k : 0 <= z -> 0 <= k -> 27183 ^ z <= 2 ^ k * 10000 ^ z -> (exp (IZR z) <= bpow radix2 k)%R.
Proof.
  intros Hz Hk Hc. rewrite exp_Z by done.
  assert (exp 1 * 10000 <= 27183)%R as H by (pose proof exp_1_le; lra).
  assert (0 <= exp 1 * 10000)%R as H0 by (pose proof (exp_pos 1); lra).
  pose proof (pow_incr _ _ (Z.to_nat z) (conj H0 H)) as Hp.
  rewrite Rpow_mult_distr, !pow_Z in Hp by done.
  apply (Rmult_le_reg_r (IZR (10000 ^ z))); [apply IZR_lt; by apply Z.pow_pos_nonneg|].
  eapply Rle_trans; [exact Hp|]. rewrite bpow_IZR by done. rewrite <-mult_IZR. by apply IZR_le.
Qed.
Lemma exp_ge_Z z k a b : 0 <= z -> 0 <= k -> 0 < b -> a * 2 ^ k * 10000 ^ z <= b * 27182 ^ z ->
  (IZR a / IZR b * bpow radix2 k <= exp (IZR z))%R.
Proof.
  intros Hz Hk Hb Hc. rewrite exp_Z by done.
  assert (27182 <= exp 1 * 10000)%R as H by (pose proof exp_1_ge; lra).
  assert (0 <= 27182)%R as H0 by lra.
  pose proof (pow_incr _ _ (Z.to_nat z) (conj H0 H)) as Hp.
  rewrite Rpow_mult_distr, !pow_Z in Hp by done.
  assert (0 < IZR b)%R as Hb' by by apply IZR_lt.
  apply (Rmult_le_reg_r (IZR (10000 ^ z))); [apply IZR_lt; by apply Z.pow_pos_nonneg|].
  eapply Rle_trans; [|exact Hp]. rewrite bpow_IZR by done. apply (Rmult_le_reg_r (IZR b)); [done|].
  replace (IZR a / IZR b * IZR (2 ^ k) * IZR (10000 ^ z) * IZR b)%R with (IZR a * IZR (2 ^ k) * IZR (10000 ^ z))%R by (field; lra).
  rewrite <-!mult_IZR. apply IZR_le. lia.
Qed.
Lemma exp_soft_max t : is_float t = true ->
  (exp (soft_max t) <= bpow radix2 (soft_exp t))%R /\ (exp (- soft_min t) <= bpow radix2 (soft_low t))%R.
Proof.
  destruct t; try done; intros _; cbn [soft_max soft_exp soft_min soft_low]; rewrite <-opp_IZR; cbn [Z.opp]; split.
  - apply (exp_le_Z 88 127); [done|done|]. vm_compute. discriminate.
  - apply (exp_le_Z 80 116); [done|done|]. vm_compute. discriminate.
  - apply (exp_le_Z 672 970); [done|done|]. vm_compute. discriminate.
  - apply (exp_le_Z 600 866); [done|done|]. vm_compute. discriminate.
Qed.
Lemma exp_soft_range t x : is_float t = true -> (soft_min t <= x <= soft_max t)%R ->
  (bpow radix2 (- soft_low t) <= exp x <= bpow radix2 (soft_exp t))%R.
Proof.
  intros Ht [H1 H2]. destruct (exp_soft_max t Ht) as [Hm Hn]. split.
  - eapply Rle_trans; [|apply exp_incr, H1]. rewrite <-(Ropp_involutive (soft_min t)), exp_Ropp, bpow_opp.
    apply Rinv_le_contravar; [apply exp_pos|done].
  - eapply Rle_trans; [apply exp_incr, H2|done].
Qed.

(** ** Softmax *)
Section soft.
  Context (t : tcode) (Ht : is_float t = true) (ex : spec_float -> spec_float) (eps : R).
  Context (Hex : exp_close ex eps) (Heps : (0 <= eps <= / 16)%R).
  Let eta := soft_eta t eps.

  Lemma eta_small : (0 < eta <= / 8)%R.
  Proof.
    unfold eta, soft_eta. assert (0 < bpow radix2 (-200) <= / 1024)%R as H1.
    { split; [apply bpow_gt_0|]. apply (bpow_le radix2 _ (-10)). lia. }
    assert (0 < tiny t * bpow radix2 (soft_low t) <= / 1024)%R as H2.
    { unfold tiny. rewrite <-bpow_plus. split; [apply bpow_gt_0|]. apply (bpow_le radix2 _ (-10)).
      destruct t; try done; cbn; lia. }
    assert (0 < uround t <= / 1024)%R as H3.
    { split; [apply uround_pos|]. apply (bpow_le radix2 _ (-10)). destruct t; try done; cbn; lia. }
    split; nra.
  Qed.

  Lemma soft_elem x : val_ok t x -> soft_range t x ->
    exists d e, to_double t x = Some d /\ of_double t (ex d) = Some e /\ finite_val e /\
      (Rabs (val_real e - exp (val_real x)) <= eta * exp (val_real x))%R.
  Proof.
    intros Hok [(f & -> & Ff) Hr]. destruct Hok as [_ Vf]. cbn [val_real] in *.
    pose proof (same_float_conv t f Ht Vf) as (Vd & _ & Hd). destruct (Hd Ff) as (Fd & Rd & _).
    exists (flt_conv F64 f), (VF (flt_conv t (ex (flt_conv F64 f)))). cbn [to_double]. unfold of_double. rewrite Ht.
    split; [done|]. split; [done|].
    pose proof (exp_soft_range t _ Ht Hr) as [Lo Hi].
    assert (RV (flt_conv F64 f) <= 709)%R as H709.
    { rewrite Rd. destruct t; try done; cbn [soft_max] in Hr; lra. }
    destruct (exp_in_range ex eps _ Hex Vd Fd H709) as (Vv & Fv & Pv & Hv). rewrite Rd in Hv.
    set (v := ex (flt_conv F64 f)) in *. set (a := exp (RV f)) in *. pose proof (exp_pos (RV f)) as Ha. fold a in Ha.
    assert (h64 <= bpow radix2 (-200) * a)%R as Hh.
    { eapply Rle_trans; [|apply Rmult_le_compat_l; [apply bpow_ge_0|exact Lo]]. rewrite <-bpow_plus. apply bpow_le.
      destruct t; try done; cbn; lia. }
    assert (tiny t <= tiny t * bpow radix2 (soft_low t) * a)%R as Htn.
    { rewrite Rmult_assoc. rewrite <-(Rmult_1_r (tiny t)) at 1. apply Rmult_le_compat_l; [apply Rlt_le, tiny_pos|].
      assert (bpow radix2 (soft_low t) * bpow radix2 (- soft_low t) = 1)%R as <-.
      { rewrite <-bpow_plus, Z.add_opp_diag_r. done. }
      apply Rmult_le_compat_l; [apply bpow_ge_0|done]. }
    pose proof eta_small as Het.
    assert (Rabs (rnd t (RV v) - a) <= eta * a)%R as Herr.
    { destruct (rnd_err t (RV v)) as (e & h & He & Hhh & ->).
      replace (RV v * (1 + e) + h - a)%R with ((RV v - a) * (1 + e) + a * e + h)%R by ring.
      eapply Rle_trans; [apply Rabs_triang|]. 
      assert (Rabs ((RV v - a) * (1 + e) + a * e) <= (eps * a + bpow radix2 (-200) * a) * (1 + uround t) + a * uround t)%R.
      { eapply Rle_trans; [apply Rabs_triang|]. rewrite !Rabs_mult, (Rabs_pos_eq a) by lra. apply Rplus_le_compat.
        - apply Rmult_le_compat; [apply Rabs_pos|apply Rabs_pos|lra|by apply Rabs_1].
        - apply Rmult_le_compat_l; lra. }
      unfold eta, soft_eta. lra. }
    destruct (flt_conv_rnd t v Fv) as [F1 R1].
    { apply Rabs_le_inv in Herr. apply Rabs_lt.
      assert (2 * bpow radix2 (soft_exp t) <= bpow radix2 (femax t))%R.
      { change 2%R with (bpow radix2 1). rewrite <-bpow_plus. apply bpow_le. destruct t; try done; cbn; lia. }
      pose proof (rnd_nonneg t _ Pv). pose proof (bpow_gt_0 radix2 (soft_exp t)). nra. }
    split; [by eexists|]. cbn [val_real]. rewrite R1. exact Herr.
  Qed.

  Lemma sum_exp_pos xs : xs <> [] -> (0 < sum_exp xs)%R.
  Proof.
    assert (forall l, 0 <= sum_exp l)%R as H0.
    { induction l as [|v l IH]; cbn; [lra|]. pose proof (exp_pos (val_real v)). unfold sum_exp in IH. lra. }
    destruct xs as [|v xs]; [done|]. intros _. cbn. pose proof (exp_pos (val_real v)). pose proof (H0 xs). unfold sum_exp in *. lra.
  Qed.

  Lemma soft_exps xs es : Forall (val_ok t) xs -> Forall (soft_range t) xs -> exp_lane ex t xs = Some es ->
    Forall2 (fun x e => finite_val e /\ (Rabs (val_real e - exp (val_real x)) <= eta * exp (val_real x))%R) xs es.
  Proof.
    intros Hok Hr He. unfold exp_lane in He. apply mapM_Some in He. induction He as [|x e xs es Hxe _ IH]; [done|].
    apply Forall_cons in Hok as [Hx Hok]. apply Forall_cons in Hr as [Hrx Hr]. constructor; [|by apply IH].
    destruct (soft_elem x Hx Hrx) as (d & e' & Hd & He' & Hf & Hb). rewrite Hd in Hxe. cbn in Hxe. rewrite He' in Hxe.
    injection Hxe as ->. done.
  Qed.
  Lemma soft_sum xs es :
    Forall2 (fun x e => finite_val e /\ (Rabs (val_real e - exp (val_real x)) <= eta * exp (val_real x))%R) xs es ->
    ((1 - eta) * sum_exp xs <= sum_real es <= (1 + eta) * sum_exp xs)%R.
  Proof.
    unfold sum_exp, sum_real. induction 1 as [|x e xs es [_ He] _ IH]; cbn; [lra|]. apply Rabs_le_inv in He. lra.
  Qed.
  Lemma sum_exp_le xs : Forall (soft_range t) xs -> (sum_exp xs <= INR (length xs) * bpow radix2 (soft_exp t))%R.
  Proof.
    unfold sum_exp. induction 1 as [|x xs [_ Hx] _ IH]; cbn [foldr length]; [cbn; lra|]. rewrite S_INR.
    pose proof (exp_soft_range t _ Ht Hx). lra.
  Qed.
  Lemma soft_exps_ok xs es : xs <> [] -> Z.of_nat (length xs) <= 2 ^ 51 -> Forall (soft_range t) xs ->
    Forall2 (fun x e => finite_val e /\ (Rabs (val_real e - exp (val_real x)) <= eta * exp (val_real x))%R) xs es ->
    exps_ok es.
  Proof.
    intros Hne Hn Hr HF. pose proof (soft_sum xs es HF) as Hs. pose proof eta_small as Het. pose proof (sum_exp_pos xs Hne) as Hp.
    split_and!.
    - clear -HF Het. induction HF as [|x e xs es [Hf He] _ IH]; constructor; [|done]. split; [done|].
      apply Rabs_le_inv in He. pose proof (exp_pos (val_real x)). nra.
    - assert (0 < (1 - eta) * sum_exp xs)%R by (apply Rmult_lt_0_compat; lra). lra.
    - pose proof (sum_exp_le xs Hr) as Hle.
      assert (INR (length xs) <= bpow radix2 51)%R as HN.
      { rewrite INR_IZR_INZ. change (bpow radix2 51) with (IZR (2 ^ 51)). by apply IZR_le. }
      assert (INR (length xs) * bpow radix2 (soft_exp t) <= bpow radix2 1021)%R as H9.
      { eapply Rle_trans; [apply Rmult_le_compat_r; [apply bpow_ge_0|exact HN]|]. rewrite <-bpow_plus. apply bpow_le.
        destruct t; try done; cbn; lia. }
      change (femax F64) with 1024.
      assert (4 * bpow radix2 1021 < bpow radix2 1024)%R.
      { change 4%R with (bpow radix2 2). rewrite <-bpow_plus. by apply bpow_lt. }
      nra.
    - apply Forall2_length in HF. by rewrite <-HF.
  Qed.

  Lemma soft_real xs es ws : Forall (val_ok t) xs -> Forall (soft_range t) xs -> Z.of_nat (length xs) <= 2 ^ 51 ->
    soft_lane ex t xs es ws -> softmax_close t eps xs ws.
  Proof.
    intros Hok Hr Hn (He & Hl & Hd & _). unfold softmax_close. pose proof (soft_exps xs es Hok Hr He) as HF.
    destruct (decide (xs = [])) as [->|Hne].
    { inversion HF; subst. apply nil_length_inv in Hl as ->. constructor. }
    destruct (Hd (soft_exps_ok xs es Hne Hn Hr HF)) as (HD & _).
    pose proof (soft_sum xs es HF) as Hs. pose proof eta_small as Het. pose proof (sum_exp_pos xs Hne) as Hp.
    pose proof (Forall2_length _ _ _ HF) as Hlen. rewrite <-Hlen in HD.
    set (r := soft_rel t (length xs)) in *.
    assert (0 <= r)%R as Hr0.
    { unfold r, soft_rel. pose proof (pow_lt2 _ Hn). pose proof (pow_ge1 F64 (length xs)). cbv zeta in *.
      pose proof (uround_pos t). pose proof (uround_pos F64).
      assert (1 <= (1 + uround t) * (1 + uround F64) / (2 - (1 + uround F64) ^ length xs))%R; [|lra].
      apply div_ge_1; [lra|]. nra. }
    set (A := sum_exp xs) in *. set (S := sum_real es) in *. fold eta.
    set (G := ((1 + eta) / (1 - eta))%R).
    assert (1 <= G)%R as HG1 by (unfold G; apply div_ge_1; lra).
    assert (0 < 1 / G <= 1)%R as Hg1 by (split; [apply Rdiv_lt_0_compat|apply div_le_1]; lra).
    assert (2 <= 1 / G + G)%R as HG2.
    { assert (0 <= (G - 1) * (1 - 1 / G))%R by (apply Rmult_le_pos; lra).
      assert ((G - 1) * (1 - 1 / G) = G + 1 / G - 2)%R by (field; lra). lra. }
    clearbody A S r. clear Hd Hl Hne Hlen He Hok Hr Hn. revert ws HD.
    induction HF as [|x e xs es [Hf Hxe] _ IH]; intros ws HD; inversion HD as [|? w ? ws' Hw HD']; subst; constructor; [|by apply IH].
    clear IH HD HD'. destruct Hw as (Hfw & Hw1 & Hw2). split; [done|]. split; [done|].
    pose proof (exp_pos (val_real x)) as Ha. set (a := exp (val_real x)) in *. set (ev := val_real e) in *.
    apply Rabs_le_inv in Hxe. set (p := (a / A)%R).
    assert (0 < (1 - eta) * A)%R by (apply Rmult_lt_0_compat; lra).
    assert (0 < S)%R as HS by lra. assert (0 < p)%R as Hp' by (apply Rdiv_lt_0_compat; lra).
    assert (p * A = a)%R as HpA by (unfold p; field; lra).
    assert (1 / G * p <= ev / S <= G * p)%R as Hq.
    { split.
      - apply div_ge_1; [done|]. assert (1 / G = (1 - eta) / (1 + eta))%R as -> by (unfold G; field; lra).
        apply Rle_trans with ((1 - eta) / (1 + eta) * p * ((1 + eta) * A))%R.
        + apply Rmult_le_compat_l; [|lra]. apply Rmult_le_pos; [apply div_nonneg; lra|lra].
        + replace ((1 - eta) / (1 + eta) * p * ((1 + eta) * A))%R with ((1 - eta) * (p * A))%R by (field; lra). rewrite HpA. lra.
      - apply div_le_1; [done|]. apply Rle_trans with (G * p * ((1 - eta) * A))%R.
        + unfold G. replace ((1 + eta) / (1 - eta) * p * ((1 - eta) * A))%R with ((1 + eta) * (p * A))%R by (field; lra). rewrite HpA. lra.
        + apply Rmult_le_compat_l; [|lra]. apply Rmult_le_pos; lra. }
    apply Rabs_le_inv in Hw2. set (y := val_real w) in *. set (Q := (ev / S)%R) in *. set (k := soft_abs t) in *.
    set (g := (1 / G)%R) in *.
    assert (Q * (1 + r) <= G * p * (1 + r))%R by (apply Rmult_le_compat_r; lra).
    assert (0 <= r * (Q - g * p))%R by (apply Rmult_le_pos; lra).
    assert (0 <= r * (G * p - Q))%R by (apply Rmult_le_pos; lra).
    assert (0 <= (g + G - 2) * p)%R by (apply Rmult_le_pos; lra).
    apply Rabs_le. split; lra.
  Qed.
End soft.
