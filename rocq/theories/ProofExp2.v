(** * ProofExp2: sigmoid and tanh against the real functions *)
From stdpp Require Import list.
From Coq Require Import ZArith Lia Reals Lra Floats.SpecFloat.
From Flocq Require Import Core IEEE754.BinarySingleNaN.
From Verif Require Import Base Mem Spec SpecReal SpecNN SpecError SpecExp.
From Verif Require Import ProofFloat ProofFloat2 ProofFloat3 ProofFloat4 ProofError ProofExp.
Open Scope Z_scope.

Notation u64 := (uround F64).
Notation h64 := (bpow radix2 (-1074)).
Lemma uround_lt1 t : (uround t < 1)%R.
Proof. unfold uround. apply (bpow_lt radix2 _ 0). unfold fprec. destruct t; lia. Qed.
Lemma u64_small : (u64 <= / 1024)%R.
Proof. unfold uround. apply (bpow_le radix2 _ (-10)). unfold fprec. lia. Qed.
Lemma h64_small : (0 < h64 <= / 1024)%R.
Proof. split; [apply bpow_gt_0|]. apply (bpow_le radix2 _ (-10)). lia. Qed.

(** Rounding a quotient twice, [g] being how far off the quotient is *)
Lemma two_rnd t p g G : (0 < g <= G)%R -> (2 <= g + G)%R ->
  (Rabs (rnd t (rnd F64 (p * g)) - p)
   <= ((1 + uround t) * (1 + u64) * G - 1) * Rabs p + (tiny t + tiny F64 * (1 + uround t)))%R.
Proof.
  intros Hg HgG.
  destruct (rnd_err F64 (p * g)) as (d1 & h1 & Hd1 & Hh1 & ->).
  destruct (rnd_err t (p * g * (1 + d1) + h1)) as (d2 & h2 & Hd2 & Hh2 & ->).
  pose proof (uround_pos t) as Hut. pose proof (uround_pos F64) as Hu64.
  pose proof (tiny_pos t). pose proof (tiny_pos F64).
  pose proof (uround_lt1 t). pose proof (uround_lt1 F64).
  set (u := uround t) in *. set (v := u64) in *.
  replace ((p * g * (1 + d1) + h1) * (1 + d2) + h2 - p)%R
    with (p * (g * (1 + d1) * (1 + d2) - 1) + (h1 * (1 + d2) + h2))%R by ring.
  eapply Rle_trans; [apply Rabs_triang|]. apply Rplus_le_compat.
  - rewrite Rabs_mult, Rmult_comm. apply Rmult_le_compat_r; [apply Rabs_pos|].
    apply Rabs_le_inv in Hd1, Hd2.
    assert (g * ((1 + d1) * (1 + d2)) <= (1 + u) * (1 + v) * G)%R as Hup.
    { rewrite Rmult_comm. apply Rmult_le_compat; [apply Rmult_le_pos; lra|lra| |lra].
      rewrite (Rmult_comm (1 + u)). apply Rmult_le_compat; lra. }
    assert (g * ((1 - v) * (1 - u)) <= g * ((1 + d1) * (1 + d2)))%R as Hlo.
    { apply Rmult_le_compat_l; [lra|]. apply Rmult_le_compat; lra. }
    assert (0 <= (u + v) * (G - g))%R by (apply Rmult_le_pos; lra).
    assert (0 <= u * v * (G + g))%R by (apply Rmult_le_pos; nra).
    apply Rabs_le. rewrite Rmult_assoc. split; [|lra]. nra.
  - eapply Rle_trans; [apply Rabs_triang|]. rewrite Rabs_mult.
    assert (Rabs h1 * Rabs (1 + d2) <= tiny F64 * (1 + u))%R; [|lra].
    apply Rmult_le_compat; [apply Rabs_pos|apply Rabs_pos|done|by apply Rabs_1].
Qed.

(** 1/L + 1/W >= 2 *)
Lemma inv_sum L W : (0 < L)%R -> (0 < W)%R -> (2 * (L * W) <= L + W)%R -> (2 <= 1 / W + 1 / L)%R.
Proof.
  intros HL HW H. apply (Rmult_le_reg_r (L * W)); [by apply Rmult_lt_0_compat|].
  replace ((1 / W + 1 / L) * (L * W))%R with (L + W)%R by (field; lra). exact H.
Qed.
Lemma div_le_1 a b c : (0 < b)%R -> (a <= c * b)%R -> (a / b <= c)%R.
Proof. intros Hb H. apply (Rmult_le_reg_r b); [done|]. unfold Rdiv. rewrite Rmult_assoc, Rinv_l by lra. lra. Qed.
Lemma div_ge_1 a b c : (0 < b)%R -> (c * b <= a)%R -> (c <= a / b)%R.
Proof. intros Hb H. apply (Rmult_le_reg_r b); [done|]. unfold Rdiv. rewrite Rmult_assoc, Rinv_l by lra. lra. Qed.

(** ** sigmoid *)
Lemma rnd_1_add e : fmt F64 e -> exists d, (Rabs d <= u64)%R /\ rnd F64 (1 + e) = ((1 + e) * (1 + d))%R.
Proof. intros He. apply rnd_add_err; [by apply (fmt_int F64 1)|done]. Qed.

Lemma sig_core t eps a e : (0 < a)%R -> (0 <= e)%R -> fmt F64 e -> (0 <= eps <= / 16)%R ->
  (Rabs (e - a) <= eps * a + h64)%R ->
  (Rabs (rnd t (rnd F64 (1 / rnd F64 (1 + e))) - 1 / (1 + a))
   <= sig_rel t eps * (1 / (1 + a)) + (tiny t + tiny F64 * (1 + uround t)))%R.
Proof.
  intros Ha He Hfm Heps Hea. pose proof h64_small as Hh. pose proof u64_small as Hus. pose proof (uround_pos F64) as Hup.
  destruct (rnd_1_add e Hfm) as (d & Hd & ->). apply Rabs_le_inv in Hd, Hea.
  set (H := (eps + h64)%R). set (v := u64) in *.
  assert (0 < H <= / 8)%R as HH by (unfold H; lra).
  assert ((1 - H) * (1 + a) <= 1 + e <= (1 + H) * (1 + a))%R as [E1 E2] by (unfold H; split; nra).
  set (p := (1 / (1 + a))%R). set (q := ((1 + e) / (1 + a))%R).
  assert (1 - H <= q <= 1 + H)%R as Hq by (unfold q; split; [apply div_ge_1|apply div_le_1]; lra).
  assert (1 / ((1 + e) * (1 + d)) = p * (1 / (q * (1 + d))))%R as -> by (unfold p, q; field; lra).
  set (L := ((1 - v) * (1 - H))%R). set (W := ((1 + v) * (1 + H))%R).
  assert (0 < L)%R by (unfold L; apply Rmult_lt_0_compat; lra).
  assert (L <= q * (1 + d) <= W)%R as Hqd.
  { unfold L, W. rewrite !(Rmult_comm q). split; apply Rmult_le_compat; lra. }
  assert (0 < W)%R by lra.
  assert (1 / W <= 1 / (q * (1 + d)) <= 1 / L)%R as Hg.
  { unfold Rdiv. rewrite !Rmult_1_l. split; apply Rinv_le_contravar; lra. }
  assert (2 <= 1 / W + 1 / L)%R as H2.
  { apply inv_sum; [done|done|]. unfold L, W.
    replace ((1 - v) * (1 - H) + (1 + v) * (1 + H))%R with (2 * (1 + v * H))%R by ring.
    replace ((1 - v) * (1 - H) * ((1 + v) * (1 + H)))%R with ((1 - v * v) * (1 - H * H))%R by ring.
    assert (0 <= v * H)%R by (apply Rmult_le_pos; lra).
    assert ((1 - v * v) * (1 - H * H) <= 1 * 1)%R; [|lra]. apply Rmult_le_compat; nra. }
  assert (0 < 1 / W)%R by (apply Rdiv_lt_0_compat; lra).
  pose proof (two_rnd t p (1 / (q * (1 + d))) (1 / L) ltac:(lra) ltac:(lra)) as Ht.
  assert (0 < p)%R by (unfold p; apply Rdiv_lt_0_compat; lra).
  rewrite (Rabs_pos_eq p) in Ht by lra. unfold sig_rel.
  replace ((1 - u64) * (1 - eps - h64))%R with L by (unfold L, H, v; ring).
  replace ((1 + uround t) * (1 + u64) / L)%R with ((1 + uround t) * (1 + v) * (1 / L))%R by (unfold v; field; lra).
  exact Ht.
Qed.

Lemma bpow_inv_le a k : (bpow radix2 k <= a)%R -> (1 / a <= bpow radix2 (- k))%R.
Proof.
  intros H. pose proof (bpow_gt_0 radix2 k). rewrite bpow_opp. unfold Rdiv. rewrite Rmult_1_l. by apply Rinv_le_contravar.
Qed.
Lemma sig_rel_pos t eps : (0 <= eps <= / 16)%R -> (0 <= sig_rel t eps)%R.
Proof.
  intros Heps. unfold sig_rel. pose proof h64_small. pose proof u64_small. pose proof (uround_pos F64). pose proof (uround_pos t).
  assert (0 < (1 - u64) * (1 - eps - h64))%R by (apply Rmult_lt_0_compat; lra).
  assert (1 <= (1 + uround t) * (1 + u64) / ((1 - u64) * (1 - eps - h64)))%R; [|lra].
  apply div_ge_1; [done|]. nra.
Qed.

Lemma sig_close t ex eps x g : is_float t = true -> exp_close ex eps -> (0 <= eps <= / 16)%R ->
  vb t x = true -> same_float (SFopp x) g ->
  sigmoid_close t eps (VF x) (VF (flt_conv t (ddiv (dbl_of_Z 1) (dadd (dbl_of_Z 1) (ex g))))).
Proof.
  intros Ht (Hex & Hpi & Hni & Hnan) Heps Hx (Hg & Hgi & Hgf). change (dbl_of_Z 1) with Base.done.
  eexists _, _. split; [done|]. split; [done|]. split_and!.
  - intros Fx. destruct Hgf as (Fg & Rg & _); [by destruct x|].
    assert (RV g = - RV x)%R as Rg'.
    { transitivity (RV (SFopp x)); [exact Rg|]. destruct x as [?|?| |s m e]; cbn; try lra. destruct s; rewrite <-F2R_Zopp; done. }
    clear Rg. destruct (Hex g Hg Fg) as (Vv & [(Fv & Pv & Hv)|(Iv & Bv)]); rewrite Rg' in *.
    + destruct (sigmoid_num t (ex g) Ht Vv Fv Pv) as (F1 & R1 & Hval). split; [done|]. split; [done|].
      set (a := exp (- RV x)) in *. assert (0 < a)%R as Ha by apply exp_pos.
      destruct (Rlt_or_le (Rabs (rnd F64 (1 + RV (ex g)))) (bpow radix2 1024)) as [Hlt|Hge].
      * rewrite (Hval Hlt). unfold logistic, sig_abs. fold a.
        pose proof (sig_core t eps a (RV (ex g)) Ha Pv (fmt_val F64 _ Vv) Heps Hv).
        pose proof (bpow_gt_0 radix2 (-1022)). lra.
      * (* the sum overflows: the result is 0 *)
        destruct (flt_op_spec F64 OpAdd Base.done (ex g) done_valid Vv done_finite Fv ltac:(done)) as [_ Hov].
        cbv zeta in Hov. unfold op_real in Hov. rewrite done_R in Hov. destruct (Hov Hge) as [b Hb].
        change (dadd Base.done (ex g)) with (flt_op F64 OpAdd Base.done (ex g)). rewrite Hb.
        assert (RV (flt_conv t (ddiv Base.done (S754_infinity b))) = 0%R) as -> by by destruct b.
        assert (logistic (RV x) <= bpow radix2 (-1022))%R as Hl.
        { unfold logistic. fold a. apply (bpow_inv_le _ 1022).
          destruct (rnd_1_add _ (fmt_val F64 _ Vv)) as (d & Hd & Hr). rewrite Hr in Hge.
          rewrite Rabs_mult, (Rabs_pos_eq (1 + _)) in Hge by lra.
          pose proof (Rabs_1 _ _ Hd) as H1. pose proof u64_small. pose proof h64_small. apply Rabs_le_inv in Hv.
          assert ((1 + RV (ex g)) * Rabs (1 + d) <= (1 + RV (ex g)) * (1 + u64))%R by (apply Rmult_le_compat_l; lra).
          assert (bpow radix2 1024 = 4 * bpow radix2 1022)%R as H4 by (change 4%R with (bpow radix2 2); by rewrite <-bpow_plus).
          pose proof (bpow_gt_0 radix2 1022). nra. }
        assert (0 <= logistic (RV x))%R as Hl0 by (unfold logistic; fold a; apply div_nonneg; lra).
        rewrite Rminus_0_l, Rabs_Ropp, Rabs_pos_eq by done. pose proof (sig_rel_pos t eps Heps).
        unfold sig_abs. pose proof (tiny_pos t). pose proof (tiny_pos F64). pose proof (uround_pos t). nra.
    + rewrite Iv, sigmoid_num_inf. split; [done|]. change (RV (S754_zero false)) with 0%R. split; [lra|].
      assert (0 < exp (- RV x))%R as Ha by apply exp_pos.
      assert (logistic (RV x) <= bpow radix2 (-1022))%R as Hl.
      { unfold logistic. apply (bpow_inv_le _ 1022).
        assert (bpow radix2 1022 <= bpow radix2 1023)%R by (by apply bpow_le). lra. }
      assert (0 <= logistic (RV x))%R as Hl0 by (unfold logistic; apply div_nonneg; lra).
      rewrite Rminus_0_l, Rabs_Ropp, Rabs_pos_eq by done. pose proof (sig_rel_pos t eps Heps).
      unfold sig_abs. pose proof (tiny_pos t). pose proof (tiny_pos F64). pose proof (uround_pos t). nra.
  - intros ->. rewrite (Hgi eq_refl). cbn [SFopp negb]. rewrite Hni.
    assert (flt_conv t (ddiv Base.done (dadd Base.done (S754_zero false))) = flt_of_Z t 1) as ->.
    { destruct t; try done; vm_compute; reflexivity. }
    apply flt_of_Z_exact. destruct t; done.
  - intros ->. rewrite (Hgi eq_refl). cbn [SFopp negb]. rewrite Hpi. rewrite sigmoid_num_inf. done.
  - intros ->. rewrite (Hgi eq_refl). cbn [SFopp]. rewrite Hnan. done.
Qed.

(** ** tanh *)
Lemma tanh_core t eps a b A B : (0 < a)%R -> (0 < b)%R -> (a * b = 1)%R -> (0 <= A)%R -> (0 <= B)%R ->
  fmt F64 A -> fmt F64 B -> (0 <= eps <= / 16)%R ->
  (Rabs (A - a) <= eps * a + h64)%R -> (Rabs (B - b) <= eps * b + h64)%R ->
  (Rabs (rnd t (rnd F64 (rnd F64 (A - B) / rnd F64 (A + B))) - (a - b) / (a + b)) <= tanh_abs t eps)%R.
Proof.
  intros Ha Hb Hab HA HB FA FB Heps EA EB. pose proof h64_small as Hh. pose proof u64_small as Hus.
  pose proof (uround_pos F64) as Hup. pose proof (uround_pos t) as Hut.
  apply Rabs_le_inv in EA, EB.
  assert (2 <= a + b)%R as Hs2.
  { destruct (Rle_or_lt 2 (a + b)) as [?|Hl]; [done|]. exfalso.
    assert (0 <= (a - b) * (a - b))%R by (apply Rle_0_sqr).
    assert ((a + b) * (a + b) < 2 * 2)%R by (apply Rmult_gt_0_lt_compat; lra). lra. }
  destruct (rnd_add_err F64 A B FA FB) as (d2 & Hd2 & ->).
  destruct (rnd_add_err F64 A (- B) FA (generic_format_opp _ _ _ FB)) as (d1 & Hd1 & Hm).
  fold (A - B)%R in Hm. rewrite Hm. clear Hm. apply Rabs_le_inv in Hd1, Hd2.
  set (H := (eps + h64)%R). set (v := u64) in *.
  assert (0 < H <= / 8)%R as HH by (unfold H; lra).
  assert (0 < (1 - H) * (a + b))%R as HpH by (apply Rmult_lt_0_compat; lra).
  assert ((1 - H) * (a + b) <= A + B)%R as HAB by (unfold H; nra).
  set (Q := ((A - B) / (A + B))%R). set (q := ((a - b) / (a + b))%R).
  assert (Rabs Q <= 1)%R as HQ.
  { unfold Q. apply Rabs_le. apply div_unit; lra. }
  (* the quotient of the approximate exponentials *)
  assert (Rabs (Q - q) <= H / (1 - H))%R as HQq.
  { assert (Q - q = 2 * ((A - a) * b - a * (B - b)) / ((A + B) * (a + b)))%R as ->.
    { unfold Q, q. field. split; lra. }
    assert (Rabs ((A - a) * b - a * (B - b)) <= 2 * eps * (a * b) + h64 * (a + b))%R as Hn.
    { apply Rabs_le. split; nra. }
    unfold Rdiv. rewrite Rabs_mult, Rabs_inv, (Rabs_pos_eq ((A + B) * (a + b))) by (apply Rmult_le_pos; lra).
    rewrite Rabs_mult, (Rabs_pos_eq 2) by lra.
    apply (div_le_1 _ ((A + B) * (a + b)) (H * / (1 - H))); [apply Rmult_lt_0_compat; lra|].
    assert (4 * (a * b) <= (a + b) * (a + b))%R as Hsq.
    { assert (0 <= (a - b) * (a - b))%R by nra. lra. }
    assert (2 * Rabs ((A - a) * b - a * (B - b)) <= H * ((a + b) * (a + b)))%R as Hn2.
    { unfold H.
      assert (eps * (4 * (a * b)) <= eps * ((a + b) * (a + b)))%R by (apply Rmult_le_compat_l; lra).
      assert (h64 * (a + b) * 2 <= h64 * (a + b) * (a + b))%R by (apply Rmult_le_compat_l; [apply Rmult_le_pos|]; lra).
      lra. }
    eapply Rle_trans; [exact Hn2|].
    assert (H * / (1 - H) * ((1 - H) * (a + b) * (a + b)) = H * ((a + b) * (a + b)))%R as <- by (field; lra).
    apply Rmult_le_compat_l; [apply div_nonneg; lra|]. apply Rmult_le_compat_r; lra. }
  assert ((A - B) * (1 + d1) / ((A + B) * (1 + d2)) = Q * ((1 + d1) / (1 + d2)))%R as ->.
  { unfold Q. field. split; lra. }
  set (G := ((1 + v) / (1 - v))%R).
  assert (1 / G <= (1 + d1) / (1 + d2) <= G)%R as HG.
  { assert (1 / G = (1 - v) / (1 + v))%R as -> by (unfold G; field; lra). split.
    - apply div_le_1; [lra|]. unfold Rdiv. rewrite Rmult_assoc, (Rmult_comm (/ _)), <-Rmult_assoc.
      fold ((1 + d1) * (1 + v) / (1 + d2))%R. apply div_ge_1; [lra|]. apply Rmult_le_compat; lra.
    - apply div_le_1; [lra|]. unfold G, Rdiv. rewrite Rmult_assoc, (Rmult_comm (/ _)), <-Rmult_assoc.
      fold ((1 + v) * (1 + d2) / (1 - v))%R. apply div_ge_1; [lra|]. apply Rmult_le_compat; lra. }
  assert (1 <= G)%R as HG1 by (unfold G; apply div_ge_1; lra).
  assert (2 <= 1 / G + G)%R as HG2.
  { assert (1 / G <= 1)%R by (apply div_le_1; lra).
    assert (0 <= (G - 1) * (1 - 1 / G))%R by (apply Rmult_le_pos; lra).
    assert ((G - 1) * (1 - 1 / G) = G + 1 / G - 2)%R by (field; lra). lra. }
  assert (0 < 1 / G)%R by (apply Rdiv_lt_0_compat; lra).
  pose proof (two_rnd t Q ((1 + d1) / (1 + d2)) G ltac:(lra) ltac:(lra)) as Ht.
  set (y := rnd t _) in *. unfold tanh_abs. cbv zeta. fold v G H.
  replace (1 - eps - h64)%R with (1 - H)%R by (unfold H; ring).
  replace (y - q)%R with ((y - Q) + (Q - q))%R by ring.
  eapply Rle_trans; [apply Rabs_triang|].
  assert (0 <= (1 + uround t) * (1 + u64) * G - 1)%R as Hk0.
  { fold v. assert (0 <= uround t * v)%R by nra. nra. }
  assert (((1 + uround t) * (1 + u64) * G - 1) * Rabs Q <= ((1 + uround t) * (1 + u64) * G - 1) * 1)%R by (apply Rmult_le_compat_l; lra).
  fold v in Ht, Hk0. fold v in H1. 
  replace (G * (1 + v) * (1 + uround t))%R with ((1 + uround t) * (1 + v) * G)%R by ring. lra.
Qed.

Lemma RV_opp x : RV (SFopp x) = (- RV x)%R.
Proof. destruct x as [?|?| |s m e]; cbn; try lra. destruct s; rewrite <-F2R_Zopp; done. Qed.

(** Exponentials of numbers from -709 to 709 are finite, those of numbers above 710 are not. *)
Lemma exp_in_range ex eps x : exp_close ex eps -> vb F64 x = true -> is_finite_SF x = true -> (RV x <= 709)%R ->
  vb F64 (ex x) = true /\ is_finite_SF (ex x) = true /\ (0 <= RV (ex x))%R /\
  (Rabs (RV (ex x) - exp (RV x)) <= eps * exp (RV x) + h64)%R.
Proof.
  intros (Hex & _) Vx Fx Hx. destruct (Hex x Vx Fx) as (Vv & [(Fv & Pv & Hv)|(Iv & Bv)]); [done|].
  exfalso. pose proof (exp_incr _ _ Hx). pose proof exp_709. lra.
Qed.
Lemma exp_out_of_range ex eps x : exp_close ex eps -> (0 <= eps <= / 16)%R -> vb F64 x = true -> is_finite_SF x = true ->
  (710 <= RV x)%R -> ex x = S754_infinity false.
Proof.
  intros (Hex & _) Heps Vx Fx Hx. destruct (Hex x Vx Fx) as (Vv & [(Fv & Pv & Hv)|(Iv & Bv)]); [|done].
  exfalso. pose proof (exp_incr _ _ Hx). pose proof exp_710. pose proof (val_small F64 _ Vv) as Hs.
  change (femax F64) with 1024 in Hs. rewrite Rabs_pos_eq in Hs by done. apply Rabs_le_inv in Hv. pose proof h64_small.
  assert (1 <= bpow radix2 1024)%R by (apply (bpow_le radix2 0); lia). nra.
Qed.

Lemma tanh_nan t f b : is_finite_SF f = true ->
  flt_conv t (ddiv (dsub (S754_infinity b) f) (dadd (S754_infinity b) f)) = S754_nan /\
  flt_conv t (ddiv (dsub f (S754_infinity b)) (dadd f (S754_infinity b))) = S754_nan.
Proof. destruct f as [?|?| |? ? ?]; try done; intros _; by destruct b. Qed.

(** Adding a small number to one whose last digit is large does not change it. *)
Lemma add_absorbed A B : fmt F64 A -> (bpow radix2 1000 <= A)%R -> (0 <= B <= 1)%R -> (rnd F64 (A + B) <= A)%R.
Proof.
  intros FA HA HB. unfold rnd. apply round_N_le_midp; [exact _|exact FA|].
  rewrite succ_eq_pos by (eapply Rle_trans; [apply bpow_ge_0|exact HA]).
  assert (8 <= ulp radix2 (SpecFloat.fexp (fprec F64) (femax F64)) A)%R; [|lra].
  eapply Rle_trans; [|apply (ulp_le_pos radix2 _ (bpow radix2 1000) A); [apply bpow_ge_0|exact HA]].
  rewrite ulp_bpow. apply (bpow_le radix2 3). vm_compute. discriminate.
Qed.

(** The value of tanh when both exponentials are finite *)
Lemma tanh_finite t ex eps g h x : is_float t = true -> exp_close ex eps -> (0 <= eps <= / 16)%R ->
  vb F64 g = true -> vb F64 h = true -> is_finite_SF g = true -> is_finite_SF h = true ->
  RV g = x -> RV h = (- x)%R -> is_finite_SF (ex g) = true -> is_finite_SF (ex h) = true ->
  let y := flt_conv t (ddiv (dsub (ex g) (ex h)) (dadd (ex g) (ex h))) in
  is_finite_SF y = true /\ (-1 <= RV y <= 1)%R /\ (Rabs (RV y - tanh_real x) <= tanh_abs t eps)%R /\
  RV y = rnd t (rnd F64 (rnd F64 (RV (ex g) - RV (ex h)) / rnd F64 (RV (ex g) + RV (ex h)))).
Proof.
  intros Ht Hex Heps Vg Vh Fg Fh Rg Rh FA FB y.
  assert (forall k, vb F64 k = true -> is_finite_SF k = true -> is_finite_SF (ex k) = true ->
    vb F64 (ex k) = true /\ (0 <= RV (ex k))%R /\ (Rabs (RV (ex k) - exp (RV k)) <= eps * exp (RV k) + h64)%R) as Hk.
  { intros k Vk Fk Fe. destruct Hex as (Hex & _). destruct (Hex k Vk Fk) as (Vv & [(_ & Pv & Hv)|(Iv & _)]); [done|].
    by rewrite Iv in Fe. }
  destruct (Hk g Vg Fg FA) as (VA & PA & EA). destruct (Hk h Vh Fh FB) as (VB & PB & EB). clear Hk.
  rewrite Rg in EA. rewrite Rh in EB. 
  assert (0 < exp x)%R as Ha by apply exp_pos. assert (0 < exp (- x))%R as Hb by apply exp_pos.
  assert (exp x * exp (- x) = 1)%R as Hab by (rewrite <-exp_plus, Rplus_opp_r; apply exp_0).
  assert (exp x <= exp 709 \/ exp (- x) <= exp (-709))%R as Hx709.
  { destruct (Rle_or_lt x 709); [left|right]; apply exp_incr; lra. }
  assert (exp (- x) <= exp 709 \/ exp x <= exp (-709))%R as Hx709'.
  { destruct (Rle_or_lt (- x) 709); [left|right]; apply exp_incr; lra. }
  assert (exp 709 * exp (-709) = 1)%R as H709 by (rewrite <-exp_plus, Rplus_opp_r; apply exp_0).
  pose proof exp_709 as E709.
  unfold tanh_real. set (a := exp x) in *. set (b := exp (- x)) in *.
  pose proof h64_small as Hh64. pose proof (Rabs_le_inv _ _ EA) as EA'. pose proof (Rabs_le_inv _ _ EB) as EB'.
  assert (eps * a <= / 16 * a)%R as Ea by (apply Rmult_le_compat_r; lra).
  assert (eps * b <= / 16 * b)%R as Eb by (apply Rmult_le_compat_r; lra).
  assert (1 <= a \/ 1 <= b)%R as H1.
  { destruct (Rle_or_lt 1 a) as [?|H1]; [by left|]. right. destruct (Rle_or_lt 1 b) as [?|H2]; [done|]. exfalso.
    assert (a * b < 1 * 1)%R by (apply Rmult_gt_0_lt_compat; lra). lra. }
  assert (0 < RV (ex g) + RV (ex h))%R as Hpos by lra.
  destruct (tanh_num t (ex g) (ex h) Ht VA VB FA FB PA PB Hpos) as (F1 & R1 & Hval). fold y in F1, R1, Hval.
  assert (RV y = rnd t (rnd F64 (rnd F64 (RV (ex g) - RV (ex h)) / rnd F64 (RV (ex g) + RV (ex h))))) as Hy.
  { apply Hval. rewrite Rabs_pos_eq.
    2: { unfold rnd. apply round_ge_generic; [exact _|exact _|apply generic_format_0|lra]. }
    pose proof exp_709_ge as E1002.
    assert (bpow radix2 1000 * 4 = bpow radix2 1002)%R as E2 by (change 4%R with (bpow radix2 2); by rewrite <-bpow_plus).
    assert (4 <= bpow radix2 1000)%R as E3 by (apply (bpow_le radix2 2); lia).
    assert (0 < exp (-709) <= / 8)%R as E8.
    { split; [apply exp_pos|]. apply (Rmult_le_reg_l (exp 709)); [apply exp_pos|]. rewrite H709. lra. }
    destruct (Rle_or_lt a (exp 709)) as [La|La]; [destruct (Rle_or_lt b (exp 709)) as [Lb|Lb]|].
    - assert (a <= 1 \/ b <= 1)%R as H1'.
      { destruct (Rle_or_lt a 1) as [?|H3]; [by left|]. right. destruct (Rle_or_lt b 1) as [?|H2]; [done|]. exfalso.
        assert (1 * 1 < a * b)%R by (apply Rmult_gt_0_lt_compat; lra). lra. }
      destruct (rnd_add_err F64 _ _ (fmt_val F64 _ VA) (fmt_val F64 _ VB)) as (d & Hd & ->).
      pose proof (Rabs_1 _ _ Hd) as H2. pose proof u64_small.
      assert (bpow radix2 1024 = 2 * bpow radix2 1023)%R as -> by (change 2%R with (bpow radix2 1); by rewrite <-bpow_plus).
      assert (1024 <= bpow radix2 1023)%R by (apply (bpow_le radix2 10); lia).
      assert ((RV (ex g) + RV (ex h)) * (1 + d) <= (RV (ex g) + RV (ex h)) * (1 + / 1024))%R
        by (apply Rmult_le_compat_l; [lra|]; eapply Rle_trans; [apply RRle_abs|lra]).
      lra.
    - rewrite Rplus_comm. eapply Rle_lt_trans; [apply add_absorbed; [by apply fmt_val|lra|lra]|].
      pose proof (val_small F64 _ VB) as Hs. rewrite Rabs_pos_eq in Hs by done. exact Hs.
    - eapply Rle_lt_trans; [apply add_absorbed; [by apply fmt_val|lra|lra]|].
      pose proof (val_small F64 _ VA) as Hs. rewrite Rabs_pos_eq in Hs by done. exact Hs. }
  split; [done|]. split; [done|]. split; [|done]. rewrite Hy. apply tanh_core; try done; by apply (fmt_val F64).
Qed.

Lemma tan_close t ex eps x g h : is_float t = true -> exp_close ex eps -> (0 <= eps <= / 16)%R ->
  vb t x = true -> same_float x g -> same_float (SFopp x) h ->
  tanh_close t eps (VF x) (VF (flt_conv t (ddiv (dsub (ex g) (ex h)) (dadd (ex g) (ex h))))).
Proof.
  intros Ht Hex Heps Hx (Hg & Hgi & Hgf) (Hh & Hhi & Hhf).
  eexists _, _. split; [done|]. split; [done|].
  assert (is_finite_SF x = true -> is_finite_SF g = true /\ RV g = RV x /\ is_finite_SF h = true /\ RV h = (- RV x)%R) as HR.
  { intros Fx. destruct (Hgf Fx) as (? & ? & _). destruct Hhf as (? & R2 & _); [by destruct x|].
    split_and!; [done|done|done|]. rewrite <-RV_opp. exact R2. }
  split.
  - intros Fx. destruct (HR Fx) as (Fg & Rg & Fh & Rh).
    pose proof Hex as (He & _). destruct (He g Hg Fg) as (_ & HA). destruct (He h Hh Fh) as (_ & HB). clear He.
    pose proof exp_709 as E9. rewrite Rg in HA. rewrite Rh in HB.
    destruct HA as [(FA & _)|(IA & BA)]; [destruct HB as [(FB & _)|(IB & BB)]|].
    + left. destruct (tanh_finite t ex eps g h (RV x) Ht Hex Heps Hg Hh Fg Fh Rg Rh FA FB) as (F1 & F2 & F3 & _).
      split; [|done]. destruct (Rlt_or_le (Rabs (RV x)) 710) as [?|H10]; [done|exfalso].
      destruct (Rcase_abs (RV x)) as [Hn|Hn]; [rewrite Rabs_left in H10 by done|rewrite Rabs_pos_eq in H10 by lra].
      * rewrite (exp_out_of_range ex eps h Hex Heps Hh Fh ltac:(lra)) in FB. done.
      * rewrite (exp_out_of_range ex eps g Hex Heps Hg Fg ltac:(lra)) in FA. done.
    + right. assert (709 < - RV x)%R as H9.
      { destruct (Rlt_or_le 709 (- RV x)) as [?|H]; [done|]. pose proof (exp_incr _ _ H). lra. }
      split; [rewrite Rabs_left; lra|]. rewrite IB. by apply tanh_nan.
    + right. assert (709 < RV x)%R as H9.
      { destruct (Rlt_or_le 709 (RV x)) as [?|H]; [done|]. pose proof (exp_incr _ _ H). lra. }
      split; [rewrite Rabs_pos_eq; lra|]. rewrite IA.
      destruct (exp_in_range ex eps h Hex Hh Fh ltac:(lra)) as (_ & FB & _). by apply tanh_nan.
  - intros Fx. rewrite (Hgi Fx), (Hhi ltac:(by destruct x)). destruct Hex as (_ & Hpi & Hni & Hnan).
    destruct x as [?|b| |? ? ?]; try done; [destruct b|]; cbn [SFopp negb]; rewrite ?Hpi, ?Hni, ?Hnan; done.
Qed.
