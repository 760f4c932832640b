(** * ProofAcc3: average pooling and batch normalisation against the real formulas *)
From stdpp Require Import gmap list list_numbers.
From Coq Require Import ZArith Lia Reals Lra Floats.SpecFloat.
From Flocq Require Import Core IEEE754.BinarySingleNaN.
From Verif Require Import Base Mem Spec SpecReal SpecNN SpecError SpecSoft SpecNorm SpecAcc ModelCore ModelBasic ModelMath ModelNN Logic.
From Verif Require Import ProofFloat2 ProofIndex ProofKernel ProofPool3 ProofCore ProofCore2 ProofFloat2 ProofError ProofPool3 ProofNorm6 ProofAcc ProofAcc2 Fixture RefuteConv RefuteNorm.
Open Scope Z_scope.

Lemma pooling_accurate p T nb nc sd ks ss ps ls E s o :
  wf s -> alloc_all E -> hooks_ok E -> holds (heap s) p T ->
  a_dims T = nb :: nc :: sd -> (1 <= length sd <= 3)%nat -> win_ok sd ks ss ps ls ->
  1 <= prodZ ks <= 2 ^ 53 -> prodZ (win_outs sd ks ss ps ls) <= INT_MAX ->
  (Z.to_nat (prodZ ks) <= e_fuel E)%nat -> (Z.to_nat (prodZ (win_outs sd ks ss ps ls)) <= e_fuel E)%nat ->
  fits (tsz (a_type T)) (nb :: nc :: win_outs sd ks ss ps ls) ->
  is_float (a_type T) = true -> init T ->
  exists T3, a_type T3 = a_type T /\ a_dev T3 = a_dev T /\
    a_dims T3 = nb :: nc :: win_outs sd ks ss ps ls /\ valid T3 /\
    (forall b c x, in_box (a_dims T3) (b :: c :: x) ->
       pool_accurate (a_type T) (prodZ ks) (window T ks ss ps ls b c x) (at_ T3 (b :: c :: x))) /\
    makes (aitisa_pooling (HPtr p) PAvg ks ss ps ls o) E s T3.
Proof.
  intros Hwf HA HE HT Hd Hr Hok Hks Hos Hf1 Hf2 Hfit Hf Hin.
  destruct (pooling_avg_float Hwf HA HE HT Hd Hr Hok ltac:(unfold INT64_MAX; lia) Hos Hf1 Hf2 Hfit (o := o) Hf Hin)
    as (T3 & H1 & H2 & H3 & H4 & H5 & H6).
  exists T3. split_and!; [done..| |done]. intros b c x Hx. specialize (H5 b c x Hx). rewrite H3 in Hx.
  inversion Hx as [|? ? ? ? Hb Hy]; subst. inversion Hy as [|? ? ? ? Hc Hz]; subst.
  apply pool_avg_accurate; [done| |done|done]. eapply window_forall; [by eapply holds_valid|done..].
Qed.

Lemma range_nonneg t eps v : bn_range t eps v -> ~ negative v.
Proof. intros (_ & _ & (f & -> & Ff) & Hv & _) [H|H]; [cbn in *; lra|by subst]. Qed.
Lemma bn_all_accurate p pS pB pM pV T Sc Bi Me Va axis eps o E s :
  wf s -> alloc_all E -> hooks_ok E ->
  holds (heap s) p T -> holds (heap s) pS Sc -> holds (heap s) pB Bi -> holds (heap s) pM Me -> holds (heap s) pV Va ->
  is_float (a_type T) = true -> bn_ok T axis Sc Bi Me Va eps -> bn_sizes T axis ->
  valid_binary (fprec F64) (femax F64) eps = true ->
  Forall (fun U => dev_type (a_dev U) = 0 /\ init U) [T; Sc; Bi; Me; Va] ->
  Forall (bn_range (a_type T) eps) (a_vals Va) ->
  exists T3, a_type T3 = a_type T /\ a_dev T3 = a_dev T /\ a_dims T3 = a_dims T /\ valid T3 /\
    (forall c, in_box (a_dims T) c -> let k := chan axis c in
       bn_accurate (a_type T) eps (at_ Va [k]) (at_ Sc [k]) (at_ Bi [k]) (at_ Me [k]) (at_ T c) (at_ T3 c)) /\
    makes (aitisa_batch_norm (HPtr p) axis (HPtr pS) (HPtr pB) (HPtr pM) (HPtr pV) eps o) E s T3.
Proof.
  intros Hwf HA HE HT HS HB HM HV Ht Hok Hsz Hv Hall Hrg.
  destruct (bn_float p pS pB pM pV T Sc Bi Me Va axis eps o E s Hwf HA HE HT HS HB HM HV Ht Hok Hsz Hv Hall)
    as (T3 & H1 & H2 & H3 & H4 & H5 & H6).
  { eapply Forall_impl; [exact Hrg|apply range_nonneg]. }
  exists T3. split_and!; [done..| |done]. intros c Hc. cbv zeta. specialize (H5 c Hc). cbv zeta in H5.
  pose proof Hok as (_ & _ & TS & TB & TM & TV & (ch & Hch & DS & DB & DM & DV) & _).
  rewrite !Forall_cons in Hall. destruct Hall as ((C1 & I1) & (C2 & I2) & (C3 & I3) & (C4 & I4) & (C5 & I5) & _).
  assert (0 <= chan axis c < ch) as Hk.
  { destruct (Forall2_lookup_l _ _ _ _ _ Hc Hch) as (x & Hx & Hxr). unfold chan. by rewrite (nth_lookup_Some _ _ 0 _ Hx). }
  assert (forall U k, valid U -> a_dims U = [ch] -> 0 <= k < ch -> at_ U [k] ∈ a_vals U) as Hel.
  { intros U k VU DU Hk'. apply at_elem; [done|]. rewrite DU. apply in_box_cons. split; [done|constructor]. }
  assert (forall U k, valid U -> a_type U = a_type T -> init U -> a_dims U = [ch] -> 0 <= k < ch -> val_ok (a_type T) (at_ U [k])) as Hvo.
  { intros U k VU TU IU DU Hk'. unfold init in IU. rewrite TU in IU. eapply Forall_forall in IU; [exact IU|by apply Hel]. }
  apply bn_is_accurate; try done.
  - eapply Forall_forall in Hrg; [exact Hrg|]. apply Hel; [by eapply holds_valid|done|done].
  - apply Hvo; [by eapply holds_valid|done..].
  - apply Hvo; [by eapply holds_valid|done..].
  - apply Hvo; [by eapply holds_valid|done..].
  - apply Hvo; [by eapply holds_valid|done..].
  - eapply Forall_forall in I1; [exact I1|]. apply at_elem; [by eapply holds_valid|done].
Qed.

(** ** Simple forms of the bounds *)
Lemma pow_simple x n : (0 <= x)%R -> (INR n * x <= / 2)%R -> ((1 + x) ^ n <= 1 + 2 * (INR n * x))%R.
Proof.
  intros Hx. induction n as [|n IH]; [cbn; lra|]. intros Hn. rewrite S_INR in Hn.
  assert ((1 + x) ^ n * (1 - INR n * x) <= 1)%R as Hb.
  { clear IH. assert (INR n * x <= / 2)%R as H by lra. clear Hn. induction n as [|n IH]; [cbn; lra|].
    rewrite S_INR in *. assert (0 <= INR n)%R by apply pos_INR. assert (INR n * x <= / 2)%R as Hn by lra. specialize (IH Hn).
    cbn [pow]. assert (0 < (1 + x) ^ n)%R by (apply pow_lt; lra).
    assert ((1 + x) * (1 - (INR n + 1) * x) <= 1 - INR n * x)%R by nra.
    apply Rle_trans with ((1 + x) ^ n * (1 - INR n * x))%R; [|done].
    rewrite (Rmult_comm (1 + x)), Rmult_assoc. apply Rmult_le_compat_l; lra. }
  rewrite S_INR. assert (0 <= INR n)%R by apply pos_INR. set (a := (INR n * x)%R) in *.
  assert (0 <= a)%R by (unfold a; by apply Rmult_le_pos).
  replace ((INR n + 1) * x)%R with (a + x)%R in * by (unfold a; ring).
  cbn [pow]. set (P := ((1 + x) ^ n)%R) in *. assert (0 < P)%R by (apply pow_lt; lra).
  apply (Rmult_le_reg_r (1 - a)); [lra|].
  apply Rle_trans with (1 + x)%R; [nra|]. nra.
Qed.
Lemma pool_simple t m A : is_float t = true -> (0 <= A)%R -> Z.of_nat m < 2 ^ 52 ->
  (pool_error t m A <= (uround t + 3 * (INR m + 1) * uround F64) * A + 2 * tiny F64 + tiny t)%R.
Proof.
  intros Ht HA Hm. unfold pool_error. pose proof (uround_half t Ht) as Hu. pose proof (uround_pos t) as Hu0.
  pose proof (uround_pos F64) as Hv0. pose proof (tiny_pos F64) as Ht0.
  assert (INR (m + 1) * uround F64 <= / 2)%R as Hn.
  { rewrite INR_IZR_INZ. apply Rle_trans with (bpow radix2 52 * uround F64)%R.
    - apply Rmult_le_compat_r; [lra|]. change (bpow radix2 52) with (IZR (2 ^ 52)). apply IZR_le. lia.
    - unfold uround. rewrite <-bpow_plus. right. reflexivity. }
  pose proof (pow_simple (uround F64) (m + 1) ltac:(lra) Hn) as Hp.
  rewrite plus_INR in *. change (INR 1) with 1%R in *. set (n := (INR m + 1)%R) in *.
  assert (1 <= n)%R by (pose proof (pos_INR m); unfold n; lra).
  set (v := uround F64) in *. set (u := uround t) in *. set (P := ((1 + v) ^ (m + 1))%R) in *.
  assert (0 <= n * v)%R by (apply Rmult_le_pos; lra).
  assert (P * (1 + u) - 1 <= u + 3 * n * v)%R as HP.
  { apply Rle_trans with ((1 + 2 * (n * v)) * (1 + u) - 1)%R; [apply Rplus_le_compat_r, Rmult_le_compat_r; lra|]. nra. }
  assert ((P * (1 + u) - 1) * A <= (u + 3 * n * v) * A)%R by (by apply Rmult_le_compat_r). nra.
Qed.
Lemma bn_simple t eps va sc bi me x : is_float t = true ->
  (bn_error t eps va sc bi me x <=
   7 * uround t * Rabs (val_real sc * bn_quot eps va me x) + uround t * Rabs (val_real bi) + 2 * (Rabs (val_real sc) + 1) * tiny t)%R.
Proof.
  intros Ht. unfold bn_error. cbv zeta. pose proof (uround_pos t) as Hu0. pose proof (tiny_pos t) as Hp.
  assert (uround t <= / 64)%R as Hu.
  { unfold uround. change (/ 64)%R with (bpow radix2 (-6)). apply bpow_le. destruct t; try done; cbn; lia. }
  set (u := uround t) in *. set (q := Rabs (val_real sc * bn_quot eps va me x)). set (s := Rabs (val_real sc)).
  assert (0 <= q)%R by apply Rabs_pos. assert (0 <= s)%R by apply Rabs_pos.
  assert ((1 + u) ^ 4 / (1 - u) ^ 2 - 1 <= 7 * u)%R as Hf.
  { assert (0 < (1 - u) ^ 2)%R by (apply pow_lt; lra).
    apply (Rmult_le_reg_r ((1 - u) ^ 2)); [done|]. field_simplify; [|lra].
    set (v := (u * u)%R). assert (0 <= v)%R by (unfold v; nra). assert (v <= / 64 * u)%R by (unfold v; nra).
    assert (0 <= u * v)%R by nra. assert (u * (u * v) <= u * v)%R by nra. unfold v in *. nra. }
  assert (((1 + u) ^ 4 / (1 - u) ^ 2 - 1) * q <= 7 * u * q)%R by (apply Rmult_le_compat_r; done).
  assert ((s * (1 + u) + 1) * (1 + u) <= 2 * (s + 1))%R as Hs.
  { assert ((1 + u) * (1 + u) <= 2)%R by nra. assert (s * ((1 + u) * (1 + u)) <= s * 2)%R by (apply Rmult_le_compat_l; lra). lra. }
  assert ((s * (1 + u) + 1) * (1 + u) * tiny t <= 2 * (s + 1) * tiny t)%R by (apply Rmult_le_compat_r; lra). lra.
Qed.

(** ** An epsilon below the smallest float *)
Definition eps200 : spec_float := S754_finite false (2 ^ 52) (-252).
Definition T_bnx : atensor := AT F32 cpu [1; 2] (fl [1; 7]).
Definition T_vz : atensor := AT F32 cpu [2] (fl [0; 0]).
Lemma T_bnx_valid : valid T_bnx. Proof. lit_valid. Qed.
Lemma T_vz_valid : valid T_vz. Proof. lit_valid. Qed.
Lemma RV_eps : RV eps200 = bpow radix2 (-200).
Proof.
  unfold RV, eps200. cbn [SF2R cond_Zopp]. unfold F2R. cbn [Fnum Fexp].
  change (IZR (Z.pos (2 ^ 52))) with (bpow radix2 52). rewrite <-bpow_plus. reflexivity.
Qed.
Lemma int_val32 z : Z.abs z <= 2 ^ 24 -> val_real (VF (flt_of_Z F32 z)) = IZR z.
Proof. intros H. by destruct (flt_of_Z_exact F32 z H). Qed.
Lemma bn_tiny_eps : exists E s T Sc Bi Me Va eps,
  alloc_all E /\ hooks_ok E /\ bn_given s T Sc Bi Me Va /\ bn_ok T 1 Sc Bi Me Va eps /\ bn_sizes T 1 /\
  valid_binary (fprec F64) (femax F64) eps = true /\ is_finite_SF eps = true /\ (0 < RV eps)%R /\
  Forall (fun v => finite_val v /\ (0 <= val_real v)%R) (a_vals Va) /\
  bn_real eps (at_ Va [0]) (at_ Sc [0]) (at_ Bi [0]) (at_ Me [0]) (at_ T [0; 0]) = 1%R /\
  (0 < bn_real eps (at_ Va [1%Z]) (at_ Sc [1%Z]) (at_ Bi [1%Z]) (at_ Me [1%Z]) (at_ T [0%Z; 1%Z]) < bpow radix2 111)%R /\
  exists r s', aitisa_batch_norm (HPtr 0) 1 (HPtr 5) (HPtr 10) (HPtr 15) (HPtr 20) eps HNull E s = Done r s' /\
    peek E s' r = Some (SUCCESS, [1; 2], [VF S754_nan; VF (S754_infinity false)]).
Proof.
  exists E0, (fx [T_bnx; T_sc; T_bi; T_me; T_vz]), T_bnx, T_sc, T_bi, T_me, T_vz, eps200.
  split_and!; [done|done| | | |done|done| | | | | |].
  - given T_bnx T_bnx_valid T_sc T_sc_valid T_bi T_bi_valid T_me T_me_valid T_vz T_vz_valid.
  - bok 2.
  - split_and!; [by repeat constructor|by repeat constructor|cbn; lia].
  - rewrite RV_eps. apply bpow_gt_0.
  - change (a_vals T_vz) with ((fun z => VF (flt_of_Z F32 z)) <$> [0; 0]).
    apply Forall_fmap. repeat constructor; unfold compose; (try by eexists); rewrite int_val32 by lia; lra.
  - change (at_ T_vz [0]) with (VF (flt_of_Z F32 0)). change (at_ T_sc [0]) with (VF (flt_of_Z F32 10)).
    change (at_ T_bi [0]) with (VF (flt_of_Z F32 1)). change (at_ T_me [0]) with (VF (flt_of_Z F32 1)).
    change (at_ T_bnx [0; 0]) with (VF (flt_of_Z F32 1)).
    unfold bn_real, bn_quot. rewrite !int_val32 by lia. unfold Rdiv. lra.
  - change (at_ T_vz [1]) with (VF (flt_of_Z F32 0)). change (at_ T_sc [1]) with (VF (flt_of_Z F32 100)).
    change (at_ T_bi [1]) with (VF (flt_of_Z F32 2)). change (at_ T_me [1]) with (VF (flt_of_Z F32 1)).
    change (at_ T_bnx [0; 1]) with (VF (flt_of_Z F32 7)).
    unfold bn_real, bn_quot. rewrite !int_val32, RV_eps by lia.
    assert (sqrt (0 + bpow radix2 (-200)) = bpow radix2 (-100)) as ->.
    { rewrite Rplus_0_l. change (-200) with (-100 + -100). rewrite bpow_plus. apply sqrt_square, bpow_ge_0. }
    unfold Rdiv. rewrite <-bpow_opp. change (- -100) with 100.
    assert (1 <= bpow radix2 100)%R by (change 1%R with (bpow radix2 0); apply bpow_le; lia). lra.
  - change (at_ T_vz [1]) with (VF (flt_of_Z F32 0)). change (at_ T_sc [1]) with (VF (flt_of_Z F32 100)).
    change (at_ T_bi [1]) with (VF (flt_of_Z F32 2)). change (at_ T_me [1]) with (VF (flt_of_Z F32 1)).
    change (at_ T_bnx [0; 1]) with (VF (flt_of_Z F32 7)).
    unfold bn_real, bn_quot. rewrite !int_val32, RV_eps by lia.
    assert (sqrt (0 + bpow radix2 (-200)) = bpow radix2 (-100)) as ->.
    { rewrite Rplus_0_l. change (-200) with (-100 + -100). rewrite bpow_plus. apply sqrt_square, bpow_ge_0. }
    unfold Rdiv. rewrite <-bpow_opp. change (- -100) with 100.
    change 111 with (11 + 100). rewrite bpow_plus. change (bpow radix2 11) with 2048%R.
    assert (1 <= bpow radix2 100)%R by (change 1%R with (bpow radix2 0); apply bpow_le; lia). lra.
  - apply run_ex. vm_compute. done.
Qed.
