(** * ProofAuto: the numbers and comparisons of the test harness *)
From stdpp Require Import list list_numbers.
From Coq Require Import ZArith Lia Reals Lra Floats.SpecFloat.
From Flocq Require Import Core Relative Plus_error IEEE754.BinarySingleNaN.
From Verif Require Import Base Mem Spec SpecReal SpecNN SpecError ModelAuto SpecAuto.
From Verif Require Import ProofFloat ProofFloat2 ProofFloat3 ProofFloat4 ProofCast ProofError.
Open Scope Z_scope.

Lemma tenth_close : (0 < RV d_tenth <= 11 / 100)%R /\ (Rabs (RV d_tenth - 1 / 10) <= bpow radix2 (-57))%R.
Proof.
  unfold d_tenth. cbn [SF2R]. unfold F2R. cbn [Fnum Fexp cond_Zopp].
  change (bpow radix2 (-57)) with (/ 144115188075855872)%R. change (bpow radix2 (-56)) with (/ 72057594037927936)%R.
  change (IZR (Z.pos 7205759403792794)) with 7205759403792794%R.
  split; [lra|]. rewrite Rabs_pos_eq; lra.
Qed.

Lemma rnd_abs t x : (Rabs (rnd t x - x) <= uround t * Rabs x + tiny t)%R.
Proof.
  destruct (rnd_err t x) as (e & k & He & Hk & ->).
  replace (x * (1 + e) + k - x)%R with (x * e + k)%R by ring.
  eapply Rle_trans; [apply Rabs_triang|]. rewrite Rabs_mult. pose proof (Rabs_pos x). nra.
Qed.
Lemma Rabs_between x a : (Rabs x <= a)%R -> (- a <= x <= a)%R.
Proof. intros H. unfold Rabs in H. destruct (Rcase_abs x); lra. Qed.

Lemma natural_float t i : is_float t = true -> Z.of_nat i < 2 ^ 32 ->
  exists w, natural_elem t (Z.of_nat i) = Some w /\ natural_spec t i w.
Proof.
  intros Ht Hi. unfold natural_elem, natural_spec. rewrite Ht.
  destruct tenth_close as [[HT0 HT1] HT2]. set (N := Z.of_nat i) in *.
  assert (0 <= N) as HN0 by lia. clearbody N. clear i.
  assert (uround F64 <= uround t <= bpow radix2 (-24))%R as [Hu1 Hu2].
  { unfold uround. split; apply bpow_le; destruct t; try done; cbn; lia. }
  assert (bpow radix2 (-57) <= uround t / 16)%R as HTu.
  { replace (uround t / 16)%R with (uround t * bpow radix2 (-4))%R by (simpl; lra).
    unfold uround. rewrite <-bpow_plus. apply bpow_le. destruct t; try done; cbn; lia. }
  assert (tiny F64 <= uround t / 1024)%R as Hy1.
  { replace (uround t / 1024)%R with (uround t * bpow radix2 (-10))%R by (simpl; lra).
    unfold uround, tiny. rewrite <-bpow_plus. apply bpow_le. destruct t; try done; cbn; lia. }
  assert (tiny t <= uround t / 1024)%R as Hy2.
  { replace (uround t / 1024)%R with (uround t * bpow radix2 (-10))%R by (simpl; lra).
    unfold uround, tiny. rewrite <-bpow_plus. apply bpow_le. destruct t; try done; cbn; lia. }
  pose proof (uround_pos t) as Hup. pose proof (tiny_pos t). pose proof (tiny_pos F64).
  change (bpow radix2 (-24)) with (/ 16777216)%R in Hu2.
  (* the conversion of i *)
  destruct (flt_of_Z_rnd t N) as (Fx & Rx); [unfold INT64_MIN; lia|].
  pose proof (flt_of_Z_valid t N) as Vx.
  set (x := flt_of_Z t N) in *. clearbody x.
  assert (is64 (flt_conv F64 x) (RV x)) as Hd.
  { destruct t; try done; [now apply flt_conv64_val|]. rewrite flt_conv_same by done. now apply is64_intro. }
  assert (is64 d_tenth (RV d_tenth)) as Htenth by (now apply is64_intro).
  cbn [to_double]. rewrite Ht. cbv beta match.
  set (T := RV d_tenth) in *. clearbody T.
  set (n := IZR N) in *.
  assert (0 <= n <= 4294967296)%R as [Hn0 Hn1].
  { unfold n. split; [now apply (IZR_le 0)|apply (IZR_le N 4294967296); lia]. }
  set (u := uround t) in *. set (y := (u * n)%R).
  assert (0 <= y)%R as Hy0 by (unfold y; nra).
  assert (y <= n / 16777216)%R as Hyn by (unfold y; nra).
  assert (Rabs (RV x - n) <= y + u / 1024)%R as H1.
  { rewrite Rx. eapply Rle_trans; [apply rnd_abs|]. rewrite (Rabs_pos_eq n) by lra. fold u. unfold y. lra. }
  set (X := RV x) in *. clearbody X.
  apply Rabs_between in H1. apply Rabs_between in HT2.
  set (P := (X * T)%R).
  assert (Rabs (P - n / 10) <= 11 / 100 * (y + u / 1024) + y / 16)%R as H2.
  { replace (P - n / 10)%R with ((X - n) * T + n * (T - 1 / 10))%R by (unfold P; lra).
    eapply Rle_trans; [apply Rabs_triang|]. apply Rplus_le_compat.
    - rewrite Rabs_mult, (Rabs_pos_eq T) by lra. rewrite Rmult_comm.
      apply Rmult_le_compat; [lra|apply Rabs_pos|lra|]. apply Rabs_le. lra.
    - rewrite Rabs_mult, (Rabs_pos_eq n) by lra. unfold y.
      replace (u * n / 16)%R with (n * (u / 16))%R by lra.
      apply Rmult_le_compat_l; [lra|]. apply Rabs_le. lra. }
  apply Rabs_between in H2.
  assert (Rabs P <= 11015 / 100000 * n + 1 / 10000)%R as HP.
  { apply Rabs_le. lra. }
  assert (Rabs (rnd F64 P - P) <= 11015 / 100000 * y + 1 / 10000 * u + u / 1024)%R as H3.
  { eapply Rle_trans; [apply rnd_abs|]. apply Rplus_le_compat; [|lra].
    eapply Rle_trans; [apply Rmult_le_compat; [apply bpow_ge_0|apply Rabs_pos|exact Hu1|exact HP]|]. fold u.
    unfold y. right. ring. }
  set (Mu := rnd F64 P) in *.
  apply Rabs_between in H3. apply Rabs_between in HP.
  assert (bpow radix2 128 > 8589934592)%R as Hbig.
  { change 8589934592%R with (bpow radix2 33). apply bpow_lt. lia. }
  assert (bpow radix2 128 <= bpow radix2 1024)%R as Hbig2 by (apply bpow_le; lia).
  assert (is64 (dmul (flt_conv F64 x) d_tenth) Mu) as HM.
  { apply dmul_ok; [done|done|]. change (rnd64 (X * T)) with Mu. apply Rabs_lt. lra. }
  assert (Rabs (Mu + T) <= 1102 / 10000 * n + 1105 / 10000)%R as HS by (apply Rabs_le; lra).
  assert (Rabs (rnd F64 (Mu + T) - (Mu + T)) <= 1102 / 10000 * y + 1105 / 10000 * u + u / 1024)%R as H4.
  { eapply Rle_trans; [apply rnd_abs|]. apply Rplus_le_compat; [|lra].
    eapply Rle_trans; [apply Rmult_le_compat; [apply bpow_ge_0|apply Rabs_pos|exact Hu1|exact HS]|]. fold u.
    unfold y. right. ring. }
  set (A := rnd F64 (Mu + T)) in *.
  apply Rabs_between in H4. apply Rabs_between in HS.
  assert (is64 (dadd (dmul (flt_conv F64 x) d_tenth) d_tenth) A) as HA.
  { apply dadd_ok; [done|done|]. change (rnd64 (Mu + T)) with A. apply Rabs_lt. lra. }
  set (a := dadd (dmul (flt_conv F64 x) d_tenth) d_tenth) in *. clearbody a.
  assert (Rabs A <= 112 / 1000 * n + 112 / 1000)%R as HAb by (apply Rabs_le; lra).
  assert (Rabs (rnd t A - A) <= 112 / 1000 * y + 112 / 1000 * u + u / 1024)%R as H5.
  { eapply Rle_trans; [apply rnd_abs|]. fold u. apply Rplus_le_compat; [|lra].
    eapply Rle_trans; [apply Rmult_le_compat_l; [lra|exact HAb]|]. unfold y. right. ring. }
  apply Rabs_between in H5. apply Rabs_between in HAb.
  assert (bpow radix2 128 <= bpow radix2 (femax t))%R as Hbig3 by (apply bpow_le; destruct t; try done; cbn; lia).
  pose proof (is64_R _ _ HA) as HAR. pose proof (is64_finite _ _ HA) as HAF.
  destruct (flt_conv_rnd t a HAF) as [HF HR].
  { rewrite HAR. apply Rabs_lt. lra. }
  exists (VF (flt_conv t a)). split; [unfold of_double; now rewrite Ht|].
  exists (flt_conv t a). split; [done|]. split; [apply flt_conv_valid|]. split; [done|].
  rewrite HR, HAR. rewrite plus_IZR. fold n. apply Rabs_le.
  replace (6 * u * ((n + 1) / 10))%R with (6 / 10 * y + 6 / 10 * u)%R by (unfold y; field). lra.
Qed.

Lemma natural_int t i : is_float t = false -> Z.of_nat i * Z.of_nat (tsz t) < 2 ^ 32 ->
  exists w, natural_elem t (Z.of_nat i) = Some w /\ natural_spec t i w.
Proof.
  intros Ht Hi. unfold natural_elem, natural_spec. rewrite Ht. set (N := Z.of_nat i) in *.
  assert (0 <= N) by lia. clearbody N.
  assert (forall z, tmin t <= wrap t z <= tmax t /\ wrap t z mod 2 ^ bits t = z mod 2 ^ bits t) as Hw.
  { intros z. split; [by apply wrap_range|by apply wrap_congr]. }
  assert (forall z, tmin t <= z <= tmax t -> wrap t z = z) as Hs by (intros; by apply wrap_id).
  assert (exists w, Some (VI (wrap t (wrap t N + 1))) = Some w /\
     exists z', w = VI z' /\ tmin t <= z' <= tmax t /\ z' mod 2 ^ bits t = (N + 1) mod 2 ^ bits t) as Hg.
  { eexists. split; [done|]. eexists. split; [done|].
    destruct (Hw (wrap t N + 1)) as [Ha ->]. split; [done|].
    rewrite <-Z.add_mod_idemp_l by (by destruct t). destruct (Hw N) as [_ ->].
    rewrite Z.add_mod_idemp_l by (by destruct t). done. }
  destruct t; try done; cbn [tsz] in Hi; try exact Hg.
  all: match goal with Hs : forall z, tmin ?t <= z <= tmax ?t -> _ |- _ =>
         let a := eval vm_compute in (tmin t) in let b := eval vm_compute in (tmax t) in
         change (tmin t) with a in *; change (tmax t) with b in * end.
  all: rewrite Hs by lia.
  all: rewrite (proj2 (Z.leb_le _ _)) by (unfold INT_MAX, INT64_MAX; lia).
  all: eexists; split; [done|]; eexists; split; [done|]; split; [lia|done].
Qed.

(** ** The tolerance *)
Lemma SF_zero f : is_finite_SF f = true -> RV f = 0%R -> exists s, f = S754_zero s.
Proof.
  destruct f as [s|s| |s m e]; try done; [eauto|]. intros _ H. exfalso. revert H.
  cbn [SF2R]. apply F2R_neq_0. by destruct s.
Qed.
Lemma same_float_self t f : vb t f = true -> same_float t (VF f) (VF f) = is_finite_SF f.
Proof.
  intros Hv. unfold same_float. change (SFsub (fprec t) (femax t) f f) with (flt_op t OpSub f f).
  destruct (is_finite_SF f) eqn:Hf.
  - assert (op_real OpSub (RV f) (RV f) = 0%R) as He by (cbn; lra).
    destruct (flt_op_spec t OpSub f f Hv Hv Hf Hf ltac:(done)) as [H _].
    rewrite He, rnd_0 in H. destruct H as [H1 H2]; [rewrite Rabs_R0; apply bpow_gt_0|].
    destruct (SF_zero _ H1 H2) as [s ->]. done.
  - destruct f as [s|s| |s m e]; try done. by destruct s.
Qed.

Lemma milli_pos : (0 < RV d_milli < 1)%R.
Proof.
  unfold d_milli. cbn [SF2R]. unfold F2R. cbn [Fnum Fexp cond_Zopp].
  change (bpow radix2 (-62)) with (/ 4611686018427387904)%R.
  change (IZR (Z.pos 4611686018427388)) with 4611686018427388%R. lra.
Qed.

(** The comparison of finite doubles is that of the reals. *)
Lemma ltb_R f g : vb F64 f = true -> vb F64 g = true -> is_finite_SF f = true -> is_finite_SF g = true ->
  SFltb f g = Rlt_bool (RV f) (RV g).
Proof.
  intros Hf Hg Ff Fg. destruct (bin_of F64 f Hf) as [a ->], (bin_of F64 g Hg) as [b ->].
  rewrite !is_finite_SF_B2SF in *. rewrite !SF2R_B2SF. by apply (Bltb_correct _ _ a b).
Qed.

Lemma abs_valid f : vb F64 f = true -> vb F64 (SFabs f) = true.
Proof. by destruct f as [s|s| |s m e]. Qed.
Lemma abs_R f : is_finite_SF f = true -> is_finite_SF (SFabs f) = true /\ RV (SFabs f) = Rabs (RV f).
Proof.
  destruct f as [s|s| |s m e]; try done; intros _; (split; [done|]); cbn [SFabs SF2R].
  - by rewrite Rabs_R0.
  - rewrite <-F2R_Zabs. f_equal. f_equal. by destruct s.
Qed.
Lemma milli_close : (999999 / 1000000000 <= RV d_milli <= 1000001 / 1000000000)%R.
Proof.
  unfold d_milli. cbn [SF2R]. unfold F2R. cbn [Fnum Fexp cond_Zopp].
  change (bpow radix2 (-62)) with (/ 4611686018427387904)%R.
  change (IZR (Z.pos 4611686018427388)) with 4611686018427388%R. lra.
Qed.

Lemma same_float_iff t x y : is_float t = true -> vb t x = true -> vb t y = true ->
  same_float t (VF x) (VF y) = true <->
  is_finite_SF x = true /\ is_finite_SF y = true /\ (Rabs (rnd t (RV x - RV y)) < RV d_milli)%R.
Proof.
  intros Ht Hx Hy. unfold same_float. change (SFsub (fprec t) (femax t) x y) with (flt_op t OpSub x y).
  assert (1 < bpow radix2 (femax t))%R as Hb by (now apply bpow_gt_1).
  destruct milli_pos as [Hm0 Hm1].
  destruct (op_special OpSub x y) as [v|] eqn:Hs.
  - rewrite (flt_op_special _ _ _ _ _ Hs). revert Hs.
    destruct x as [[]|[]| |[] m e], y as [[]|[]| |[] m' e']; try done; cbn; intros [= <-];
      (split; [done|intros (? & ? & _); done]).
  - destruct (special_finite _ _ _ Hs) as (Fx & Fy & _).
    destruct (flt_op_full t OpSub x y Hx Hy Hs) as [Ha Hc]. cbn [op_real] in Ha, Hc.
    assert (vb t (flt_op t OpSub x y) = true) as Hv by (by apply flt_op_valid).
    destruct (Rlt_or_le (Rabs (rnd t (RV x - RV y))) (bpow radix2 (femax t))) as [Hlt|Hge].
    + destruct (Ha Hlt) as (Ff & Rf & _). set (f := flt_op t OpSub x y) in *. clearbody f.
      destruct (abs_R f Ff) as [Fa Ra].
      assert (vb t (SFabs f) = true) as Hva by (by destruct f).
      assert (is64 (flt_conv F64 (SFabs f)) (RV (SFabs f))) as H64.
      { destruct t; try done; [now apply flt_conv64_val|]. rewrite flt_conv_same by done. now apply is64_intro. }
      rewrite ltb_R; [|apply flt_conv_valid|done|by eapply is64_finite|done].
      rewrite (is64_R _ _ H64), Ra, Rf.
      destruct (Rlt_bool_spec (Rabs (rnd t (RV x - RV y))) (RV d_milli)); split; intros; try done.
      exfalso. destruct H0 as (_ & _ & ?). lra.
    + rewrite (Hc Hge). cbn [SFabs flt_conv]. split; [done|]. intros (_ & _ & ?). lra.
Qed.

Lemma same_float_near t x y : is_float t = true -> vb t x = true -> vb t y = true ->
  (same_float t (VF x) (VF y) = true ->
     is_finite_SF x = true /\ is_finite_SF y = true /\ (Rabs (RV x - RV y) <= 1001 / 1000000)%R) /\
  (is_finite_SF x = true -> is_finite_SF y = true -> (Rabs (RV x - RV y) <= 999 / 1000000)%R ->
     same_float t (VF x) (VF y) = true).
Proof.
  intros Ht Hx Hy. rewrite (same_float_iff t x y Ht Hx Hy).
  pose proof (rnd_abs t (RV x - RV y)) as He. pose proof milli_close as [Hm0 Hm1].
  assert (0 <= uround t <= / 16777216)%R as [Hu0 Hu1].
  { split; [apply bpow_ge_0|]. change (/ 16777216)%R with (bpow radix2 (-24)). unfold uround. apply bpow_le.
    destruct t; try done; cbn; lia. }
  assert (tiny t <= / 1073741824)%R as Hy1.
  { change (/ 1073741824)%R with (bpow radix2 (-30)). unfold tiny. apply bpow_le. destruct t; try done; cbn; lia. }
  set (d := (RV x - RV y)%R) in *. set (r := rnd t d) in *.
  pose proof (Rabs_pos d). pose proof (Rabs_pos r).
  assert (Rabs (r - d) <= Rabs d / 16777216 + / 1073741824)%R as He' by nra.
  pose proof (Rabs_triang_inv d r). pose proof (Rabs_triang_inv r d). rewrite (Rabs_minus_sym d r) in *.
  split.
  - intros (Fx & Fy & Hl). split; [done|]. split; [done|]. lra.
  - intros Fx Fy Hl. split; [done|]. split; [done|]. lra.
Qed.
