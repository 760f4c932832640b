(** * ProofAcc: error bounds for average pooling *)
From stdpp Require Import list list_numbers.
From Coq Require Import ZArith Lia Reals Lra Floats.SpecFloat.
From Flocq Require Import Core Relative Plus_error IEEE754.BinarySingleNaN.
From Verif Require Import Base Mem Spec SpecReal SpecNN SpecError SpecSoft SpecAcc.
From Verif Require Import ProofFloat ProofFloat2 ProofFloat3 ProofFloat4 ProofError ProofSoft ProofSoft2.
Open Scope Z_scope.

Definition fabs (ds : list spec_float) : R := foldr (fun d a => (Rabs (RV d) + a)%R) 0%R ds.
Lemma fabs_snoc ds d : fabs (ds ++ [d]) = (fabs ds + Rabs (RV d))%R.
Proof. induction ds as [|x ds IH]; [cbn; lra|]. change (Rabs (RV x) + fabs (ds ++ [d]) = Rabs (RV x) + fabs ds + Rabs (RV d))%R. lra. Qed.
Lemma fabs_nonneg ds : (0 <= fabs ds)%R.
Proof. induction ds as [|x ds IH]; [cbn; lra|]. change (0 <= Rabs (RV x) + fabs ds)%R. pose proof (Rabs_pos (RV x)). lra. Qed.
Lemma fsum_abs ds : (Rabs (fsum ds) <= fabs ds)%R.
Proof.
  induction ds as [|x ds IH]; [cbn; rewrite Rabs_R0; lra|]. change (Rabs (RV x + fsum ds) <= Rabs (RV x) + fabs ds)%R.
  eapply Rle_trans; [apply Rabs_triang|]. lra.
Qed.

Notation u64 := (uround F64).
Lemma pow_u_ge1 t m : (1 <= (1 + uround t) ^ m)%R.
Proof. apply pow_R1_Rle. pose proof (uround_pos t). lra. Qed.

Lemma dsum_valid ds : Forall (fun d => vb F64 d = true) ds -> vb F64 (foldl dadd fzero ds) = true.
Proof.
  induction ds as [|d ds IH] using rev_ind; intros H; [done|].
  apply Forall_app in H as [H1 [H2 _]%Forall_cons]. rewrite foldl_app. cbn [foldl].
  apply (flt_op_valid F64 OpAdd); auto.
Qed.
Lemma dsum_close ds : Forall (fun d => vb F64 d = true) ds -> is_finite_SF (foldl dadd fzero ds) = true ->
  Forall (fun d => is_finite_SF d = true) ds /\
  (Rabs (RV (foldl dadd fzero ds) - fsum ds) <= ((1 + u64) ^ length ds - 1) * fabs ds)%R.
Proof.
  induction ds as [|d ds IH] using rev_ind; intros H Hf.
  { split; [done|]. cbn. rewrite Rminus_0_r, Rabs_R0. lra. }
  apply Forall_app in H as [H1 [H2 _]%Forall_cons]. rewrite foldl_app in *. cbn [foldl] in *.
  pose proof (dsum_valid ds H1) as HS. set (S := foldl dadd fzero ds) in *.
  destruct (flt_op_finite F64 OpAdd S d ltac:(done) HS H2 Hf) as (FS & Fd & HR).
  destruct (IH H1 FS) as [Fds Herr].
  split; [apply Forall_app; split; [done|by constructor]|].
  change (dadd S d) with (flt_op F64 OpAdd S d). rewrite HR. cbn [op_real].
  destruct (rnd_add_err F64 (RV S) (RV d) (fmt_val F64 S HS) (fmt_val F64 d H2)) as (e & He & ->).
  rewrite fsum_snoc, fabs_snoc, app_length. cbn [length]. rewrite Nat.add_1_r. cbn [pow].
  pose proof (pow_u_ge1 F64 (length ds)) as Hw. set (w := ((1 + u64) ^ length ds)%R) in *.
  pose proof (fsum_abs ds) as Hsa. pose proof (fabs_nonneg ds) as Ha. set (A := fabs ds) in *. set (X := fsum ds) in *.
  replace ((RV S + RV d) * (1 + e) - (X + RV d))%R with ((RV S - X) * (1 + e) + (X + RV d) * e)%R by ring.
  eapply Rle_trans; [apply Rabs_triang|]. rewrite !Rabs_mult.
  pose proof (uround_pos F64) as Hu. set (u := u64) in *.
  assert (Rabs (RV S - X) * Rabs (1 + e) <= (w - 1) * A * (1 + u))%R as B1.
  { apply Rmult_le_compat; [apply Rabs_pos|apply Rabs_pos|done|by apply Rabs_1]. }
  assert (Rabs (X + RV d) * Rabs e <= (A + Rabs (RV d)) * u)%R as B2.
  { apply Rmult_le_compat; [apply Rabs_pos|apply Rabs_pos| |done]. eapply Rle_trans; [apply Rabs_triang|]. lra. }
  pose proof (Rabs_pos (RV d)) as Hd. set (z := Rabs (RV d)) in *.
  assert (0 <= (w - 1) * z * (1 + u))%R by (repeat apply Rmult_le_pos; lra). nra.
Qed.
Lemma dsum_safe ds : Forall (fun d => vb F64 d = true) ds -> Forall (fun d => is_finite_SF d = true) ds ->
  (fabs ds * (1 + u64) ^ length ds < bpow radix2 1024)%R -> is_finite_SF (foldl dadd fzero ds) = true.
Proof.
  induction ds as [|d ds IH] using rev_ind; intros H Hf Hs; [done|].
  apply Forall_app in H as [H1 [H2 _]%Forall_cons]. apply Forall_app in Hf as [F1 [F2 _]%Forall_cons].
  rewrite fabs_snoc, app_length in Hs. cbn [length] in Hs. rewrite Nat.add_1_r in Hs. cbn [pow] in Hs.
  pose proof (uround_pos F64) as Hu. set (u := u64) in *.
  pose proof (pow_u_ge1 F64 (length ds)) as Hw. fold u in Hw. set (w := ((1 + u) ^ length ds)%R) in *.
  pose proof (fabs_nonneg ds) as Ha. pose proof (Rabs_pos (RV d)) as Hd.
  assert (is_finite_SF (foldl dadd fzero ds) = true) as FS.
  { apply IH; [done|done|]. eapply Rle_lt_trans; [|exact Hs]. fold u. fold w.
    assert (0 <= Rabs (RV d) * w)%R by (apply Rmult_le_pos; lra).
    assert (0 <= fabs ds * w)%R by (apply Rmult_le_pos; lra). nra. }
  destruct (dsum_close ds H1 FS) as [_ Herr].
  pose proof (dsum_valid ds H1) as HS. rewrite foldl_app. cbn [foldl]. set (S := foldl dadd fzero ds) in *.
  apply (flt_op_small F64 OpAdd S d); try done. cbn [op_real].
  destruct (rnd_add_err F64 (RV S) (RV d) (fmt_val F64 S HS) (fmt_val F64 d H2)) as (e & He & ->).
  eapply Rle_lt_trans; [|exact Hs]. rewrite Rabs_mult. fold u in He.
  pose proof (Rabs_1 e u He) as He1. fold u in Herr. fold w in Herr.
  pose proof (fsum_abs ds) as Hsa.
  assert (Rabs (RV S) <= fabs ds * w)%R as HSb.
  { pose proof (Rabs_triang (RV S - fsum ds) (fsum ds)) as Ht.
    replace (RV S - fsum ds + fsum ds)%R with (RV S) in Ht by ring. nra. }
  assert (Rabs (RV S + RV d) <= (fabs ds + Rabs (RV d)) * w)%R as Hq.
  { eapply Rle_trans; [apply Rabs_triang|]. nra. }
  replace ((fabs ds + Rabs (RV d)) * ((1 + u) * w))%R with ((fabs ds + Rabs (RV d)) * w * (1 + u))%R by ring.
  apply Rmult_le_compat; [apply Rabs_pos|apply Rabs_pos|done|done].
Qed.

(** ** Conversions *)
Lemma to_double_float t v d : is_float t = true -> val_ok t v -> to_double t v = Some d ->
  vb F64 d = true /\ RV d = val_real v /\ (is_finite_SF d = true <-> finite_val v).
Proof.
  intros Ht Hok Hd. destruct v as [z|f|]; unfold to_double in Hd; try rewrite Ht in Hd; [done| |done].
  injection Hd as <-. destruct Hok as [_ Hv]. split; [apply flt_conv_valid|]. cbn [val_real].
  assert (is_finite_SF f = true -> RV (flt_conv F64 f) = RV f /\ is_finite_SF (flt_conv F64 f) = true) as H.
  { destruct f as [sg|sg| |sg m ee]; try done. intros _. destruct (flt_conv_exact F64 sg m ee) as (H1 & H2 & _); [| |done].
    - destruct t; try done; [|by apply fmt_val]. apply (fmt_incl F32 F64); [easy|easy|now apply fmt_val].
    - destruct t; try done; [|by apply (val_small F64)].
      apply Rlt_trans with (1 := val_small F32 _ Hv). now apply bpow_lt. }
  assert (is_finite_SF f = false -> flt_conv F64 f = f /\ RV f = 0%R) as H' by (by destruct f).
  destruct (is_finite_SF f) eqn:Hf.
  - destruct (H eq_refl) as [H1 H2]. split; [done|]. split; [|done]. intros _. by exists f.
  - destruct (H' eq_refl) as [H1 H2]. rewrite H1, Hf. split; [done|]. split; [done|]. intros (g & [= <-] & Hg). congruence.
Qed.
Lemma to_doubles t vs ds : is_float t = true -> Forall (val_ok t) vs -> mapM (to_double t) vs = Some ds ->
  Forall (fun d => vb F64 d = true) ds /\ fsum ds = sum_real vs /\ fabs ds = abs_sum vs /\ length ds = length vs /\
  (Forall (fun d => is_finite_SF d = true) ds <-> Forall finite_val vs).
Proof.
  intros Ht H Hm. apply mapM_Some in Hm. induction Hm as [|v d vs ds Hv Hm IH]; [by split_and!|].
  apply Forall_cons in H as [H1 H2]. destruct (IH H2) as (I1 & I2 & I3 & I4 & I5).
  destruct (to_double_float t v d Ht H1 Hv) as (J1 & J2 & J3). split_and!.
  - by constructor.
  - change (RV d + fsum ds = val_real v + sum_real vs)%R. by rewrite I2, J2.
  - change (Rabs (RV d) + fabs ds = Rabs (val_real v) + abs_sum vs)%R. by rewrite I3, J2.
  - cbn. by rewrite I4.
  - by rewrite !Forall_cons, J3, I5.
Qed.
Lemma conv_finite t f : vb F64 f = true -> is_finite_SF (flt_conv t f) = true ->
  is_finite_SF f = true /\ RV (flt_conv t f) = rnd t (RV f).
Proof.
  intros Hv Hf. assert (is_finite_SF f = true) as Ff by (by destruct f). split; [done|].
  destruct (Rlt_or_le (Rabs (rnd t (RV f))) (bpow radix2 (femax t))) as [Hlt|Hge]; [by apply flt_conv_rnd|].
  exfalso. destruct f as [sg|sg| |sg m e]; try done.
  { cbn in Hge. rewrite rnd_0, Rabs_R0 in Hge. pose proof (bpow_gt_0 radix2 (femax t)). lra. }
  unfold flt_conv in Hf. rewrite (binary_round_eq (fprec t) (femax t)) in Hf.
  destruct (binary_round_correct (fprec t) (femax t) (ProofFloat2.Hp t) (Hm t) mode_NE sg m e) as [_ H].
  cbv zeta in H. rewrite Rlt_bool_false in H; [|exact Hge]. rewrite H in Hf. done.
Qed.

(** ** The quotient *)
Lemma ddiv_count S n : vb F64 S = true -> 1 <= n <= 2 ^ 53 ->
  vb F64 (ddiv S (dbl_of_Z n)) = true /\ (is_finite_SF (ddiv S (dbl_of_Z n)) = is_finite_SF S) /\
  (is_finite_SF S = true -> RV (ddiv S (dbl_of_Z n)) = rnd F64 (RV S / IZR n)).
Proof.
  intros HS Hn. pose proof (dbl_of_Z_ok n ltac:(lia)) as Hd.
  assert (1 <= IZR n)%R as Hn1 by (apply IZR_le; lia).
  assert (is_finite_SF S = true -> is64 (ddiv S (dbl_of_Z n)) (rnd F64 (RV S / IZR n))) as H.
  { intros Hf. apply (ddiv_ok _ _ _ _ (is64_intro S HS Hf) Hd); [lra|].
    change (rnd64 (RV S / IZR n)) with (rnd F64 (RV S / IZR n)).
    eapply Rle_lt_trans; [|exact (val_small F64 S HS)].
    apply Rabs_le. assert (Rabs (RV S / IZR n) <= Rabs (RV S))%R as Hq.
    { unfold Rdiv. rewrite Rabs_mult, (Rabs_pos_eq (/ _)) by (left; apply Rinv_0_lt_compat; lra).
      rewrite <-(Rmult_1_r (Rabs (RV S))) at 2. apply Rmult_le_compat_l; [apply Rabs_pos|].
      rewrite <-Rinv_1. apply Rinv_le; lra. }
    apply Rabs_le_inv in Hq.
    pose proof (fmt_val F64 S HS) as Hfm.
    assert (fmt F64 (Rabs (RV S))) as Hfa by (by apply generic_format_abs).
    split.
    - rewrite <-(rnd_fmt F64 (- _)) by (by apply generic_format_opp). apply rnd_le. lra.
    - rewrite <-(rnd_fmt F64 (Rabs _)) by done. apply rnd_le. lra. }
  split; [|split].
  - apply (flt_op_valid F64 OpDiv); [done|by eapply is64_valid].
  - destruct (is_finite_SF S) eqn:Hf; [by eapply is64_finite, H|].
    pose proof (is64_finite _ _ Hd) as Fd. pose proof (is64_R _ _ Hd) as Rd.
    destruct (dbl_of_Z n) as [sg|sg| |sg m e]; try done; destruct S; try done; try (cbn in Rd; lra).
  - intros Hf. eapply is64_R. by apply H.
Qed.

(** ** Average pooling *)
Lemma pool_avg_accurate t n vs w : is_float t = true -> Forall (val_ok t) vs -> 1 <= n <= 2 ^ 53 ->
  pool_avg t n vs = Some w -> pool_accurate t n vs w.
Proof.
  intros Ht Hok Hn Hp. unfold pool_avg in Hp. destruct (mapM (to_double t) vs) as [ds|] eqn:Hm; [|done]. cbn in Hp.
  unfold of_double in Hp. rewrite Ht in Hp. injection Hp as <-.
  destruct (to_doubles t vs ds Ht Hok Hm) as (Hv & Hs & Ha & Hl & Hfin).
  pose proof (dsum_valid ds Hv) as HSv. pose proof (dsum_close ds Hv) as Hclose. pose proof (dsum_safe ds Hv) as Hsafe.
  set (S := foldl dadd fzero ds) in *. destruct (ddiv_count S n HSv Hn) as (Hqv & Hqf & HqR).
  set (q := ddiv S (dbl_of_Z n)) in *. rewrite Hs, Ha, Hl in Hclose. rewrite Ha, Hl in Hsafe.
  assert (1 <= IZR n)%R as Hn1 by (apply IZR_le; lia).
  set (A := (abs_sum vs / IZR n)%R). set (X := (sum_real vs / IZR n)%R).
  assert (is_finite_SF S = true -> Rabs (rnd t (RV q) - X) <= pool_error t (length vs) A)%R as Herr.
  { intros FS. destruct (Hclose FS) as [_ HE]. rewrite (HqR FS).
    assert (Rabs (RV S / IZR n - X) <= ((1 + u64) ^ length vs - 1) * A)%R as HE'.
    { unfold X, A. replace (RV S / IZR n - sum_real vs / IZR n)%R with ((RV S - sum_real vs) * / IZR n)%R by (field; lra).
      rewrite Rabs_mult, (Rabs_pos_eq (/ _)) by (left; apply Rinv_0_lt_compat; lra).
      unfold Rdiv. rewrite <-Rmult_assoc. apply Rmult_le_compat_r; [left; apply Rinv_0_lt_compat; lra|done]. }
    assert (Rabs X <= A)%R as HXA.
    { unfold X, A, Rdiv. rewrite Rabs_mult, (Rabs_pos_eq (/ _)) by (left; apply Rinv_0_lt_compat; lra).
      apply Rmult_le_compat_r; [left; apply Rinv_0_lt_compat; lra|]. rewrite <-Hs, <-Ha. apply fsum_abs. }
    destruct (rnd_err F64 (RV S / IZR n)) as (e & h & He & Hh & ->). set (Y := (RV S / IZR n)%R) in *.
    destruct (rnd_err t (Y * (1 + e) + h)) as (e' & h' & He' & Hh' & ->).
    unfold pool_error. rewrite Nat.add_1_r. cbn [pow].
    pose proof (pow_u_ge1 F64 (length vs)) as Hw. set (w := ((1 + u64) ^ length vs)%R) in *.
    pose proof (uround_pos F64) as Hu. pose proof (uround_pos t) as Hut. set (u := u64) in *. set (ut := uround t) in *.
    pose proof (tiny_pos F64) as Hti. pose proof (tiny_pos t) as Htit.
    replace ((Y * (1 + e) + h) * (1 + e') + h' - X)%R
      with ((Y - X) * ((1 + e) * (1 + e')) + X * (e + e' + e * e') + h * (1 + e') + h')%R by ring.
    pose proof (Rabs_1 e u He) as He1. pose proof (Rabs_1 e' ut He') as He1'.
    assert (Rabs (e + e' + e * e') <= (1 + u) * (1 + ut) - 1)%R as Hee.
    { eapply Rle_trans; [apply Rabs_triang|]. rewrite (Rabs_mult e e').
      assert (Rabs e * Rabs e' <= u * ut)%R by (apply Rmult_le_compat; [apply Rabs_pos|apply Rabs_pos|done|done]).
      pose proof (Rabs_triang e e'). lra. }
    assert (Rabs ((Y - X) * ((1 + e) * (1 + e'))) <= (w - 1) * A * ((1 + u) * (1 + ut)))%R as B1.
    { rewrite !Rabs_mult. apply Rmult_le_compat; [apply Rabs_pos|apply Rmult_le_pos; apply Rabs_pos|done|].
      apply Rmult_le_compat; [apply Rabs_pos|apply Rabs_pos|done|done]. }
    assert (Rabs (X * (e + e' + e * e')) <= A * ((1 + u) * (1 + ut) - 1))%R as B2.
    { rewrite Rabs_mult. apply Rmult_le_compat; [apply Rabs_pos|apply Rabs_pos|done|done]. }
    assert (Rabs (h * (1 + e')) <= tiny F64 * (1 + ut))%R as B3.
    { rewrite Rabs_mult. apply Rmult_le_compat; [apply Rabs_pos|apply Rabs_pos|done|done]. }
    eapply Rle_trans; [apply Rabs_triang|]. eapply Rle_trans; [apply Rplus_le_compat_r, Rabs_triang|].
    eapply Rle_trans; [apply Rplus_le_compat_r, Rplus_le_compat_r, Rabs_triang|].
    assert ((w - 1) * A * ((1 + u) * (1 + ut)) + A * ((1 + u) * (1 + ut) - 1) = ((1 + u) * w * (1 + ut) - 1) * A)%R as B4 by ring.
    lra. }
  split.
  - intros (g & [= <-] & Hg). destruct (conv_finite t q Hqv Hg) as [Fq HR]. rewrite Hqf in Fq.
    split; [by apply Hfin, Hclose|]. cbn [val_real]. rewrite HR. by apply Herr.
  - intros Fv Hs1 Hs2. assert (is_finite_SF S = true) as FS by (apply Hsafe; [by apply Hfin|done]).
    eexists. split; [done|]. apply flt_conv_rnd; [by rewrite Hqf|].
    eapply Rle_lt_trans; [|exact Hs2]. pose proof (Herr FS) as HE.
    pose proof (Rabs_triang (rnd t (RV q) - X) X) as Htr. replace (rnd t (RV q) - X + X)%R with (rnd t (RV q)) in Htr by ring.
    assert (Rabs X <= A)%R as HXA.
    { unfold X, A, Rdiv. rewrite Rabs_mult, (Rabs_pos_eq (/ _)) by (left; apply Rinv_0_lt_compat; lra).
      apply Rmult_le_compat_r; [left; apply Rinv_0_lt_compat; lra|]. rewrite <-Hs, <-Ha. apply fsum_abs. }
    fold A. lra.
Qed.
