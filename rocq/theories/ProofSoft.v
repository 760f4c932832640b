(** * ProofSoft: softmax is a probability distribution, up to rounding *)
From stdpp Require Import list list_numbers.
From Coq Require Import ZArith Lia Reals Lra Floats.SpecFloat.
From Flocq Require Import Core Relative Plus_error IEEE754.BinarySingleNaN.
From Verif Require Import Base Mem Spec SpecReal SpecNN SpecError SpecSoft.
From Verif Require Import ProofFloat ProofFloat2 ProofFloat3 ProofFloat4 ProofError.
Open Scope Z_scope.

Notation u64 := (uround F64).
Definition fsum (ds : list spec_float) : R := foldr (fun d a => (RV d + a)%R) 0%R ds.
Lemma fsum_snoc ds d : fsum (ds ++ [d]) = (fsum ds + RV d)%R.
Proof. unfold fsum. induction ds as [|a ds IH]; cbn; [ring|]. rewrite IH. ring. Qed.

Definition good_d (d : spec_float) : Prop := vb F64 d = true /\ is_finite_SF d = true /\ (0 <= RV d)%R.
Lemma fsum_nonneg ds : Forall good_d ds -> (0 <= fsum ds)%R.
Proof. unfold fsum. induction 1 as [|d ds (_ & _ & H) _ IH]; cbn; lra. Qed.

(** The sum of non-negative doubles *)
Lemma sum_ok ds : Forall good_d ds -> (fsum ds * (1 + u64) ^ length ds < bpow radix2 (femax F64))%R ->
  good_d (foldl dadd fzero ds) /\
  (Rabs (RV (foldl dadd fzero ds) - fsum ds) <= ((1 + u64) ^ length ds - 1) * fsum ds)%R /\
  Forall (fun d => (RV d <= RV (foldl dadd fzero ds))%R) ds.
Proof.
  induction ds as [|d ds IH] using rev_ind; intros Hg Hs.
  - cbn. split; [split_and!; [done|done|cbn; lra]|]. split; [|constructor]. rewrite Rminus_0_r, Rabs_R0. lra.
  - apply Forall_app in Hg as [Hg [(Vd & Fd & Pd) _]%Forall_cons].
    rewrite fsum_snoc, app_length in *. cbn [length] in *. rewrite Nat.add_1_r in *. cbn [pow] in *.
    pose proof (fsum_nonneg ds Hg) as HA. pose proof (pow_ge1 F64 (length ds)) as Hw. cbv zeta in Hw.
    assert (0 < u64)%R as Hu by apply uround_pos. set (w := ((1 + u64) ^ length ds)%R) in *.
    set (A := fsum ds) in *. set (r := RV d) in *.
    assert (0 <= r * ((1 + u64) * w))%R by (repeat apply Rmult_le_pos; lra).
    assert (0 <= A * (u64 * w))%R by (repeat apply Rmult_le_pos; lra).
    destruct IH as ((Vs & Fs & Ps) & He & Hm); [done|lra|].
    rewrite foldl_app. cbn [foldl]. set (S := foldl dadd fzero ds) in *. set (x := RV S) in *.
    destruct (rnd_add_err F64 x r (fmt_val _ _ Vs) (fmt_val _ _ Vd)) as (e & Hee & Hr).
    assert (Rabs (rnd F64 (x + r) - (A + r)) <= ((1 + u64) * w - 1) * (A + r))%R as Hst.
    { rewrite Hr. replace ((x + r) * (1 + e) - (A + r))%R with ((x - A) * (1 + e) + (A + r) * e)%R by ring.
      eapply Rle_trans; [apply Rabs_triang|]. rewrite !Rabs_mult. rewrite (Rabs_pos_eq (A + r)) by lra.
      assert (Rabs (x - A) * Rabs (1 + e) <= ((w - 1) * A) * (1 + u64))%R.
      { apply Rmult_le_compat; [apply Rabs_pos|apply Rabs_pos|done|by apply Rabs_1]. }
      assert ((A + r) * Rabs e <= (A + r) * u64)%R by (apply Rmult_le_compat_l; [lra|done]).
      assert (0 <= r * ((1 + u64) * (w - 1)))%R by (repeat apply Rmult_le_pos; lra). lra. }
    assert (0 <= rnd F64 (x + r))%R as Hn by (apply rnd_nonneg; lra).
    assert (Rabs (rnd F64 (x + r)) < bpow radix2 (femax F64))%R as Hlt.
    { rewrite Rabs_pos_eq by done. pose proof (Rle_abs (rnd F64 (x + r) - (A + r))). lra. }
    destruct (flt_op_spec F64 OpAdd S d Vs Vd Fs Fd ltac:(done)) as [Hop _]. destruct (Hop Hlt) as [Ff Fr].
    change (dadd S d) with (flt_op F64 OpAdd S d). cbn [op_real] in Fr. fold x r in Fr. split_and!.
    + split_and!; [by apply flt_op_valid|exact Ff|]. rewrite Fr. exact Hn.
    + rewrite Fr. exact Hst.
    + rewrite Fr. apply Forall_app. split.
      * eapply Forall_impl; [exact Hm|]. cbv beta. intros b Hb. eapply Rle_trans; [exact Hb|].
        rewrite <-(rnd_fmt F64 x) at 1 by by apply fmt_val. apply rnd_le. lra.
      * apply Forall_singleton. fold r. rewrite <-(rnd_fmt F64 r) at 1 by by apply fmt_val. apply rnd_le. lra.
Qed.

(** One quotient *)
Lemma quot_ok t d S : is_float t = true -> good_d d -> good_d S -> (RV d <= RV S)%R -> (0 < RV S)%R ->
  let w := flt_conv t (ddiv d S) in
  is_finite_SF w = true /\ RV w = rnd t (rnd F64 (RV d / RV S)) /\ (0 <= RV w <= 1)%R.
Proof.
  intros Ht (Vd & Fd & Pd) (Vs & Fs & _) Hle Hpos w.
  pose proof (div_unit (RV d) (RV S) Hpos ltac:(lra)) as Hu. pose proof (div_nonneg (RV d) (RV S) Hpos Pd) as Hn.
  destruct (flt_op_spec F64 OpDiv d S Vd Vs Fd Fs ltac:(lra)) as [Hop _].
  destruct (Hop (rnd_unit_small F64 _ eq_refl Hu)) as [Fq Rq]. cbn [op_real] in Rq.
  change (flt_op F64 OpDiv d S) with (ddiv d S) in *.
  pose proof (rnd_unit F64 _ eq_refl Hu) as Hu2. pose proof (rnd_nonneg F64 _ Hn) as Hn2.
  destruct (flt_conv_rnd t (ddiv d S) Fq) as [Fw Rw]; [rewrite Rq; by apply rnd_unit_small|].
  fold w in Fw, Rw. rewrite Rq in Rw. split_and!; [done|done| |]; rewrite Rw; [by apply rnd_nonneg|].
  by apply rnd_unit.
Qed.

(** Two roundings of a quotient by a sum [S] close to [A] *)
Lemma quot_err t n e S A : (0 <= e)%R -> (0 < S)%R -> (0 < A)%R -> ((1 + u64) ^ n < 2)%R ->
  (Rabs (S - A) <= ((1 + u64) ^ n - 1) * A)%R ->
  (Rabs (rnd t (rnd F64 (e / S)) - e / A) <= soft_rel t n * (e / A) + soft_abs t)%R.
Proof.
  intros He HS HA Hw HSA. unfold soft_rel, soft_abs.
  destruct (rnd_err F64 (e / S)) as (d1 & h1 & Hd1 & Hh1 & ->).
  destruct (rnd_err t (e / S * (1 + d1) + h1)) as (d2 & h2 & Hd2 & Hh2 & ->).
  pose proof (pow_ge1 F64 n) as Hge. cbv zeta in Hge. set (w := ((1 + u64) ^ n)%R) in *.
  pose proof (uround_pos t) as Hut. pose proof (uround_pos F64) as Hu64.
  pose proof (tiny_pos t). pose proof (tiny_pos F64).
  assert (uround t < 1)%R as Hut1 by (unfold uround; apply (bpow_lt radix2 _ 0); unfold fprec; destruct t; lia).
  assert (u64 < 1)%R as Hu1 by (unfold uround; apply (bpow_lt radix2 _ 0); unfold fprec; lia).
  set (u := uround t) in *. set (v := u64) in *.
  (* e / S = (e / A) * (A / S), and A / S lies between 1 / w and 1 / (2 - w) *)
  set (p := (e / A)%R). set (g := (A / S)%R).
  assert (e / S = p * g)%R as -> by (unfold p, g; field; lra).
  assert (0 <= p)%R as Hp by (apply div_nonneg; lra).
  assert (0 < g)%R as Hg by (apply Rdiv_lt_0_compat; lra).
  assert (g * S = A)%R as HgS by (unfold g; field; lra).
  apply Rabs_le_inv in HSA.
  assert (g * (2 - w) <= 1)%R as Hg1.
  { apply (Rmult_le_reg_r S); [lra|]. replace (g * (2 - w) * S)%R with ((2 - w) * (g * S))%R by ring. rewrite HgS. lra. }
  assert (1 <= g * w)%R as Hg2.
  { apply (Rmult_le_reg_r S); [lra|]. replace (g * w * S)%R with (w * (g * S))%R by ring. rewrite HgS. lra. }
  assert (g <= 1 / (2 - w))%R as Hg3.
  { apply (Rmult_le_reg_r (2 - w)); [lra|]. unfold Rdiv. rewrite Rmult_1_l, Rinv_l by lra. lra. }
  set (G := (1 / (2 - w))%R) in *.
  assert (G * (2 - w) = 1)%R as HG by (unfold G; field; lra).
  assert (1 <= G)%R as HG1 by nra.
  replace ((1 + u) * (1 + v) / (2 - w))%R with ((1 + u) * (1 + v) * G)%R by (unfold G; field; lra).
  replace ((p * g * (1 + d1) + h1) * (1 + d2) + h2 - p)%R
    with (p * (g * (1 + d1) * (1 + d2) - 1) + (h1 * (1 + d2) + h2))%R by ring.
  eapply Rle_trans; [apply Rabs_triang|]. apply Rplus_le_compat.
  - rewrite Rabs_mult, (Rabs_pos_eq p), Rmult_comm by done. apply Rmult_le_compat_r; [done|].
    apply Rabs_le_inv in Hd1, Hd2.
    assert (g * ((1 + d1) * (1 + d2)) <= (1 + u) * (1 + v) * G)%R as Hup.
    { rewrite Rmult_comm. apply Rmult_le_compat; [apply Rmult_le_pos; lra|lra| |lra].
      rewrite (Rmult_comm (1 + u)). apply Rmult_le_compat; lra. }
    assert (g * ((1 - v) * (1 - u)) <= g * ((1 + d1) * (1 + d2)))%R as Hlo.
    { apply Rmult_le_compat_l; [lra|]. apply Rmult_le_compat; lra. }
    (* g (1-u)(1-v) + G (1+u)(1+v) >= 2 *)
    assert (1 + 1 <= g + G)%R as HgG.
    { assert (1 / w <= g)%R.
      { apply (Rmult_le_reg_r w); [lra|]. unfold Rdiv. rewrite Rmult_1_l, Rinv_l by lra. lra. }
      assert (0 <= (w - 1) * (w - 1))%R by nra.
      assert (1 / w * w = 1)%R as Hw1 by (field; lra). set (W := (1 / w)%R) in *.
      assert (0 < W)%R by (apply Rdiv_lt_0_compat; lra).
      (* W + G >= 2: multiply by w (2 - w) > 0 *)
      assert (0 < w * (2 - w))%R as Hpos by nra.
      assert (2 * (w * (2 - w)) <= (W + G) * (w * (2 - w)))%R as Hm.
      { replace ((W + G) * (w * (2 - w)))%R with ((W * w) * (2 - w) + (G * (2 - w)) * w)%R by ring. rewrite Hw1, HG. nra. }
      apply Rmult_le_reg_r in Hm; [lra|done]. }
    assert (0 <= (u + v) * (G - g))%R by (apply Rmult_le_pos; lra).
    assert (0 <= u * v * (G + g))%R by (apply Rmult_le_pos; nra).
    apply Rabs_le. rewrite Rmult_assoc. split; [|lra]. nra.
  - eapply Rle_trans; [apply Rabs_triang|]. rewrite Rabs_mult.
    assert (Rabs h1 * Rabs (1 + d2) <= tiny F64 * (1 + u))%R; [|lra].
    apply Rmult_le_compat; [apply Rabs_pos|apply Rabs_pos|done|by apply Rabs_1].
Qed.

Lemma pow_lt2 n : Z.of_nat n <= 2 ^ 51 -> ((1 + u64) ^ n < 2)%R.
Proof.
  intros Hn. pose proof (uround_pos F64).
  assert (INR n * u64 <= / 4)%R as H4.
  { rewrite INR_IZR_INZ. apply Rle_trans with (IZR (2 ^ 51) * u64)%R.
    - apply Rmult_le_compat_r; [lra|]. by apply IZR_le.
    - change (IZR (2 ^ 51)) with (bpow radix2 51). change (/ 4)%R with (bpow radix2 (-2)). unfold uround.
      rewrite <-bpow_plus. apply bpow_le. unfold fprec. lia. }
  pose proof (pow_1u u64 n ltac:(lra) ltac:(lra)) as H1. pose proof (pow_ge1 F64 n) as H2. cbv zeta in H2.
  set (w := ((1 + u64) ^ n)%R) in *. nra.
Qed.

(** ** Lanes *)
Lemma Forall2_sum es ws k h :
  Forall2 (fun e w => (Rabs (val_real w - val_real e / sum_real es) <= k * (val_real e / sum_real es) + h)%R) es ws ->
  (0 < sum_real es)%R ->
  (Rabs (sum_real ws - 1) <= k + INR (length es) * h)%R.
Proof.
  intros H HS. set (A := sum_real es) in *.
  assert (Rabs (sum_real ws - sum_real es / A) <= k * (sum_real es / A) + INR (length es) * h)%R as HH.
  { clearbody A. clear HS. induction H as [|e w es ws Hw _ IH].
    - cbn. unfold Rdiv. rewrite Rmult_0_l, Rminus_0_r, Rabs_R0. lra.
    - change (sum_real (w :: ws)) with (val_real w + sum_real ws)%R.
      change (sum_real (e :: es)) with (val_real e + sum_real es)%R.
      change (length (e :: es)) with (S (length es)). rewrite S_INR.
      replace (val_real w + sum_real ws - (val_real e + sum_real es) / A)%R
        with ((val_real w - val_real e / A) + (sum_real ws - sum_real es / A))%R by (unfold Rdiv; ring).
      eapply Rle_trans; [apply Rabs_triang|]. unfold Rdiv in *. lra. }
  replace (sum_real es / A)%R with 1%R in HH by (unfold A; field; unfold A in HS; lra). lra.
Qed.

Lemma conv64_good t e : is_float t = true -> val_ok t e -> finite_val e -> (0 <= val_real e)%R ->
  exists d, to_double t e = Some d /\ good_d d /\ RV d = val_real e.
Proof.
  intros Ht Hok (f & -> & Hf) Hp. destruct Hok as [_ Hv]. cbn [val_real] in *.
  exists (flt_conv F64 f). unfold to_double. rewrite Ht. split; [done|].
  assert (RV (flt_conv F64 f) = RV f /\ is_finite_SF (flt_conv F64 f) = true) as [Hr Hfin].
  { destruct f as [sg|sg| |sg m ee]; try done. destruct (flt_conv_exact F64 sg m ee) as (H1 & H2 & _); [| |done].
    - destruct t; try done; [|by apply fmt_val]. apply (fmt_incl F32 F64); [easy|easy|now apply fmt_val].
    - destruct t; try done; [|by apply (val_small F64)].
      apply Rlt_trans with (1 := val_small F32 _ Hv). now apply bpow_lt. }
  split; [|done]. split_and!; [apply flt_conv_valid|done|by rewrite Hr].
Qed.

Lemma exp_lane_valid ex t xs es : is_float t = true -> exp_lane ex t xs = Some es -> Forall (val_ok t) es.
Proof.
  intros Ht. unfold exp_lane. rewrite mapM_Some. induction 1 as [|x e xs es Hx _ IH]; [done|].
  constructor; [|exact IH]. destruct (to_double t x) as [d|]; [|done]. cbn in Hx. unfold of_double in Hx. rewrite Ht in Hx.
  injection Hx as <-. split; [done|apply flt_conv_valid].
Qed.

Lemma softmax_unfold ex t xs es ws : exp_lane ex t xs = Some es -> softmax_lane ex t xs = Some ws ->
  exists ds, mapM (to_double t) es = Some ds /\ mapM (fun d => of_double t (ddiv d (foldl dadd fzero ds))) ds = Some ws.
Proof.
  unfold exp_lane, softmax_lane. intros ->. cbn. destruct (mapM (to_double t) es) as [ds|]; [|done]. cbn. eauto.
Qed.

Theorem softmax_distribution ex t xs es ws : is_float t = true ->
  exp_lane ex t xs = Some es -> exps_ok es -> softmax_lane ex t xs = Some ws -> distribution t es ws.
Proof.
  intros Ht He (Hes & Hpos & Hmax & Hn) Hws. pose proof (exp_lane_valid _ _ _ _ Ht He) as Hval.
  destruct (softmax_unfold _ _ _ _ _ He Hws) as (ds & Hds & Hq). clear Hws He.
  assert (Forall2 (fun e d => good_d d /\ RV d = val_real e) es ds) as H2.
  { rewrite mapM_Some in Hds. clear -Ht Hes Hval Hds. induction Hds as [|e d es ds Hd _ IH]; [done|].
    apply Forall_cons in Hes as [[Hf Hp] Hes]. apply Forall_cons in Hval as [Hv Hval]. constructor; [|by apply IH].
    destruct (conv64_good t e Ht Hv Hf Hp) as (d' & Hd' & Hg & Hr). rewrite Hd in Hd'. by injection Hd' as ->. }
  assert (Forall good_d ds) as Hg by (clear -H2; induction H2 as [|? ? ? ? [? _]]; by constructor).
  assert (fsum ds = sum_real es) as Hsum.
  { clear -H2. unfold fsum, sum_real. induction H2 as [|? ? ? ? [_ Hr] _ IH]; cbn; [done|]. by rewrite Hr, IH. }
  pose proof (Forall2_length _ _ _ H2) as Hlen. pose proof (pow_lt2 _ Hn) as Hw.
  destruct (sum_ok ds Hg) as (HS & HSe & HSm).
  { rewrite Hsum, <-Hlen. eapply Rlt_trans; [|exact Hmax]. nra. }
  rewrite Hsum, <-Hlen in HSe. set (S := foldl dadd fzero ds) in *.
  assert (0 < RV S)%R as HSpos.
  { apply Rabs_le_inv in HSe. pose proof (pow_ge1 F64 (length es)) as Hge. cbv zeta in Hge.
    set (w := ((1 + u64) ^ length es)%R) in *. nra. }
  assert (Forall2 (fun e w => w = VF (flt_conv t (ddiv (default fzero (to_double t e)) S)) /\
    good_d (default fzero (to_double t e)) /\ RV (default fzero (to_double t e)) = val_real e /\
    (val_real e <= RV S)%R) es ws) as HF.
  { clearbody S. apply mapM_Some in Hds. apply mapM_Some in Hq. clear -Ht Hds Hq H2 HSm. revert ws Hq.
    induction Hds as [|e d es ds Hd _ IH]; intros ws Hq; inversion Hq as [|? w ? ws' Hw Hq']; subst; [constructor|].
    apply Forall2_cons in H2 as [[Hg Hr] H2]. apply Forall_cons in HSm as [Hm HSm]. constructor; [|by apply IH].
    rewrite Hd. cbn. unfold of_double in Hw. rewrite Ht in Hw. injection Hw as <-. split_and!; [done|done|done|]. by rewrite <-Hr. }
  assert (forall e w, w = VF (flt_conv t (ddiv (default fzero (to_double t e)) S)) /\
    good_d (default fzero (to_double t e)) /\ RV (default fzero (to_double t e)) = val_real e /\
    (val_real e <= RV S)%R ->
    finite_val w /\ val_real w = rnd t (rnd F64 (val_real e / RV S)) /\ (0 <= val_real w <= 1)%R /\ (0 <= val_real e)%R) as HV.
  { intros e w (-> & Hgd & Hr & Hle). destruct (quot_ok t _ S Ht Hgd HS ltac:(by rewrite Hr) HSpos) as (Hf & Hrw & Hb).
    cbn [val_real]. rewrite Hr in Hrw. split_and!; [by eexists|done|lra|lra|]. rewrite <-Hr. apply Hgd. }
  assert (Forall2 (fun e w => finite_val w /\ (0 <= val_real w <= 1)%R /\
    (Rabs (val_real w - val_real e / sum_real es)
     <= soft_rel t (length es) * (val_real e / sum_real es) + soft_abs t)%R) es ws) as HF'.
  { eapply Forall2_impl; [exact HF|]. cbv beta. intros e w H. destruct (HV e w H) as (H1 & H3 & H4 & H5).
    split_and!; [done|lra|lra|]. rewrite H3. by apply quot_err. }
  split; [exact HF'|]. split.
  - intros i j e e' w w' Hi Hj Hwi Hwj Hle.
    destruct (HV e w (Forall2_lookup_lr _ _ _ _ _ _ HF Hi Hwi)) as (_ & -> & _).
    destruct (HV e' w' (Forall2_lookup_lr _ _ _ _ _ _ HF Hj Hwj)) as (_ & -> & _).
    do 2 apply rnd_le. apply Rmult_le_compat_r; [|done]. apply Rlt_le, Rinv_0_lt_compat. done.
  - eapply Forall2_sum; [|done]. eapply Forall2_impl; [exact HF'|]. cbv beta. intros e w (_ & _ & H). exact H.
Qed.
