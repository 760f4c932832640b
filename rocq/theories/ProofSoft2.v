(** * ProofSoft2: softmax of whole tensors *)
From stdpp Require Import gmap list list_numbers.
From Coq Require Import ZArith Lia ZifyBool ZifyNat Reals Lra Floats.SpecFloat.
From Flocq Require Import Core IEEE754.BinarySingleNaN.
From Verif Require Import Base Mem Spec SpecReal SpecNN SpecError SpecSoft ModelCore ModelNN Logic.
From Verif Require Import ProofCore ProofSoftmax ProofError ProofSoft.
Open Scope Z_scope.

(** ** A simpler bound *)
Lemma soft_rel_simple t n : Z.of_nat n <= 2 ^ 51 ->
  (soft_rel t n <= 2 * (uround t + u64) + 4 * INR n * u64)%R.
Proof.
  intros Hn. unfold soft_rel. pose proof (uround_pos t) as Hut. pose proof (uround_pos F64) as Hu.
  assert (INR n * u64 <= / 4)%R as H4.
  { rewrite INR_IZR_INZ. apply Rle_trans with (IZR (2 ^ 51) * u64)%R.
    - apply Rmult_le_compat_r; [lra|]. by apply IZR_le.
    - change (IZR (2 ^ 51)) with (bpow radix2 51). change (/ 4)%R with (bpow radix2 (-2)). unfold uround.
      rewrite <-bpow_plus. apply bpow_le. unfold fprec. lia. }
  pose proof (pow_1u u64 n ltac:(lra) ltac:(lra)) as H1. pose proof (pow_ge1 F64 n) as H2. cbv zeta in H2.
  assert (uround t <= / 4)%R as Hut1.
  { change (/ 4)%R with (bpow radix2 (-2)). unfold uround; apply bpow_le; unfold fprec; destruct t; lia. }
  assert (u64 <= / 4)%R as Hu1.
  { change (/ 4)%R with (bpow radix2 (-2)). unfold uround; apply bpow_le; unfold fprec; lia. }
  pose proof (pos_INR n) as HN. set (w := ((1 + u64) ^ n)%R) in *. set (v := u64) in *. set (u := uround t) in *.
  set (k := (INR n * v)%R) in *.
  assert (0 <= k)%R as Hk by (apply Rmult_le_pos; lra).
  replace (4 * INR n * v)%R with (4 * k)%R by (unfold k; ring).
  assert (0 < 2 - w)%R as Hw by nra.
  set (q := ((1 + u) * (1 + v) / (2 - w))%R).
  assert (q * (2 - w) = (1 + u) * (1 + v))%R as Hq by (unfold q; field; lra).
  assert (q <= (1 + u) * (1 + v) * (1 + 2 * k))%R as Hq1.
  { apply (Rmult_le_reg_r (2 - w)); [done|]. rewrite Hq.
    assert (1 <= (1 + 2 * k) * (2 - w))%R as H.
    { apply (Rmult_le_reg_r (1 - k)); [lra|].
      assert ((1 + 2 * k) * (w * (1 - k)) <= (1 + 2 * k) * 1)%R by (apply Rmult_le_compat_l; lra). nra. }
    assert (0 <= (1 + u) * (1 + v))%R by nra. nra. }
  assert ((1 + u) * (1 + v) <= 1 + (u + v) + u / 4)%R by nra.
  assert ((1 + u) * (1 + v) * (2 * k) <= 2 * (2 * k))%R by (apply Rmult_le_compat_r; nra).
  nra.
Qed.

(** ** When an exponential overflows or all of them vanish *)
Lemma dadd_inf a b : is_finite_SF a = false \/ is_finite_SF b = false -> is_finite_SF (dadd a b) = false.
Proof.
  unfold dadd. destruct a as [?|?| |? ? ?], b as [?|?| |? ? ?]; cbn [SFadd is_finite_SF]; intros [|]; try done;
    by destruct (Bool.eqb _ _).
Qed.
Lemma sum_inf ds a : is_finite_SF a = false \/ (exists d, d ∈ ds /\ is_finite_SF d = false) ->
  is_finite_SF (foldl dadd a ds) = false.
Proof.
  revert a. induction ds as [|d ds IH]; intros a Ha; cbn.
  - destruct Ha as [Ha|(d & Hd & _)]; [done|by apply elem_of_nil in Hd].
  - apply IH. destruct Ha as [Ha|(d' & [->|Hd']%elem_of_cons & Hf)]; [left; apply dadd_inf; auto..|].
    right. eauto.
Qed.
Lemma softmax_overflow ex t xs es ws j : is_float t = true ->
  exp_lane ex t xs = Some es -> softmax_lane ex t xs = Some ws ->
  es !! j = Some (VF (S754_infinity false)) -> ws !! j = Some (VF S754_nan).
Proof.
  intros Ht He Hws Hj. destruct (softmax_unfold _ _ _ _ _ He Hws) as (ds & Hds & Hq).
  apply mapM_Some in Hds. apply mapM_Some in Hq.
  destruct (Forall2_lookup_l _ _ _ _ _ Hds Hj) as (d & Hd & Hdv). cbn in Hdv. rewrite Ht in Hdv. injection Hdv as <-.
  destruct (Forall2_lookup_l _ _ _ _ _ Hq Hd) as (w & Hw & Hwv). rewrite Hw. f_equal.
  unfold of_double in Hwv. rewrite Ht in Hwv. injection Hwv as <-. f_equal.
  assert (is_finite_SF (foldl dadd fzero ds) = false) as Hinf.
  { apply sum_inf. right. exists (S754_infinity false). split; [by eapply elem_of_list_lookup_2|done]. }
  destruct (foldl dadd fzero ds) as [?|?| |? ? ?]; done.
Qed.
Lemma sum_zero ds : Forall (fun d => exists b, d = S754_zero b) ds -> foldl dadd fzero ds = fzero.
Proof. induction 1 as [|d ds [b ->] _ IH]; [done|]. cbn. destruct b; exact IH. Qed.
Lemma softmax_underflow ex t xs es ws : is_float t = true ->
  exp_lane ex t xs = Some es -> softmax_lane ex t xs = Some ws ->
  Forall (fun e => exists b, e = VF (S754_zero b)) es -> Forall (fun w => w = VF S754_nan) ws.
Proof.
  intros Ht He Hws Hz. destruct (softmax_unfold _ _ _ _ _ He Hws) as (ds & Hds & Hq).
  apply mapM_Some in Hds. apply mapM_Some in Hq.
  assert (Forall (fun d => exists b, d = S754_zero b) ds) as Hzd.
  { clear -Ht Hds Hz. induction Hds as [|e d es ds Hd _ IH]; [done|]. apply Forall_cons in Hz as [[b ->] Hz].
    cbn in Hd. rewrite Ht in Hd. injection Hd as <-. constructor; [by exists b|by apply IH]. }
  rewrite (sum_zero ds Hzd) in Hq. clear -Ht Hzd Hq. induction Hq as [|d w ds ws Hw _ IH]; [done|].
  apply Forall_cons in Hzd as [[b ->] Hzd]. constructor; [|by apply IH]. unfold of_double in Hw. rewrite Ht in Hw.
  by injection Hw as <-.
Qed.

(** ** Whole tensors *)
Lemma exp_lane_total ex t xs : is_float t = true -> Forall (val_ok t) xs -> exists es, exp_lane ex t xs = Some es.
Proof.
  intros Ht Hxs. destruct (softmax_lane_float ex t xs Ht Hxs) as (ys & Hy & _). unfold softmax_lane in Hy.
  unfold exp_lane. destruct (mapM _ xs) as [es|]; [eauto|done].
Qed.
Lemma soft_lane_ok ex t xs ws : is_float t = true -> Forall (val_ok t) xs -> softmax_lane ex t xs = Some ws ->
  exists es, soft_lane ex t xs es ws.
Proof.
  intros Ht Hxs Hws. destruct (exp_lane_total ex t xs Ht Hxs) as [es He]. exists es. split_and!; [done|..].
  - destruct (softmax_unfold _ _ _ _ _ He Hws) as (ds & Hds & Hq).
    apply mapM_Some in Hds. apply mapM_Some in Hq. apply Forall2_length in Hds, Hq. congruence.
  - intros Hok. by eapply softmax_distribution.
  - intros j Hj. by eapply softmax_overflow.
  - intros Hz. by eapply softmax_underflow.
Qed.
Lemma soft_all p T o E s :
  wf s -> alloc_all E -> holds (heap s) p T -> init T -> is_float (a_type T) = true ->
  exists es ws, soft_lane (e_exp E) (a_type T) (a_vals T) es ws /\
  makes (aitisa_softmax (HPtr p) (-1) o) E s (AT (a_type T) (a_dev T) (a_dims T) ws).
Proof.
  intros Hwf HA HT Hin Hf. destruct (softmax_all_float p T o E s Hwf HA HT Hin Hf) as (ws & Hws & Hm).
  destruct (soft_lane_ok _ _ _ _ Hf Hin Hws) as [es Hes]. exists es, ws. split; [exact Hes|exact Hm].
Qed.
Lemma soft_axis p T a d o E s :
  wf s -> alloc_all E -> hooks_ok E -> holds (heap s) p T -> init T -> is_float (a_type T) = true ->
  Forall (fun d => 0 < d) (a_dims T) -> 2 * prodZ (a_dims T) <= INT64_MAX ->
  a_dims T !! a = Some d ->
  exists T3, a_type T3 = a_type T /\ a_dev T3 = a_dev T /\ a_dims T3 = a_dims T /\
    (forall c j, in_box (a_dims T) c -> c !! a = Some j ->
     exists es ws, soft_lane (e_exp E) (a_type T) (lane T a c) es ws /\ ws !! Z.to_nat j = Some (at_ T3 c)) /\
    makes (aitisa_softmax (HPtr p) (Z.of_nat a) o) E s T3.
Proof.
  intros Hwf HA HH HT Hin Hf Hpos Hmax Ha.
  destruct (softmax_axis_float p T a d o E s Hwf HA HH HT Hin Hf Hpos Hmax Ha) as (T3 & H1 & H2 & H3 & H4 & Hm).
  exists T3. split; [exact H1|]. split; [exact H2|]. split; [exact H3|]. split; [|exact Hm].
  intros c j Hc Hj. destruct (H4 c j Hc Hj) as (ws & Hws & Hw).
  destruct (soft_lane_ok _ _ _ _ Hf (lane_init T a c d (proj1 HT) Hin Ha Hc) Hws) as [es Hes].
  exists es, ws. split; [exact Hes|exact Hw].
Qed.

Lemma soft_overflow_all p T o E s j v d :
  wf s -> alloc_all E -> holds (heap s) p T -> init T -> is_float (a_type T) = true ->
  a_vals T !! j = Some v -> to_double (a_type T) v = Some d ->
  of_double (a_type T) (e_exp E d) = Some (VF (S754_infinity false)) ->
  exists ws, makes (aitisa_softmax (HPtr p) (-1) o) E s (AT (a_type T) (a_dev T) (a_dims T) ws) /\
    ws !! j = Some (VF S754_nan).
Proof.
  intros Hwf HA HT Hin Hf Hj Hd Ho.
  destruct (soft_all p T o E s Hwf HA HT Hin Hf) as (es & ws & (He & _ & _ & Hinf & _) & Hm).
  exists ws. split; [exact Hm|]. apply Hinf. unfold exp_lane in He. apply mapM_Some in He.
  destruct (Forall2_lookup_l _ _ _ _ _ He Hj) as (e & Hej & Hev). rewrite Hd in Hev. cbn in Hev. rewrite Ho in Hev.
  by injection Hev as <-.
Qed.
Lemma soft_underflow_all p T o E s :
  wf s -> alloc_all E -> holds (heap s) p T -> init T -> is_float (a_type T) = true ->
  Forall (fun v => exists d b, to_double (a_type T) v = Some d /\
    of_double (a_type T) (e_exp E d) = Some (VF (S754_zero b))) (a_vals T) ->
  makes (aitisa_softmax (HPtr p) (-1) o) E s
    (AT (a_type T) (a_dev T) (a_dims T) ((fun _ => VF S754_nan) <$> a_vals T)).
Proof.
  intros Hwf HA HT Hin Hf Hz.
  destruct (soft_all p T o E s Hwf HA HT Hin Hf) as (es & ws & (He & Hl & _ & _ & Hn) & Hm).
  assert (ws = (fun _ => VF S754_nan) <$> a_vals T) as <-; [|exact Hm].
  unfold exp_lane in He. apply mapM_Some in He. pose proof (Forall2_length _ _ _ He) as Hl2.
  assert (Forall (fun w => w = VF S754_nan) ws) as Hws.
  { apply Hn. clear -Hz He. induction He as [|v e vs es Hv _ IH]; [done|].
    apply Forall_cons in Hz as [(d & b & Hd & Hb) Hz]. constructor; [|by apply IH].
    rewrite Hd in Hv. cbn in Hv. rewrite Hb in Hv. injection Hv as <-. by exists b. }
  clear -Hws Hl Hl2. revert ws Hws Hl. rewrite <-Hl2. clear Hl2 es. generalize (a_vals T) as vs. intros vs.
  induction vs as [|v vs IH]; intros [|w ws] Hws Hl; try done. apply Forall_cons in Hws as [-> Hws].
  cbn. f_equal. apply IH; [done|]. by injection Hl.
Qed.
