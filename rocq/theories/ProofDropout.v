(** * ProofDropout: src/nn/dropout.c *)
From stdpp Require Import gmap list.
From Coq Require Import ZArith Lia Reals Lra Floats.SpecFloat.
From Coq Require Import ZifyBool ZifyNat.
From Flocq Require Core.
From Flocq Require Import IEEE754.BinarySingleNaN.
From Verif Require Import Base Mem Spec SpecReal SpecNN ModelCore ModelBasic ModelMath ModelNN Logic
  ProofCore ProofCore2 ProofCore3 ProofKernel ProofBasic ProofFloat ProofFloat2 ProofFloat3 ProofFloat4
  ProofSlice ProofMatmul.
Open Scope Z_scope.

Ltac Zify.zify_post_hook ::= Z.div_mod_to_equations.

Lemma ltb_R a b : vb F64 a = true -> vb F64 b = true ->
  is_finite_SF a = true -> is_finite_SF b = true ->
  SFltb a b = Raux.Rlt_bool (RV a) (RV b).
Proof.
  intros Ha Hb Fa Fb. destruct (bin_of F64 a Ha) as [x ->], (bin_of F64 b Hb) as [y ->].
  rewrite is_finite_SF_B2SF in Fa, Fb. rewrite !SF2R_B2SF.
  change (SFltb (B2SF x) (B2SF y)) with (Bltb x y). by apply Bltb_correct.
Qed.
Lemma ltb_zero r : vb F64 r = true -> is_finite_SF r = true ->
  SFltb r fzero = Raux.Rlt_bool (RV r) 0.
Proof. intros H1 H2. by rewrite ltb_R. Qed.
Lemma ltb_one r : vb F64 r = true -> is_finite_SF r = true ->
  SFltb done r = Raux.Rlt_bool 1 (RV r).
Proof. intros H1 H2. rewrite ltb_R, done_R by done. done. Qed.

Lemma rate_accepted r : rate_ok r -> SFltb r fzero || SFltb done r = false.
Proof.
  intros (H1 & H2 & H3 & H4). rewrite ltb_zero, ltb_one by done.
  rewrite !Raux.Rlt_bool_false by done. done.
Qed.
Lemma rate_rejected r : rate_bad r -> SFltb r fzero || SFltb done r = true.
Proof.
  intros [H1 [[H2 H3]|[b ->]]]; [|by destruct b].
  rewrite ltb_zero, ltb_one by done. destruct H3 as [H|H].
  - by rewrite Raux.Rlt_bool_true.
  - rewrite (Raux.Rlt_bool_true 1) by done. apply orb_true_r.
Qed.

Lemma hundred : is64 (dbl_of_Z 100) 100.
Proof. apply (dbl_of_Z_ok 100). lia. Qed.
Lemma drop_range r : rate_ok r -> (0 <= rnd F64 (RV r * 100) <= 100)%R.
Proof.
  intros (_ & _ & H1 & H2). split.
  - apply rnd_nonneg. lra.
  - apply Rle_trans with (rnd F64 100); [apply rnd_le; lra|]. rewrite (rnd_int F64 100) by done. lra.
Qed.
Lemma drop_line_range r : rate_ok r -> 0 <= drop_line r <= 100.
Proof.
  intros Hr. destruct (drop_range r Hr) as [H1 H2]. unfold drop_line. split.
  - rewrite Raux.Ztrunc_floor by done. apply Raux.Zfloor_lub. done.
  - apply Z.le_trans with (Raux.Ztrunc 100); [by apply Raux.Ztrunc_le|].
    by rewrite (Raux.Ztrunc_IZR 100).
Qed.
Lemma drop_line_ok r : rate_ok r -> flt_trunc (dmul r (dbl_of_Z 100)) = Some (drop_line r).
Proof.
  intros Hr. pose proof Hr as (H1 & H2 & _). apply trunc_ok.
  apply dmul_ok; [by apply is64_intro|apply hundred|].
  pose proof (drop_range r Hr) as Hd. change (rnd64 (RV r * 100)) with (rnd F64 (RV r * 100)).
  apply Rle_lt_trans with 100%R; [apply Rabs_le; lra|].
  apply Rlt_trans with (Raux.bpow Zaux.radix2 7); [|by apply Raux.bpow_lt].
  by apply (IZR_lt 100 (2 ^ 7)).
Qed.
Lemma drop_line_0 r : RV r = 0%R -> drop_line r = 0.
Proof. intros H. unfold drop_line. rewrite H, Rmult_0_l, rnd_0. apply (Raux.Ztrunc_IZR 0). Qed.
Lemma drop_line_1 r : RV r = 1%R -> drop_line r = 100.
Proof.
  intros H. unfold drop_line. rewrite H, Rmult_1_l, (rnd_int F64 100) by done.
  apply (Raux.Ztrunc_IZR 100).
Qed.

(** Zeroing elements of a fresh tensor *)
Definition dropped (E : env) (s : st) (t : tcode) (L : Z) (vs : list val) : list val :=
  imap (fun i v => if draw E s i <=? L then zero_val t else v) vs.

Section kernel.
Context {E : env} {tag lo : nat} {base : gmap nat block} {p pd pm ps px : nat}
  {t : tcode} {dev : device} {dims : list Z}.
Let TN s' vs := tnew tag lo base s' p pd pm ps px (dtype_of t) dev dims (cells t vs).

Lemma tnew_rpos s k vs : TN s vs -> TN (St (heap s) (ctr s) k) vs.
Proof using Type. done. Qed.

Lemma dropout_kernel_ok s vs L n :
  rand_ok E -> TN s vs -> n = Z.of_nat (length vs) ->
  wp (dropout_kernel t (HPtr p) n L) E s
     (fun _ s' => TN s' (dropped E s t L vs) /\ rpos s' = (rpos s + length vs)%nat).
Proof using Type.
  intros HR HT ->. unfold dropout_kernel.
  eapply wp_step; [by eapply tensor_data_ok, tnew_view|].
  set (F := fun k => dropped E s t L (take k vs) ++ drop k vs).
  eapply wp_mono.
  - apply (for64_rule (fun k _ s' => TN s' (F k) /\ rpos s' = (rpos s + k)%nat) _ _ _ (length vs));
      [lia|unfold F; cbn; rewrite drop_0; split; [done|lia]|].
    intros k [] s1 Hk [HT1 Hr1]. rewrite Z.add_0_l.
    eapply wp_step; [reflexivity|]. cbv beta.
    destruct (lookup_lt_is_Some_2 vs k Hk) as [v Hv].
    assert (F (S k) = <[k := if draw E s k <=? L then zero_val t else v]> (F k)) as HF.
    { unfold F, dropped. rewrite (take_S_r _ _ _ Hv), imap_app. cbn [imap].
      rewrite insert_app_r_alt by (rewrite imap_length, take_length; lia).
      rewrite imap_length, take_length. replace (k `min` length vs)%nat with k by lia.
      rewrite Nat.sub_diag, (drop_S _ _ _ Hv). cbn. rewrite <-app_assoc, Nat.add_0_r. done. }
    assert (k < length (F k))%nat as Hlen.
    { unfold F, dropped. rewrite app_length, imap_length, take_length, drop_length. lia. }
    assert (F k !! k = Some v) as HFk.
    { unfold F, dropped. rewrite lookup_app_r by (rewrite imap_length, take_length; lia).
      rewrite imap_length, take_length. replace (k - k `min` length vs)%nat with 0%nat by lia.
      by rewrite lookup_drop, Nat.add_0_r. }
    replace (Z.rem (e_rand E (rpos s1)) 100 + 1) with (draw E s k).
    2:{ unfold draw. rewrite Hr1, Z.rem_mod_nonneg by (lia || apply HR). done. }
    rewrite HF. destruct (draw E s k <=? L).
    + eapply wp_intro.
      { eapply tnew_storei; [by eapply (tnew_rpos s1)|done]. }
      split; [|cbn; lia]. eapply tnew_upd. by eapply (tnew_rpos s1).
    + apply wp_ret. rewrite list_insert_id by done. split; [by apply (tnew_rpos s1)|cbn; lia].
  - intros [] s' [HT' Hr']. split; [|done].
    unfold F in HT'. by rewrite take_ge, drop_ge, app_nil_r in HT' by lia.
Qed.
End kernel.

Lemma dropped_length E s t L vs : length (dropped E s t L vs) = length vs.
Proof. apply imap_length. Qed.

Lemma dropout_rule p T rate o E s :
  wf s -> alloc_all E -> hooks_ok E -> rand_ok E -> holds (heap s) p T -> a_dims T <> [] ->
  Forall (fun d => 0 < d <= INT_MAX) (a_dims T) -> prodZ (a_dims T) <= INT_MAX -> rate_ok rate ->
  makes_k (aitisa_dropout (HPtr p) rate o) E s
    (AT (a_type T) (a_dev T) (a_dims T) (dropped E s (a_type T) (drop_line rate) (a_vals T)))
    (length (a_vals T)).
Proof.
  intros Hwf HA HE HR HT Hne Hd Hmax Hrate.
  destruct (duplicate_rule p T HUndef E s) as (s1 & q & Hm & Hc); [done..|].
  cut (wp (aitisa_dropout (HPtr p) rate o) E s (fun r s' => exists q, r = (SUCCESS, HPtr q) /\
    created_k E s s' q (AT (a_type T) (a_dev T) (a_dims T)
      (dropped E s (a_type T) (drop_line rate) (a_vals T))) (length (a_vals T)))).
  { intros H. apply wp_elim in H as (r & s' & H1 & q' & -> & H2). exists s', q'. done. }
  unfold aitisa_dropout. rewrite rate_accepted by done.
  eapply wp_step; [exact Hm|]. cbv beta match. rewrite bool_decide_eq_true_2 by done. cbn [negb].
  destruct (created_tnew Hwf Hc) as (pd & pm & ps & px & Ht).
  assert (rpos s1 = rpos s) as Hr1 by (destruct Hc as (_ & ? & _ & _ & _ & _ & _ & ->); lia).
  pose proof HT as (HvT & _). pose proof (valid_len _ HvT) as Hlen.
  unfold dropout_template. apply wp_bind.
  eapply wp_step; [by eapply tensor_size_ok, tnew_view|].
  eapply wp_step; [by eapply tensor_dtype_ok, tnew_view|].
  eapply wp_step.
  { unfold int_of_double. rewrite drop_line_ok by done.
    pose proof (drop_line_range rate Hrate).
    erewrite bind_done by done. erewrite bind_done by (apply check_ok; llia). done. }
  rewrite dispatch_all_t. apply wp_bind. eapply wp_mono.
  { eapply dropout_kernel_ok; [done|exact Ht|lia]. }
  intros [] s2 [Ht2 Hr2]. apply wp_ret. apply wp_ret. exists q. split; [done|].
  eapply tnew_created; [done| | |].
  - split; [by apply (valid_fits _ HvT)|]. cbn. rewrite dropped_length. lia.
  - unfold dropped, draw in Ht2 |- *. rewrite Hr1 in Ht2. exact Ht2.
  - lia.
Qed.

Lemma dropout_zero_rate p T rate o E s :
  wf s -> alloc_all E -> hooks_ok E -> rand_ok E -> holds (heap s) p T -> a_dims T <> [] ->
  Forall (fun d => 0 < d <= INT_MAX) (a_dims T) -> prodZ (a_dims T) <= INT_MAX -> rate_ok rate ->
  RV rate = 0%R ->
  makes_k (aitisa_dropout (HPtr p) rate o) E s T (length (a_vals T)).
Proof.
  intros Hwf HA HE HR HT Hne Hd Hmax Hrate H0.
  pose proof (dropout_rule p T rate o E s Hwf HA HE HR HT Hne Hd Hmax Hrate) as H.
  replace (dropped E s (a_type T) (drop_line rate) (a_vals T)) with (a_vals T) in H; [by destruct T|].
  unfold dropped. rewrite drop_line_0 by done. symmetry. rewrite <-(list_fmap_id (a_vals T)) at 2.
  rewrite <-imap_const. apply imap_ext. intros i v Hv. unfold draw.
  pose proof (HR (rpos s + i)%nat). replace (_ <=? 0) with false by lia. done.
Qed.
Lemma dropout_full_rate p T rate o E s :
  wf s -> alloc_all E -> hooks_ok E -> rand_ok E -> holds (heap s) p T -> a_dims T <> [] ->
  Forall (fun d => 0 < d <= INT_MAX) (a_dims T) -> prodZ (a_dims T) <= INT_MAX -> rate_ok rate ->
  RV rate = 1%R ->
  makes_k (aitisa_dropout (HPtr p) rate o) E s
    (AT (a_type T) (a_dev T) (a_dims T) (replicate (length (a_vals T)) (zero_val (a_type T))))
    (length (a_vals T)).
Proof.
  intros Hwf HA HE HR HT Hne Hd Hmax Hrate H0.
  pose proof (dropout_rule p T rate o E s Hwf HA HE HR HT Hne Hd Hmax Hrate) as H.
  replace (dropped E s (a_type T) (drop_line rate) (a_vals T))
    with (replicate (length (a_vals T)) (zero_val (a_type T))) in H; [done|].
  unfold dropped. rewrite drop_line_1 by done. rewrite <-const_fmap with (f := fun _ => zero_val (a_type T)) by done.
  rewrite <-imap_const. apply imap_ext. intros i v Hv. unfold draw.
  pose proof (HR (rpos s + i)%nat). replace (_ <=? 100) with true by lia. done.
Qed.
Lemma dropout_rejected p rate o E s :
  rate_bad rate -> refuses (aitisa_dropout (HPtr p) rate o) E s o INVALID_ARGUMENT.
Proof. intros H. unfold refuses, aitisa_dropout. by rewrite rate_rejected. Qed.
(** A NaN rate passes the range check and reaches the conversion to int. *)
Lemma dropout_nan p T o E s :
  wf s -> alloc_all E -> hooks_ok E -> holds (heap s) p T -> a_dims T <> [] ->
  Forall (fun d => 0 < d <= INT_MAX) (a_dims T) -> prodZ (a_dims T) <= INT_MAX ->
  aitisa_dropout (HPtr p) S754_nan o E s = UB UB_fconv.
Proof.
  intros Hwf HA HE HT Hne Hd Hmax.
  destruct (duplicate_rule p T HUndef E s) as (s1 & q & Hm & Hc); [done..|].
  unfold aitisa_dropout. cbn [SFltb SFcompare orb fzero].
  change (SFltb done S754_nan) with false. cbn [orb].
  erewrite bind_done by exact Hm. cbv beta match. rewrite bool_decide_eq_true_2 by done. cbn [negb].
  destruct (created_tnew Hwf Hc) as (pd & pm & ps & px & Ht).
  unfold dropout_template. unfold bind at 1.
  erewrite bind_done by (by eapply tensor_size_ok, tnew_view).
  erewrite bind_done by (by eapply tensor_dtype_ok, tnew_view). done.
Qed.
Lemma dropout_empty p T rate o E s :
  wf s -> alloc_all E -> hooks_ok E -> holds (heap s) p T ->
  Forall (fun d => d <= INT_MAX) (a_dims T) -> 0 ∈ a_dims T -> rate_ok rate ->
  exists s', aitisa_dropout (HPtr p) rate o E s = Done (INVALID_ARGUMENT, o) s' /\ heap s' = heap s.
Proof.
  intros Hwf HA HE HT Hd H0 Hr.
  destruct (duplicate_zero p T HUndef E s) as (s1 & Hm & Hc); [done..|].
  exists s1. split; [|done]. unfold aitisa_dropout. rewrite rate_accepted by done.
  erewrite bind_done by exact Hm. done.
Qed.

(** [dropped], element by element. *)
Lemma dropout_spec p T T' rate o E s :
  wf s -> alloc_all E -> hooks_ok E -> rand_ok E -> holds (heap s) p T -> a_dims T <> [] ->
  Forall (fun d => 0 < d <= INT_MAX) (a_dims T) -> prodZ (a_dims T) <= INT_MAX -> rate_ok rate ->
  a_type T' = a_type T -> a_dev T' = a_dev T -> a_dims T' = a_dims T ->
  length (a_vals T') = length (a_vals T) ->
  (forall i v w, a_vals T !! i = Some v -> a_vals T' !! i = Some w ->
     (draw E s i <= drop_line rate -> w = zero_val (a_type T)) /\
     (drop_line rate < draw E s i -> w = v)) ->
  makes_k (aitisa_dropout (HPtr p) rate o) E s T' (length (a_vals T)).
Proof.
  intros Hwf HA HE HR HT Hne Hd Hmax Hrate H1 H2 H3 HL Hel.
  pose proof (dropout_rule p T rate o E s Hwf HA HE HR HT Hne Hd Hmax Hrate) as H.
  replace T' with (AT (a_type T) (a_dev T) (a_dims T) (dropped E s (a_type T) (drop_line rate) (a_vals T))); [done|].
  destruct T' as [t' dev' dims' ws]. cbn in *. subst. f_equal. apply list_eq. intros i. unfold dropped.
  rewrite list_lookup_imap. destruct (a_vals T !! i) as [v|] eqn:Hv; cbn.
  - destruct (lookup_lt_is_Some_2 ws i) as [w Hw]; [rewrite HL; by eapply lookup_lt_Some|].
    destruct (Hel i v w Hv Hw) as [K1 K2]. rewrite Hw. f_equal. destruct (Z.leb_spec (draw E s i) (drop_line rate)).
    + symmetry. by apply K1.
    + symmetry. by apply K2.
  - symmetry. apply lookup_ge_None_2. rewrite HL. by apply lookup_ge_None_1.
Qed.

(** The rate 1/2, for examples. *)
Definition half : spec_float := S754_finite false (2 ^ 52) (-53).
Lemma half_R : RV half = (1 / 2)%R.
Proof.
  unfold RV, half, SF2R, Defs.F2R. cbn [Defs.Fnum Defs.Fexp cond_Zopp].
  change (Raux.bpow Zaux.radix2 (-53)) with (/ IZR (2 ^ 53))%R.
  change (Z.pos (2 ^ 52)) with (2 ^ 52). replace (2 ^ 53) with (2 * 2 ^ 52) by done. rewrite mult_IZR.
  assert (IZR (2 ^ 52) <> 0)%R by (apply not_0_IZR; discriminate). field. done.
Qed.
Lemma half_ok : rate_ok half.
Proof. split; [done|]. split; [done|]. rewrite half_R. lra. Qed.
Lemma half_line : drop_line half = 50.
Proof.
  unfold drop_line. rewrite half_R. replace (1 / 2 * 100)%R with (IZR 50) by lra.
  rewrite (rnd_int F64 50) by done. apply Raux.Ztrunc_IZR.
Qed.
