(** * ProofOrder3: the correctly rounded exp preserves the order *)
From stdpp Require Import list.
From Coq Require Import ZArith Lia Reals Lra Floats.SpecFloat.
From Flocq Require Import Core IEEE754.BinarySingleNaN.
From Verif Require Import Base Mem Spec SpecReal SpecError SpecExp SpecOrder.
From Verif Require Import ProofFloat ProofFloat2 ProofFloat3 ProofFloat4 ProofError ProofExp ProofOrder.
Open Scope Z_scope.

Lemma exp_rnd x : is_finite_SF x = true -> is_rnd F64 (exp (RV x)) (exp_rounded x).
Proof.
  intros Fx. destruct (exp_rounded_val x Fx) as (_ & H1 & H2). pose proof (exp_pos (RV x)) as Hp.
  assert (0 <= rnd F64 (exp (RV x)))%R as Hr by (apply rnd_nonneg; lra).
  unfold is_rnd. rewrite (Rabs_pos_eq _ Hr). change (femax F64) with 1024. split; [exact H1|].
  intros H. rewrite (H2 H), Rlt_bool_false by lra. done.
Qed.
Lemma exp_rounded_mono : exp_mono exp_rounded.
Proof.
  assert (forall x, x <> S754_nan -> exp_rounded x <> S754_nan) as Hn.
  { intros x Nx. destruct (is_finite_SF x) eqn:Fx; [apply (is_rnd_num F64 (exp (RV x))); by apply exp_rnd|]. by destruct x as [|[]| |]. }
  assert (forall x, x <> S754_nan -> fle fzero (exp_rounded x)) as H0.
  { intros x Nx. destruct (is_finite_SF x) eqn:Fx.
    - apply (is_rnd_le F64 0 (exp (RV x))); [|by apply exp_rnd|apply Rlt_le, exp_pos].
      split; intros Hr; rewrite rnd_0 in *; [done|]. rewrite Rabs_R0 in Hr. pose proof (bpow_gt_0 radix2 (femax F64)). lra.
    - destruct x as [|[]| |]; try done. cbn. lra. }
  split.
  - intros x y _ _ H. destruct (fle_num _ _ H) as [N N']. destruct (fle_cases _ _ H) as [->|[->|(F1 & F2 & Hr)]].
    + by apply H0.
    + apply fle_top. by apply Hn.
    + apply (is_rnd_le F64 (exp (RV x)) (exp (RV y))); [by apply exp_rnd|by apply exp_rnd|].
      destruct Hr as [Hr|Hr]; [left; by apply exp_increasing|right; by rewrite Hr].
  - intros x Vx. split; [|apply H0]. destruct (is_finite_SF x) eqn:Fx; [by apply exp_rounded_val|]. by destruct x as [|[]| |].
Qed.
