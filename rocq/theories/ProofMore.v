(** * ProofMore: resolve for every tensor; batch normalisation with a vanishing epsilon *)
From stdpp Require Import gmap list.
From Coq Require Import ZArith Lia Reals Lra Floats.SpecFloat.
From Flocq Require Import Core IEEE754.BinarySingleNaN.
From Verif Require Import Base Mem Spec SpecReal SpecNorm SpecError ModelCore ModelNN Logic ProofCore ProofCore2 ProofCore3
  ProofKernel ProofFloat ProofFloat3 ProofNorm2 ProofNorm6.
Open Scope Z_scope.

Lemma resolve_exact E s p T : holds (heap s) p T ->
  let bytes := prodZ (a_dims T) * Z.of_nat (tsz (a_type T)) in
  exists r, aitisa_resolve (HPtr p) E s = Done (e_garbage E 0%nat, r) s /\
    r_len r = bytes mod 2 ^ 32 /\ (r_len r = bytes <-> bytes < 2 ^ 32).
Proof.
  intros Hh bytes. pose proof (resolve_ok E s p T Hh) as (pd & px & tg & ex & H1 & H2 & H3).
  eexists. split; [exact H3|]. cbn [r_len]. change UINT32_MOD with (2 ^ 32). fold bytes.
  pose proof (fits_bytes _ _ (proj1 (holds_valid _ _ _ Hh))) as Hb.
  assert (0 <= bytes) by (unfold bytes; lia).
  split; [done|]. split.
  - intros <-. apply Z.mod_pos_bound. lia.
  - intros H0. by apply Z.mod_small.
Qed.

(** Zeros. *)
Lemma zero_of f p e : valid_binary p e f = true -> is_finite_SF f = true -> RV f = 0%R -> exists b, f = S754_zero b.
Proof.
  destruct f as [b|b| |b m x]; try done; intros _ _ H; [by exists b|].
  exfalso. unfold RV, SF2R in H. revert H. apply F2R_neq_0. cbn. by destruct b.
Qed.
Lemma vanishes x : (0 <= x < bpow radix2 (-150))%R -> rnd F32 x = 0%R.
Proof.
  intros [[H3| <-] H4]; [|apply rnd_0].
  destruct (mag radix2 x) as [k Hk]. specialize (Hk ltac:(lra)).
  unfold rnd. apply round_N_small with k; [exact Hk|].
  assert (k <= -150) as Hk150.
  { rewrite Rabs_pos_eq in Hk by lra. assert (k - 1 < -150); [|lia]. apply (lt_bpow radix2). lra. }
  unfold SpecFloat.fexp, SpecFloat.emin. cbn. lia.
Qed.
Lemma bn_vanish eps va sc bi me x w :
  valid_binary (fprec F64) (femax F64) eps = true -> is_finite_SF eps = true -> (0 <= RV eps < bpow radix2 (-150))%R ->
  va = VF (S754_zero false) \/ va = VF (S754_zero true) ->
  bn_is F32 eps va sc bi me x w -> ~ finite_val w.
Proof.
  intros Hv Hf He Hva (e & a & d & y & z & u & H1 & H2 & Hn & H3 & H4 & H5 & H6 & H7) (f & -> & Hfin).
  cbn [conv_spec] in H1. change (is_float F32) with true in H1. cbv iota in H1.
  destruct H1 as (g & [= ->] & Hgv & _ & Hg & _).
  assert (rnd F32 (RV eps) = 0)%R as Hr by (apply vanishes; lra).
  rewrite Hr, Rabs_R0 in Hg. destruct (Hg Hf (bpow_gt_0 _ _)) as (Hg0 & Hgf & _).
  destruct (zero_of _ _ _ Hgv Hgf Hg0) as (bg & ->).
  assert (exists ba, a = VF (S754_zero ba)) as (ba & ->).
  { destruct Hva as [->| ->]; cbn [bin_spec op_special] in H2;
      destruct H2 as (r & [= ->] & Hrv & Hr1 & _); cbn [op_real] in Hr1;
      change (RV (S754_zero false)) with 0%R in Hr1; change (RV (S754_zero true)) with 0%R in Hr1;
      replace (RV (S754_zero bg)) with 0%R in Hr1 by (by destruct bg);
      rewrite Rplus_0_r, rnd_0, Rabs_R0 in Hr1; destruct (Hr1 (bpow_gt_0 _ _)) as (Ha & Hb & _);
      destruct (zero_of _ _ _ Hrv Ha Hb) as (b & ->); by exists b. }
  cbn [sqrt_spec] in H3. destruct H3 as (g & [= ->] & Hgv' & _ & Hg').
  destruct (Hg' eq_refl) as [Hgf' Hg0'].
  replace (RV (S754_zero ba)) with 0%R in Hg0' by (by destruct ba). rewrite sqrt_0, rnd_0 in Hg0'.
  destruct (zero_of _ _ _ Hgv' Hgf' Hg0') as (bd & ->).
  destruct y as [?|y|]; try done. cbn [bin_spec] in H5.
  assert (exists fz, z = VF fz /\ is_finite_SF fz = false) as (fz & -> & Hz).
  { destruct H5 as (r & [= ->] & _ & Hsp). exists r. split; [done|].
    destruct y as [b|b| |b m q]; cbn in Hsp; subst r; done. }
  destruct sc as [?|sc|]; try done. cbn [bin_spec] in H6.
  assert (exists fu, u = VF fu /\ is_finite_SF fu = false) as (fu & -> & Hu).
  { destruct H6 as (r & [= ->] & _ & Hsp). exists r. split; [done|].
    destruct fz as [b|b| |b m q]; try done; destruct sc as [b'|b'| |b' m' q']; cbn in Hsp; subst r; done. }
  destruct bi as [?|bi|]; try done. cbn [bin_spec] in H7.
  destruct H7 as (r & [= ->] & _ & Hsp).
  destruct fu as [b|b| |b m q]; try done; destruct bi as [b'|b'| |b' m' q']; cbn in Hsp; subst r; try done.
  by destruct (Bool.eqb b b').
Qed.

Lemma bn_vanishes p pS pB pM pV T Sc Bi Me Va axis eps o E s :
  wf s -> alloc_all E -> hooks_ok E ->
  holds (heap s) p T -> holds (heap s) pS Sc -> holds (heap s) pB Bi -> holds (heap s) pM Me -> holds (heap s) pV Va ->
  a_type T = F32 -> bn_ok T axis Sc Bi Me Va eps -> bn_sizes T axis ->
  valid_binary (fprec F64) (femax F64) eps = true -> is_finite_SF eps = true -> (0 < RV eps < bpow radix2 (-150))%R ->
  Forall (fun U => dev_type (a_dev U) = 0 /\ init U) [T; Sc; Bi; Me; Va] ->
  Forall (fun v => ~ negative v) (a_vals Va) ->
  exists T3, a_type T3 = F32 /\ a_dims T3 = a_dims T /\
    (forall c b, in_box (a_dims T) c -> at_ Va [chan axis c] = VF (S754_zero b) -> ~ finite_val (at_ T3 c)) /\
    makes (aitisa_batch_norm (HPtr p) axis (HPtr pS) (HPtr pB) (HPtr pM) (HPtr pV) eps o) E s T3.
Proof.
  intros Hwf HE HH HT HS HB HM HV Ht Hok Hsz Hv Hf He HU Hn.
  destruct (bn_float p pS pB pM pV T Sc Bi Me Va axis eps o E s) as (T3 & H1 & H2 & H3 & H4 & H5 & H6); try done.
  { by rewrite Ht. }
  exists T3. split_and!; [congruence|done| |done].
  intros c b Hc Hz. specialize (H5 c Hc). cbv zeta in H5. rewrite Ht in H5.
  eapply bn_vanish; [exact Hv|exact Hf|lra| |exact H5]. destruct b; auto.
Qed.
