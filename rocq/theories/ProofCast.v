(** * ProofCast: what the element conversions compute *)
From stdpp Require Import gmap list.
From Coq Require Import ZArith Lia Reals Floats.SpecFloat.
From Coq Require Import ZifyBool ZifyNat.
From Flocq Require Core.
From Flocq Require Import IEEE754.BinarySingleNaN.
From Verif Require Import Base Mem Spec SpecReal ModelCore ModelBasic Logic ProofCore ProofCore2 ProofKernel
  ProofBasic ProofFloat ProofFloat2.
Open Scope Z_scope.

(** ** Integers *)
Lemma bits_pos t : 0 < bits t. Proof. by destruct t. Qed.
Lemma wrap_range t z : tmin t <= wrap t z <= tmax t.
Proof.
  unfold wrap, tmin, tmax. pose proof (bits_pos t) as Hb.
  assert (2 ^ bits t = 2 * 2 ^ (bits t - 1)) as Hd.
  { rewrite <-Z.pow_succ_r by lia. f_equal. lia. }
  assert (0 < 2 ^ (bits t - 1)) by (apply Z.pow_pos_nonneg; lia).
  destruct (is_signed t).
  - pose proof (Z.mod_pos_bound (z + 2 ^ (bits t - 1)) (2 ^ bits t) ltac:(lia)). lia.
  - pose proof (Z.mod_pos_bound z (2 ^ bits t) ltac:(lia)). lia.
Qed.
Lemma wrap_congr t z : (wrap t z) mod 2 ^ bits t = z mod 2 ^ bits t.
Proof.
  unfold wrap. pose proof (bits_pos t) as Hb.
  assert (0 < 2 ^ bits t) by (apply Z.pow_pos_nonneg; lia).
  destruct (is_signed t).
  - rewrite Zminus_mod_idemp_l. f_equal. lia.
  - by rewrite Z.mod_mod by lia.
Qed.
Lemma wrap_id t z : tmin t <= z <= tmax t -> wrap t z = z.
Proof.
  unfold wrap, tmin, tmax. pose proof (bits_pos t) as Hb. intros Hz.
  assert (2 ^ bits t = 2 * 2 ^ (bits t - 1)) as Hd.
  { rewrite <-Z.pow_succ_r by lia. f_equal. lia. }
  destruct (is_signed t); rewrite Z.mod_small by lia; lia.
Qed.

(** ** Conversions produce well-formed values *)
Lemma in_range_spec t z : in_range t z = true <-> tmin t <= z <= tmax t.
Proof. unfold in_range. lia. Qed.

Lemma cast_val_ok t1 t2 v w : cast_val t1 t2 v = Some w -> val_ok t2 w.
Proof.
  unfold cast_val. destruct v as [z|f|]; [| |done].
  - destruct (is_float t1); [done|]. destruct (is_float t2) eqn:H2; intros [= <-]; cbn.
    + split; [done|]. apply flt_of_Z_valid.
    + split; [done|]. apply wrap_range.
  - destruct (is_float t1); [|done]. destruct (is_float t2) eqn:H2.
    + intros [= <-]. cbn. split; [done|]. apply flt_conv_valid.
    + destruct (flt_trunc f) as [z|]; [|done]. destruct (in_range t2 z) eqn:Hr; [|done].
      intros [= <-]. cbn. split; [done|]. by apply in_range_spec.
Qed.

(** ** Lossless round trips *)
Lemma contains_roundtrip t1 t2 v : contains t2 t1 -> val_ok t1 v ->
  exists w, cast_val t1 t2 v = Some w /\ cast_val t2 t1 w = Some v.
Proof.
  unfold contains. destruct v as [z|f|]; cbn [val_ok]; [| |done].
  - intros Hc [H1 Hz]. rewrite H1 in Hc. unfold cast_val. rewrite H1.
    destruct (is_float t2) eqn:H2.
    + eexists. split; [done|]. cbn. rewrite flt_of_Z_trunc by lia.
      replace (in_range t1 z) with true; [done|]. symmetry. by apply in_range_spec.
    + eexists. split; [done|]. cbn. rewrite (wrap_id t2) by lia. rewrite (wrap_id t1) by lia. done.
  - intros Hc [H1 Hf]. rewrite H1 in Hc. unfold cast_val. rewrite H1.
    destruct (is_float t2) eqn:H2; [|done]. eexists. split; [done|]. cbn. do 2 f_equal.
    apply flt_conv_back; [lia|lia| |done].
    destruct t1, t2; cbn in *; try done; lia.
Qed.

(** ** Meaning of the conversions in terms of real numbers ([SpecReal]) *)
Lemma flt_of_Z_rnd t z : INT64_MIN <= z <= 2 ^ 64 ->
  is_finite_SF (flt_of_Z t z) = true /\ RV (flt_of_Z t z) = rnd t (IZR z).
Proof.
  intros Hz. unfold flt_of_Z. rewrite (binary_normalize_eq (fprec t) (femax t)).
  rewrite is_finite_SF_B2SF, SF2R_B2SF.
  generalize (binary_normalize_correct (fprec t) (femax t) (Hp t) (Hm t) mode_NE z 0 false). cbv zeta.
  replace (Defs.F2R (Defs.Float Zaux.radix2 z 0)) with (IZR z)
    by (unfold Defs.F2R; cbn; symmetry; apply Rmult_1_r).
  rewrite Raux.Rlt_bool_true.
  - intros (H1 & H2 & _). auto.
  - apply Rle_lt_trans with (Raux.bpow Zaux.radix2 64).
    + apply Generic_fmt.abs_round_le_generic.
      * apply (@fexp_correct (fprec t) (femax t) (Hp t)).
      * apply valid_rnd_round_mode.
      * apply Generic_fmt.generic_format_bpow. unfold SpecFloat.fexp, SpecFloat.emin. destruct t; cbn; lia.
      * rewrite <-abs_IZR, bpow_IZR by lia. apply IZR_le. unfold INT64_MIN in Hz. lia.
    + apply Raux.bpow_lt. by destruct t.
Qed.

Lemma cast_val_spec t1 t2 v : val_ok t1 v -> conv_spec t1 t2 v (cast_val t1 t2 v).
Proof.
  unfold conv_spec. destruct v as [z|f|]; cbn [val_ok]; [| |done].
  - intros [H1 Hz]. unfold cast_val. rewrite H1. destruct (is_float t2).
    + eexists. split; [done|]. split; [apply flt_of_Z_valid|]. apply flt_of_Z_rnd.
      revert Hz. unfold tmin, tmax, INT64_MIN. unfold bits. destruct t1; try done; cbn; lia.
    + eexists. split; [done|]. split; [apply wrap_range|apply wrap_congr].
  - intros [H1 Hf]. unfold cast_val. rewrite H1. destruct (is_float t2).
    + eexists. split; [done|]. split; [apply flt_conv_valid|]. split_and!.
      * destruct f as [s|s| |s m e]; try done.
      * intros Hfin Hlt. destruct f as [s|s| |s m e]; try done.
        -- cbn. unfold rnd. rewrite Generic_fmt.round_0 by apply (valid_rnd_round_mode mode_NE). done.
        -- by apply flt_conv_R.
      * intros Hfin Hge. destruct f as [s|s| |s m e]; try done.
        -- exfalso. revert Hge. cbn. unfold rnd. rewrite Generic_fmt.round_0 by apply (valid_rnd_round_mode mode_NE).
           rewrite Rabs_R0. apply Rlt_not_le. apply Raux.bpow_gt_0.
        -- cbn [flt_conv sign_SF]. rewrite (binary_round_eq (fprec t2) (femax t2)).
           destruct (binary_round_correct (fprec t2) (femax t2) (Hp t2) (Hm t2) mode_NE s m e) as [_ H].
           cbv zeta in H. rewrite Raux.Rlt_bool_false in H by exact Hge. rewrite H. by destruct s.
    + destruct (is_finite_SF f) eqn:Hfin.
      * rewrite flt_trunc_ok by done. done.
      * by destruct f.
Qed.

(** ** Tensors *)
Lemma roundtrip_vals t1 t2 vs : contains t2 t1 -> Forall (val_ok t1) vs ->
  exists ws, Forall2 (fun v w => cast_val t1 t2 v = Some w) vs ws /\
             Forall2 (fun w v => cast_val t2 t1 w = Some v) ws vs.
Proof.
  intros Hc. induction 1 as [|v vs Hv H (ws & H1 & H2)].
  - exists []. split; constructor.
  - destruct (contains_roundtrip t1 t2 v Hc Hv) as (w & Hw1 & Hw2).
    exists (w :: ws). split; by constructor.
Qed.

Lemma cast_roundtrip p T t2 o o' E s :
  wf s -> alloc_all E -> holds (heap s) p T -> init T -> t2 <> a_type T ->
  contains t2 (a_type T) -> fits (tsz t2) (a_dims T) ->
  exists s1 q ws, aitisa_cast (HPtr p) (dtype_of t2) o E s = Done (SUCCESS, HPtr q) s1 /\
    created E s s1 q (AT t2 (a_dev T) (a_dims T) ws) /\
    makes (aitisa_cast (HPtr q) (dtype_of (a_type T)) o') E s1 T.
Proof.
  intros Hwf HA HT HI Hne Hc Hfit.
  destruct (roundtrip_vals _ t2 _ Hc HI) as (ws & H1 & H2).
  pose proof (cast_rule (heap s) p T t2 o ws E s eq_refl Hwf HT Hne Hfit H1) as Hm.
  apply makes_or_nomem_alloc in Hm as (s1 & q & Hr & Hcr); [|done].
  exists s1, q, ws. split_and!; [done|done|].
  pose proof (cast_rule (heap s1) q (AT t2 (a_dev T) (a_dims T) ws) (a_type T) o' (a_vals T) E s1 eq_refl) as Hm2.
  cbn [a_type a_dev a_dims a_vals] in Hm2.
  apply makes_or_nomem_alloc in Hm2; [by destruct T|done|by eapply created_wf|by eapply created_holds
    |done|by apply HT|done].
Qed.

Lemma contains_pairs :
  (forall t, is_float t = false -> (tsz t <= 4)%nat -> contains F64 t) /\
  contains F64 F32 /\ contains I64 U32 /\ contains F32 I16 /\ contains F32 U16 /\
  ~ contains F64 I64 /\ ~ contains F32 I32 /\ ~ contains U64 I8.
Proof.
  split.
  { intros t H1 H2. destruct t; try discriminate; try (cbn in H2; lia);
      split; vm_compute; discriminate. }
  split_and!; try (split; vm_compute; discriminate).
  - intros [H1 H2]. vm_compute in H1. by apply H1.
  - intros [H1 H2]. vm_compute in H1. by apply H1.
  - intros [H1 H2]. vm_compute in H1. by apply H1.
Qed.
