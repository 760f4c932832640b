(** * ProofAuto4: samples with one operand *)
From stdpp Require Import gmap list.
From Coq Require Import ZArith Lia ZifyBool ZifyNat Reals Lra Floats.SpecFloat.
From Flocq Require Import Core.
From Flocq Require Import IEEE754.BinarySingleNaN.
From Verif Require Import Base Mem Spec SpecReal SpecAuto SpecAuto2 ModelCore ModelAuto ModelAuto2 Logic ProofBasic ProofCore ProofCore2 ProofCore3.
From Verif Require Import SpecNN SpecError SpecExp ModelNN ProofFloat ProofFloat2 ProofError ProofExp2 ProofExp4 ProofNN ProofAuto ProofAuto2.
Open Scope Z_scope.

(** ** Counting floats *)
(** The rank of a float among all floats, and its value as a multiple of 2^-149 *)
Definition ord (x : spec_float) : Z :=
  match x with
  | S754_zero _ | S754_nan => 0
  | S754_infinity s => cond_Zopp s (255 * 2 ^ 23)
  | S754_finite s m e => cond_Zopp s (Z.pos m + (e + 149) * 2 ^ 23)
  end.
Definition units (x : spec_float) : Z :=
  match x with
  | S754_zero _ | S754_nan => 0
  | S754_infinity s => cond_Zopp s (2 ^ 277)
  | S754_finite s m e => cond_Zopp s (Z.pos m * 2 ^ (e + 149))
  end.

Lemma valid32 s m e : valid_binary 24 128 (S754_finite s m e) = true ->
  Z.pos m < 2 ^ 24 /\ -149 <= e <= 104 /\ (-149 < e -> 2 ^ 23 <= Z.pos m).
Proof.
  cbn [valid_binary]. unfold bounded, canonical_mantissa, SpecFloat.fexp, SpecFloat.emin.
  rewrite andb_true_iff. intros [H1 H2]. apply Zeq_bool_eq in H1. apply Z.leb_le in H2.
  rewrite Zpos_digits2_pos in H1. pose proof (Zdigits_correct radix2 (Z.pos m)) as Hd.
  set (d := Zdigits radix2 (Z.pos m)) in *. change (radix2 : Z) with 2 in Hd. rewrite Z.abs_eq in Hd by lia.
  assert (0 < d) by (apply Zdigits_gt_0; lia).
  assert (d <= 24) as Hd24 by lia. assert (2 ^ d <= 2 ^ 24) by (apply Z.pow_le_mono_r; lia).
  split; [lia|]. split; [lia|]. intros He. assert (d = 24) as -> by lia. apply Hd.
Qed.
Lemma valid32' s m e : Z.pos m < 2 ^ 24 -> -149 <= e <= 104 -> (-149 < e -> 2 ^ 23 <= Z.pos m) ->
  valid_binary 24 128 (S754_finite s m e) = true.
Proof.
  intros H1 H2 H3. cbn [valid_binary]. unfold bounded, canonical_mantissa, SpecFloat.fexp, SpecFloat.emin.
  rewrite andb_true_iff. rewrite Zpos_digits2_pos. split; [|apply Z.leb_le; lia]. apply Zeq_bool_true.
  assert (Zdigits radix2 (Z.pos m) <= 24) by (apply Zdigits_le_Zpower; change (radix2 ^ 24) with (2 ^ 24); lia).
  destruct (Z.eq_dec e (-149)) as [->|He]; [lia|].
  assert (23 < Zdigits radix2 (Z.pos m)) by (apply Zdigits_gt_Zpower; change (radix2 ^ 23) with (2 ^ 23); lia).
  lia.
Qed.

Lemma place_units x : a_float x -> place x = (IZR (units x) * bpow radix2 (-149))%R.
Proof.
  intros [Hv Hn]. destruct x as [s|s| |s m e]; [cbn; lra| |done|].
  - cbn [place units]. assert (bpow radix2 128 = IZR (2 ^ 277) * bpow radix2 (-149))%R as ->.
    { change (IZR (2 ^ 277)) with (bpow radix2 277). by rewrite <-bpow_plus. }
    destruct s; cbn [cond_Zopp]; rewrite ?opp_IZR; lra.
  - apply valid32 in Hv as (_ & He & _). unfold place, units, RV. cbn [SF2R]. unfold F2R. cbn [Fnum Fexp].
    replace (cond_Zopp s (Z.pos m * 2 ^ (e + 149))) with (cond_Zopp s (Z.pos m) * 2 ^ (e + 149)) by (destruct s; cbn [cond_Zopp]; lia).
    rewrite mult_IZR, Rmult_assoc. f_equal. change (2 ^ (e + 149)) with (Zpower radix2 (e + 149)). rewrite IZR_Zpower by lia.
    rewrite <-bpow_plus. f_equal. lia.
Qed.
Lemma units_place x y : a_float x -> a_float y -> (place x < place y)%R <-> units x < units y.
Proof.
  intros Hx Hy. rewrite !place_units by done. pose proof (bpow_gt_0 radix2 (-149)) as H0. split; intros H.
  - apply lt_IZR. by apply Rmult_lt_reg_r in H.
  - apply Rmult_lt_compat_r; [done|]. by apply IZR_lt.
Qed.

(** Non-negative floats *)
Lemma ord_pos m e m' e' : -149 <= e -> -149 <= e' -> 0 < m < 2 ^ 24 -> 0 < m' < 2 ^ 24 -> (-149 < e' -> 2 ^ 23 <= m') ->
  (-149 < e -> 2 ^ 23 <= m) ->
  m + (e + 149) * 2 ^ 23 < m' + (e' + 149) * 2 ^ 23 -> m * 2 ^ (e + 149) < m' * 2 ^ (e' + 149).
Proof.
  intros He He' Hm Hm' Hn Hn' H. destruct (Z.lt_trichotomy e e') as [Hl|[->|Hl]].
  - assert (2 ^ (e' + 149) = 2 ^ (e' - e - 1) * 2 * 2 ^ (e + 149)) as ->.
    { rewrite <-Z.mul_assoc. change 2 with (2 ^ 1) at 3. rewrite <-!Z.pow_add_r by lia. f_equal. lia. }
    assert (0 < 2 ^ (e' - e - 1)) by (apply Z.pow_pos_nonneg; lia).
    assert (0 < 2 ^ (e + 149)) by (apply Z.pow_pos_nonneg; lia).
    specialize (Hn ltac:(lia)). rewrite !Z.mul_assoc. apply Z.mul_lt_mono_pos_r; [lia|].
    assert (m' * 1 <= m' * 2 ^ (e' - e - 1)) by (apply Z.mul_le_mono_nonneg_l; lia). lia.
  - apply Z.mul_lt_mono_pos_r; [apply Z.pow_pos_nonneg; lia|]. lia.
  - exfalso. specialize (Hn' ltac:(lia)). nia.
Qed.
Lemma ord_lt_units x y : a_float x -> a_float y -> ord x < ord y -> units x < units y.
Proof.
  intros [Vx Nx] [Vy Ny] H.
  assert (forall s m e, valid_binary 24 128 (S754_finite s m e) = true ->
     0 < Z.pos m * 2 ^ (e + 149) < 2 ^ 277 /\ 0 < Z.pos m + (e + 149) * 2 ^ 23 < 255 * 2 ^ 23) as Hpos.
  { intros s m e V. apply valid32 in V as (Hm & He & _). 
    assert (0 < 2 ^ (e + 149)) by (apply Z.pow_pos_nonneg; lia).
    assert (2 ^ (e + 149) <= 2 ^ 253) by (apply Z.pow_le_mono_r; lia).
    split; [|lia]. split; [lia|]. change (2 ^ 277) with (2 ^ 24 * 2 ^ 253). nia. }
  destruct x as [s|s| |s m e]; try done; destruct y as [s'|s'| |s' m' e']; try done; cbn [ord units] in *.
  - destruct s'; cbn [cond_Zopp] in *; lia.
  - specialize (Hpos _ _ _ Vy). destruct s'; cbn [cond_Zopp] in *; lia.
  - destruct s; cbn [cond_Zopp] in *; lia.
  - destruct s, s'; cbn [cond_Zopp] in *; lia.
  - specialize (Hpos _ _ _ Vy). destruct s, s'; cbn [cond_Zopp] in *; lia.
  - specialize (Hpos _ _ _ Vx). destruct s; cbn [cond_Zopp] in *; lia.
  - specialize (Hpos _ _ _ Vx). destruct s, s'; cbn [cond_Zopp] in *; lia.
  - pose proof (Hpos _ _ _ Vx) as Px. pose proof (Hpos _ _ _ Vy) as Py. clear Hpos.
    apply valid32 in Vx as (Hm & He & Hn), Vy as (Hm' & He' & Hn').
    destruct s, s'; cbn [cond_Zopp] in *; [| |lia|].
    + enough (Z.pos m' * 2 ^ (e' + 149) < Z.pos m * 2 ^ (e + 149)) by lia. apply ord_pos; lia.
    + lia.
    + apply ord_pos; lia.
Qed.
Lemma ord_eq_units x y : a_float x -> a_float y -> ord x = ord y -> units x = units y.
Proof.
  intros [Vx Nx] [Vy Ny] H.
  assert (forall s m e, valid_binary 24 128 (S754_finite s m e) = true -> 0 < Z.pos m + (e + 149) * 2 ^ 23 < 255 * 2 ^ 23) as Hpos.
  { intros s m e V. apply valid32 in V as (Hm & He & _). lia. }
  destruct x as [s|s| |s m e]; try done; destruct y as [s'|s'| |s' m' e']; try done; cbn [ord units] in *.
  - destruct s'; cbn [cond_Zopp] in *; lia.
  - specialize (Hpos _ _ _ Vy). destruct s'; cbn [cond_Zopp] in *; lia.
  - destruct s; cbn [cond_Zopp] in *; lia.
  - destruct s, s'; cbn [cond_Zopp] in *; lia.
  - specialize (Hpos _ _ _ Vy). destruct s, s'; cbn [cond_Zopp] in *; lia.
  - specialize (Hpos _ _ _ Vx). destruct s; cbn [cond_Zopp] in *; lia.
  - specialize (Hpos _ _ _ Vx). destruct s, s'; cbn [cond_Zopp] in *; lia.
  - pose proof (Hpos _ _ _ Vx) as Px. pose proof (Hpos _ _ _ Vy) as Py. clear Hpos.
    apply valid32 in Vx as (Hm & He & Hn), Vy as (Hm' & He' & Hn').
    assert (s = s') as -> by (destruct s, s'; cbn [cond_Zopp] in *; lia).
    assert (Z.pos m + (e + 149) * 2 ^ 23 = Z.pos m' + (e' + 149) * 2 ^ 23) as H' by (destruct s'; cbn [cond_Zopp] in *; lia).
    assert (e = e') as -> by (destruct (Z.eq_dec e (-149)), (Z.eq_dec e' (-149)); lia).
    assert (Z.pos m = Z.pos m') as -> by lia. done.
Qed.
Lemma ord_lt x y : a_float x -> a_float y -> ord x < ord y <-> (place x < place y)%R.
Proof.
  intros Hx Hy. rewrite units_place by done. split; [by apply ord_lt_units|]. intros H.
  destruct (Z.lt_trichotomy (ord x) (ord y)) as [?|[He|Hl]]; [done| |].
  - apply ord_eq_units in He; [lia|done|done].
  - apply ord_lt_units in Hl; [lia|done|done].
Qed.
Lemma ord_onto k : -255 * 2 ^ 23 <= k <= 255 * 2 ^ 23 -> exists x, a_float x /\ ord x = k.
Proof.
  assert (forall k, 0 < k < 255 * 2 ^ 23 -> exists m e, valid_binary 24 128 (S754_finite false m e) = true /\
    Z.pos m + (e + 149) * 2 ^ 23 = k) as Hp.
  { intros j Hj. destruct (Z_lt_le_dec j (2 ^ 24)) as [Hs|Hs].
    - exists (Z.to_pos j), (-149). split; [apply valid32'|]; lia.
    - pose proof (Z_div_mod_eq_full j (2 ^ 23)) as Hd. pose proof (Z.mod_pos_bound j (2 ^ 23) ltac:(lia)) as Hm.
      assert (2 <= j / 2 ^ 23 < 255) by lia.
      exists (Z.to_pos (2 ^ 23 + j mod 2 ^ 23)), (j / 2 ^ 23 - 1 - 149). split; [apply valid32'|]; lia. }
  intros Hk. destruct (Z.eq_dec k 0) as [->|]; [by exists (S754_zero false)|].
  destruct (Z.eq_dec (Z.abs k) (255 * 2 ^ 23)) as [Ha|].
  - exists (S754_infinity (k <? 0)). split; [done|]. cbn [ord]. destruct (Z.ltb_spec k 0); cbn [cond_Zopp]; lia.
  - destruct (Hp (Z.abs k)) as (m & e & Hv & He); [lia|]. exists (S754_finite (k <? 0) m e). split; [by split|].
    cbn [ord]. destruct (Z.ltb_spec k 0); cbn [cond_Zopp]; lia.
Qed.

Lemma biased_ord x : a_float x -> biased (float_bits x) = 2 ^ 31 + ord x.
Proof.
  intros [Hv Hn]. destruct x as [s|s| |s m e]; try done.
  - destruct s; done.
  - destruct s; done.
  - apply valid32 in Hv as (Hm & He & Hn'). unfold biased, float_bits, ord.
    destruct (Z.ltb_spec (Z.pos m) (2 ^ 23)) as [H|H]; destruct s; cbn [cond_Zopp];
      repeat match goal with |- context [?a <=? ?b] => destruct (Z.leb_spec a b) end; try lia.
Qed.

Lemma rank_gap x y : a_float x -> a_float y -> (Z.abs (ord x - ord y) <= 4 <-> adjacent x y).
Proof.
  intros Hx Hy. split.
  - intros H (a & b & c & d & Ha & Hb & Hc & Hd & [H1 H2] & [H3 H4] & H5).
    apply (ord_lt a b Ha Hb) in H2. apply (ord_lt b c Hb Hc) in H3. apply (ord_lt c d Hc Hd) in H4.
    unfold Rmin, Rmax in *. destruct (Rle_dec (place x) (place y)).
    + apply (ord_lt x a Hx Ha) in H1. apply (ord_lt d y Hd Hy) in H5. lia.
    + apply (ord_lt y a Hy Ha) in H1. apply (ord_lt d x Hd Hx) in H5. lia.
  - intros H. destruct (Z_le_gt_dec (Z.abs (ord x - ord y)) 4) as [?|Hg]; [done|exfalso]. apply H.
    assert (forall z, a_float z -> -255 * 2 ^ 23 <= ord z <= 255 * 2 ^ 23) as Hb.
    { intros z [Vz Nz]. destruct z as [s|s| |s m e]; try done; cbn [ord]; [destruct s; cbn; lia|].
      apply valid32 in Vz as (Hm & He & _). destruct s; cbn [cond_Zopp]; lia. }
    pose proof (Hb x Hx). pose proof (Hb y Hy). set (l := Z.min (ord x) (ord y)).
    destruct (ord_onto (l + 1)) as (a & Ha & Ea); [lia|]. destruct (ord_onto (l + 2)) as (b & Hb' & Eb); [lia|].
    destruct (ord_onto (l + 3)) as (c & Hc & Ec); [lia|]. destruct (ord_onto (l + 4)) as (d & Hd & Ed); [lia|].
    exists a, b, c, d. do 4 (split; [done|]).
    pose proof (proj1 (ord_lt a b Ha Hb') ltac:(lia)). pose proof (proj1 (ord_lt b c Hb' Hc) ltac:(lia)).
    pose proof (proj1 (ord_lt c d Hc Hd) ltac:(lia)).
    unfold Rmin, Rmax. destruct (Rle_dec (place x) (place y)) as [Hle|Hle].
    + assert (ord x <= ord y) by (destruct (Z_le_gt_dec (ord x) (ord y)) as [?|Hgt]; [done|]; apply Z.gt_lt, (ord_lt y x Hy Hx) in Hgt; lra).
      pose proof (proj1 (ord_lt x a Hx Ha) ltac:(lia)). pose proof (proj1 (ord_lt d y Hd Hy) ltac:(lia)). done.
    + assert (ord y <= ord x) by (destruct (Z_le_gt_dec (ord y) (ord x)) as [?|Hgt]; [done|]; apply Z.gt_lt, (ord_lt x y Hx Hy) in Hgt; lra).
      pose proof (proj1 (ord_lt y a Hy Ha) ltac:(lia)). pose proof (proj1 (ord_lt d x Hd Hx) ltac:(lia)). done.
Qed.

Lemma almost_equals_iff x y : valid_binary 24 128 x = true -> valid_binary 24 128 y = true ->
  almost_equals x y = true <-> x <> S754_nan /\ y <> S754_nan /\ adjacent x y.
Proof.
  intros Vx Vy. destruct (decide (x = S754_nan)) as [->|Nx]; [split; [done|intros (H & _); done]|].
  destruct (decide (y = S754_nan)) as [->|Ny]; [split; [destruct x; done|intros (_ & H & _); done]|].
  rewrite <-(rank_gap x y) by done.
  assert (almost_equals x y = ((if biased (float_bits y) <=? biased (float_bits x)
     then biased (float_bits x) - biased (float_bits y) else biased (float_bits y) - biased (float_bits x)) <=? 4)) as ->.
  { unfold almost_equals. destruct x, y; done. }
  rewrite !biased_ord by done. destruct (Z.leb_spec (2 ^ 31 + ord y) (2 ^ 31 + ord x)); rewrite Z.leb_le; intuition lia.
Qed.

(** ** ASSERT_FLOAT_EQ *)
Lemma float_eq_float x y : valid_binary 24 128 x = true -> valid_binary 24 128 y = true ->
  float_eq F32 (VF x) (VF y) = true <-> x <> S754_nan /\ y <> S754_nan /\ adjacent x y.
Proof.
  intros Vx Vy. cbn [float_eq]. rewrite !(flt_conv_same F32) by done. by apply almost_equals_iff.
Qed.
Lemma conv_not_nan t f : is_float t = true -> f <> S754_nan -> flt_conv t f <> S754_nan.
Proof.
  intros Ht Hf. destruct f as [?|?| |s m e]; try done. unfold flt_conv. rewrite (binary_round_eq (fprec t) (femax t)).
  destruct (binary_round_correct (fprec t) (femax t) (ProofFloat2.Hp t) (Hm t) mode_NE s m e) as [_ H].
  cbv zeta in H. destruct (Rlt_bool _ _).
  - destruct H as (_ & H & _). intros Hn. rewrite Hn in H. done.
  - rewrite H. done.
Qed.
Lemma float_eq_double x y :
  float_eq F64 (VF x) (VF y) = true <-> x <> S754_nan /\ y <> S754_nan /\ adjacent (flt_conv F32 x) (flt_conv F32 y).
Proof.
  cbn [float_eq]. rewrite almost_equals_iff by apply (flt_conv_valid F32).
  assert (forall z, flt_conv F32 z <> S754_nan <-> z <> S754_nan) as H.
  { intros z. split; [intros H ->; done|by apply conv_not_nan]. }
  by rewrite !H.
Qed.
Lemma float_eq_huge x y : is_finite_SF x = true -> is_finite_SF y = true ->
  (bpow radix2 128 <= RV x)%R -> (bpow radix2 128 <= RV y)%R -> float_eq F64 (VF x) (VF y) = true.
Proof.
  intros Fx Fy Hx Hy. pose proof (bpow_gt_0 radix2 128) as H0.
  assert (forall z, is_finite_SF z = true -> (bpow radix2 128 <= RV z)%R -> flt_conv F32 z = S754_infinity false) as H.
  { intros z Fz Hz. apply flt_conv_inf; [done|lra|]. unfold rnd. apply round_ge_generic; [exact _|exact _| |exact Hz].
    by apply fmt_bpow. }
  cbn [float_eq]. by rewrite !H.
Qed.
Lemma adjacent_refl x : adjacent x x.
Proof.
  intros (a & b & c & d & _ & _ & _ & _ & [H1 H2] & [H3 H4] & H5).
  rewrite Rmin_left in H1 by apply Rle_refl. rewrite Rmax_left in H5 by apply Rle_refl. lra.
Qed.
Lemma float_eq_self t v : is_float t = true -> val_ok t v -> float_eq t v v = true <-> v <> VF S754_nan.
Proof.
  intros Ht. destruct v as [z|f|]; cbn [val_ok]; [intros [Hf _]; congruence| |done].
  intros [_ Hv]. destruct t; try done.
  - rewrite float_eq_float by done. split; [intros (H & _) [= ->]; done|]. intros H.
    split_and!; [intros ->; done|intros ->; done|apply adjacent_refl].
  - rewrite float_eq_double. split; [intros (H & _) [= ->]; done|]. intros H.
    split_and!; [intros ->; done|intros ->; done|apply adjacent_refl].
Qed.

(** ** Samples *)
Lemma operand_run1 E s op x T V d : wf s -> alloc_all E -> supplied (heap s) x T -> computes1 E op (on d T) V ->
  exists a1 a y r s1 s2,
    aitisa_create (dtype_of (a_type T)) d (x_dims x) (Z.of_nat (length (x_dims x))) (x_data x) (x_len x) HUndef E s
      = Done (SUCCESS, HPtr a1) s1 /\
    op (HPtr a1) HUndef E s1 = Done (SUCCESS, HPtr a) s2 /\
    aitisa_resolve (HPtr a) E s2 = Done (y, r) s2 /\
    shows (heap s2) (outcome_of r) V /\ keeps s s2.
Proof.
  intros Hwf HA H1 Hop.
  destruct (supplied_create E s x T d HUndef Hwf HA H1) as (s1 & a1 & Hr1 & Hh1 & Hk1).
  destruct (Hop s1 a1 HUndef) as (s2 & a & Hr3 & Hc); [apply Hk1|done|].
  destruct (resolve_shows E s2 a V (created_holds _ _ _ _ _ _ Hc)) as (y & r & Hr4 & Hs).
  exists a1, a, y, r, s1, s2. split_and!; try done.
  all: destruct (keeps_trans _ _ _ Hk1 (created_keeps _ _ _ _ _ _ (proj1 (proj2 Hk1)) Hc)) as (? & ? & ?); done.
Qed.

Lemma library_run1_ok E s op x T V : wf s -> alloc_all E ->
  supplied (heap s) x T -> computes1 E op (on (Dev 0 0) T) V ->
  exists r s', library_run1 op x E s = Done r s' /\ shows (heap s') r V /\ keeps s s'.
Proof.
  intros Hwf HA H1 Hop.
  destruct (operand_run1 E s op x T V _ Hwf HA H1 Hop) as (a1 & a & y & r & s1 & s2 & R1 & R3 & R4 & Hs & Hk).
  exists (outcome_of r), s2. split; [|done]. unfold library_run1. rewrite (proj1 (proj2 H1)).
  erewrite bind_done by apply int_to_dtype_ok. erewrite bind_done by done.
  erewrite bind_done by exact R1. cbv beta match.
  erewrite bind_done by exact R3. cbv beta match. erewrite bind_done by exact R4. done.
Qed.

Lemma itself1_run_ok E s op x T V d : wf s -> alloc_all E -> d = Dev 0 0 \/ d = Dev 1 0 -> x_device x = dev_type d ->
  supplied (heap s) x T -> computes1 E op (on d T) V ->
  exists r s', user_run1 (itself1 op) x E s = Done r s' /\ shows (heap s') r V /\ keeps s s'.
Proof.
  intros Hwf HA Hd D1 H1 Hop.
  destruct (operand_run1 E s op x T V _ Hwf HA H1 Hop) as (a1 & a & y & r & s1 & s2 & R1 & R3 & R4 & Hs & Hk).
  exists (outcome_of r), s2. split; [|done]. unfold user_run1, itself1. cbn [u1_create u1_op u1_resolve].
  rewrite (proj1 (proj2 H1)), D1.
  erewrite bind_done.
  2:{ erewrite bind_done by apply int_to_dtype_ok. erewrite bind_done by (by apply int_to_device_ok).
      erewrite bind_done by exact R1. done. }
  erewrite bind_done. 2:{ erewrite bind_done by exact R3. done. }
  erewrite bind_done by exact R4. done.
Qed.

Lemma sample_verdict1 {X} (U : user1 X) E s op x same T V W : wf s -> alloc_all E ->
  supplied (heap s) x T -> computes1 E op (on (Dev 0 0) T) V -> valid V -> valid W ->
  (forall s1, keeps s s1 -> exists r s2, user_run1 U x E s1 = Done r s2 /\ shows (heap s2) r W /\ keeps s1 s2) ->
  exists b s', auto_case1 op U x (a_type V) same E s = Done b s' /\ (b = true <-> agree 1 same V W).
Proof.
  intros Hwf HA H1 Hop HvV HvW HU.
  destruct (library_run1_ok E s op x T V Hwf HA H1 Hop) as (ra & s1 & R1 & S1 & K1).
  destruct (HU s1 K1) as (ru & s2 & R2 & S2 & K2).
  destruct (compare_ok E s2 1 (a_type V) same V W ra ru HvV HvW) as (b & R3 & Hb).
  { eapply shows_mono; [apply K2|done]. }
  { done. }
  { done. }
  exists b, s2. split; [|done].
  unfold auto_case1. erewrite bind_done by exact R1. erewrite bind_done by exact R2. exact R3.
Qed.

Lemma self_verdict1 E s op x d T V : wf s -> alloc_all E -> d = Dev 0 0 \/ d = Dev 1 0 -> x_device x = dev_type d ->
  supplied (heap s) x T -> (forall d, computes1 E op (on d T) (on d V)) -> valid V -> init V -> is_float (a_type V) = true ->
  exists b s', auto_case1 op (itself1 op) x (a_type V) (float_eq (a_type V)) E s = Done b s' /\
    (b = true <-> dev_type d = 1 /\ Forall (fun v => v <> VF S754_nan) (a_vals V)).
Proof.
  intros Hwf HA Hd Hx H1 Hop HvV Hi Hf.
  destruct (sample_verdict1 (itself1 op) E s op x (float_eq (a_type V)) T (on (Dev 0 0) V) (on d V)) as (b & s' & Hr & Hb); try done.
  { intros s1 (K1 & K2 & K3). apply (itself1_run_ok E s1 op x T (on d V) d); try done.
    eapply supplied_mono; [exact K1|done]. }
  exists b, s'. split; [done|]. rewrite Hb. unfold agree, on. cbn [a_type a_dims a_vals a_dev].
  split.
  - intros (_ & _ & Hd1 & H). split; [done|]. apply Forall_forall. intros v Hv. apply elem_of_list_lookup in Hv as [i Hv].
    apply (float_eq_self (a_type V)); [done|exact (Forall_lookup_1 _ _ _ _ Hi Hv)|].
    exact (Forall2_lookup_lr _ _ _ _ _ _ H Hv Hv).
  - intros [Hd1 H]. split_and!; try done. apply Forall2_same_length_lookup_2; [done|].
    intros i v w Hv Hw. rewrite Hv in Hw. injection Hw as <-.
    apply float_eq_self; [done|exact (Forall_lookup_1 _ _ _ _ Hi Hv)|exact (Forall_lookup_1 _ _ _ _ H Hv)].
Qed.

(** ReLU tested against itself *)
Lemma relu_self E s x T : wf s -> alloc_all E -> x_device x = 1 -> supplied (heap s) x T ->
  init T -> is_float (a_type T) = true ->
  exists s', auto_case1 aitisa_relu (itself1 aitisa_relu) x (a_type T) (float_eq (a_type T)) E s = Done true s'.
Proof.
  intros Hwf HA Hx H1 Hi Hf. pose proof H1 as (_ & _ & [HvT HlT] & _).
  set (V := AT (a_type T) (a_dev T) (a_dims T) (relu_val (a_type T) <$> a_vals T)).
  destruct (self_verdict1 E s aitisa_relu x (Dev 1 0) T V) as (b & s' & Hr & Hb); try done.
  - by right.
  - intros d s1 p o Hw Hh. apply (makes_or_nomem_alloc _ _ _ o); [done|]. by apply (relu_rule p (on d T)).
  - split; [done|]. cbn. by rewrite fmap_length.
  - unfold init, V. cbn [a_type a_vals]. apply Forall_fmap. eapply Forall_impl; [exact Hi|]. intros v Hv. by apply relu_val_ok.
  - exists s'. change (a_type T) with (a_type V). rewrite Hr. f_equal. apply Hb. split; [done|]. unfold V. cbn [a_vals]. apply Forall_fmap.
    eapply Forall_impl; [exact Hi|]. intros v Hv. cbn. unfold relu_val.
    destruct (gt0_val (a_type T) v) as [[]|] eqn:Hg; cbn [default from_option]; unfold Datatypes.id.
    + intros Hn. cbn in Hn. rewrite Hn in Hg. cbn in Hg. by destruct (a_type T).
    + unfold zero_val. by rewrite Hf.
    + unfold zero_val. by rewrite Hf.
Qed.
(** Tanh fails against itself on elements from 710 on. *)
Lemma tanh_self E s x T eps i v : wf s -> alloc_all E -> x_device x = 1 -> supplied (heap s) x T ->
  init T -> is_float (a_type T) = true -> exp_close (e_exp E) eps -> (0 <= eps <= / 16)%R ->
  a_vals T !! i = Some v -> finite_val v -> (710 <= Rabs (val_real v))%R ->
  exists s', auto_case1 aitisa_tanh (itself1 aitisa_tanh) x (a_type T) (float_eq (a_type T)) E s = Done false s'.
Proof.
  intros Hwf HA Hx H1 Hi Hf Hex Heps Hv Fv Rv. pose proof H1 as (_ & _ & [HvT HlT] & _).
  destruct (tanh_total T (e_exp E) Hi Hf) as (ws & Hws & Hok).
  set (V := AT (a_type T) (a_dev T) (a_dims T) ws).
  destruct (self_verdict1 E s aitisa_tanh x (Dev 1 0) T V) as (b & s' & Hr & Hb); try done.
  - by right.
  - intros d s1 p o Hw Hh. apply (makes_or_nomem_alloc _ _ _ o); [done|]. by apply (tanh_rule p (on d T)).
  - split; [done|]. cbn. by rewrite <-(Forall2_length _ _ _ Hws).
  - exists s'. change (a_type T) with (a_type V). rewrite Hr. f_equal. destruct b; [|done]. exfalso. destruct (proj1 Hb eq_refl) as [_ Hall].
    destruct (Forall2_lookup_l _ _ _ _ _ Hws Hv) as (w & Hw & (f & g & h & -> & Hg & Hh & Ew)).
    destruct (tan_close (a_type T) (e_exp E) eps f g h Hf Hex Heps) as (f' & y & [= <-] & Ey & Hc & _); [|done|done|].
    { destruct (Forall_lookup_1 _ _ _ _ Hi Hv) as [_ ?]. done. }
    destruct Fv as (f' & [= <-] & Ff). destruct (Hc Ff) as [(H & _)|(_ & ->)].
    { cbn in Rv. lra. }
    rewrite Ey in Ew. subst w. by apply (Forall_lookup_1 _ _ _ _ Hall Hw).
Qed.
