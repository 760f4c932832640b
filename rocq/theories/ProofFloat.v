(** * ProofFloat: the executable floats of Base.v are IEEE-754 arithmetic

    Connects the SpecFloat operations used by the model with real numbers
    through Flocq.  The results of this file rest on the axioms of Coq's
    real numbers. *)
From Coq Require Import ZArith Lia Reals Lra Floats.SpecFloat.
From Flocq Require Import Core IEEE754.BinarySingleNaN Relative.
From Verif Require Import Base Spec.
Open Scope Z_scope.

(** ** SpecFloat operations are Flocq's, for every format *)
Section equiv.
Context (prec emax : Z) {Hprec : Prec_gt_0 prec} {Hmax : Prec_lt_emax prec emax}.

Lemma round_nearest_even_eq s m l : round_nearest_even m l = choice_mode mode_NE s m l.
Proof.
  case l; [reflexivity|intro c]. case c; [ | reflexivity..].
  now simpl; unfold Round.cond_incr; case Z.even.
Qed.
Lemma binary_round_aux_eq sx mx ex lx :
  SpecFloat.binary_round_aux prec emax sx mx ex lx = binary_round_aux prec emax mode_NE sx mx ex lx.
Proof.
  unfold SpecFloat.binary_round_aux, binary_round_aux.
  set (mrse' := shr_fexp _ _ _). case mrse'; intros mrs' e'; simpl.
  now rewrite (round_nearest_even_eq sx).
Qed.
Lemma binary_round_eq s m e :
  SpecFloat.binary_round prec emax s m e = binary_round prec emax mode_NE s m e.
Proof.
  unfold SpecFloat.binary_round, binary_round, shl_align_fexp.
  set (mez := shl_align _ _ _); case mez as [mz ez]. apply binary_round_aux_eq.
Qed.
Lemma binary_normalize_eq m e szero :
  SpecFloat.binary_normalize prec emax m e szero
  = B2SF (binary_normalize prec emax Hprec Hmax mode_NE m e szero).
Proof.
  case m as [ | p | p]; [now simpl| |]; simpl; rewrite B2SF_SF2B; apply binary_round_eq.
Qed.
Lemma SFadd_eq (x y : binary_float prec emax) :
  SFadd prec emax (B2SF x) (B2SF y) = B2SF (Bplus mode_NE x y).
Proof.
  case x as [sx|sx| |sx mx ex Bx]; case y as [sy|sy| |sy my ey By];
    [now (trivial || simpl; case Bool.eqb).. | ].
  apply binary_normalize_eq.
Qed.
Lemma SFsub_eq (x y : binary_float prec emax) :
  SFsub prec emax (B2SF x) (B2SF y) = B2SF (Bminus mode_NE x y).
Proof.
  case x as [sx|sx| |sx mx ex Bx]; case y as [sy|sy| |sy my ey By];
    [now (trivial || simpl; case Bool.eqb).. | ].
  simpl. unfold Zminus. rewrite <- cond_Zopp_negb. apply binary_normalize_eq.
Qed.
Lemma SFmul_eq (x y : binary_float prec emax) :
  SFmul prec emax (B2SF x) (B2SF y) = B2SF (Bmult mode_NE x y).
Proof.
  case x as [sx|sx| |sx mx ex Bx]; case y as [sy|sy| |sy my ey By]; [now trivial.. | ].
  simpl. rewrite B2SF_SF2B. apply binary_round_aux_eq.
Qed.
Lemma SFdiv_eq (x y : binary_float prec emax) :
  SFdiv prec emax (B2SF x) (B2SF y) = B2SF (Bdiv mode_NE x y).
Proof.
  case x as [sx|sx| |sx mx ex Bx]; case y as [sy|sy| |sy my ey By];
    [now (trivial || simpl; case Bool.eqb).. | ].
  simpl. rewrite B2SF_SF2B.
  set (melz := SFdiv_core_binary _ _ _ _ _ _). case melz as [[mz ez] lz].
  apply binary_round_aux_eq.
Qed.
Lemma SFsqrt_eq (x : binary_float prec emax) :
  SFsqrt prec emax (B2SF x) = B2SF (Bsqrt mode_NE x).
Proof.
  case x as [sx|sx| |sx mx ex Bx]; [now (trivial || case sx).. | ].
  case sx; [reflexivity | ]. simpl. rewrite B2SF_SF2B.
  set (melz := SFsqrt_core_binary _ _ _ _). case melz as [[mz ez] lz].
  apply binary_round_aux_eq.
Qed.
End equiv.

(** ** Double precision *)
Definition Hp64 : Prec_gt_0 53 := eq_refl.
Definition Hm64 : Prec_lt_emax 53 1024 := eq_refl.
Definition Hp32 : Prec_gt_0 24 := eq_refl.
Definition Hm32 : Prec_lt_emax 24 128 := eq_refl.
Global Existing Instance Hp64. Global Existing Instance Hm64.
Global Existing Instance Hp32. Global Existing Instance Hm32.

(** The real value of a float, and rounding to double. *)
Notation R64 := (SF2R radix2).
Definition rnd64 (x : R) : R := round radix2 (SpecFloat.fexp 53 1024) ZnearestE x.

(** A valid finite double with real value [r]. *)
Definition is64 (f : spec_float) (r : R) : Prop :=
  exists b : binary_float 53 1024, f = B2SF b /\ is_finite b = true /\ B2R b = r.

Lemma is64_R f r : is64 f r -> SF2R radix2 f = r.
Proof. intros (b & -> & _ & <-). apply SF2R_B2SF. Qed.
Lemma is64_finite f r : is64 f r -> is_finite_SF f = true.
Proof. intros (b & -> & H & _). now rewrite is_finite_SF_B2SF. Qed.
Lemma is64_valid f r : is64 f r -> valid_binary 53 1024 f = true.
Proof. intros (b & -> & _ & _). apply valid_binary_B2SF. Qed.
Lemma is64_intro f : valid_binary 53 1024 f = true -> is_finite_SF f = true ->
  is64 f (SF2R radix2 f).
Proof.
  intros Hv Hf. exists (SF2B f Hv). rewrite B2SF_SF2B, is_finite_SF2B, B2R_SF2B. auto.
Qed.

Lemma fexp64_valid : Valid_exp (SpecFloat.fexp 53 1024).
Proof. exact (@fexp_correct 53 1024 Hp64). Qed.

Lemma int_format z : Z.abs z <= 2 ^ 53 ->
  generic_format radix2 (SpecFloat.fexp 53 1024) (IZR z).
Proof.
  intros Hz. 
  change (SpecFloat.fexp 53 1024) with (FLT_exp (3 - 1024 - 53) 53).
  destruct (Z.eq_dec (Z.abs z) (2 ^ 53)) as [He|Hne].
  - assert (z = 2 ^ 53 \/ z = - 2 ^ 53) as [-> | ->] by lia.
    + change (IZR (2 ^ 53)) with (bpow radix2 53). apply generic_format_bpow.
      unfold FLT_exp. lia.
    + rewrite opp_IZR. apply generic_format_opp.
      change (IZR (2 ^ 53)) with (bpow radix2 53). apply generic_format_bpow.
      unfold FLT_exp. lia.
  - apply generic_format_FLT. exists (Float radix2 z 0).
    + unfold F2R. simpl. ring.
    + simpl. lia.
    + simpl. lia.
Qed.

Lemma dbl_of_Z_ok z : Z.abs z <= 2 ^ 53 -> is64 (dbl_of_Z z) (IZR z).
Proof.
  intros Hz. unfold dbl_of_Z. exists (binary_normalize 53 1024 Hp64 Hm64 mode_NE z 0 false).
  split; [apply binary_normalize_eq|].
  generalize (binary_normalize_correct 53 1024 Hp64 Hm64 mode_NE z 0 false). cbv zeta.
  replace (F2R (Float radix2 z 0)) with (IZR z) by (unfold F2R; simpl; ring).
  rewrite round_generic; [|apply valid_rnd_N|now apply int_format].
  rewrite Rlt_bool_true.
  - intros (H1 & H2 & _). auto.
  - rewrite <- abs_IZR. apply Rle_lt_trans with (IZR (2 ^ 53)).
    + now apply IZR_le.
    + change (IZR (2 ^ 53)) with (bpow radix2 53). now apply bpow_lt.
Qed.

Lemma dbl_of_Z_rnd z : (Rabs (rnd64 (IZR z)) < bpow radix2 1024)%R ->
  is64 (dbl_of_Z z) (rnd64 (IZR z)).
Proof.
  intros Hz. unfold dbl_of_Z. exists (binary_normalize 53 1024 Hp64 Hm64 mode_NE z 0 false).
  split; [apply binary_normalize_eq|].
  generalize (binary_normalize_correct 53 1024 Hp64 Hm64 mode_NE z 0 false). cbv zeta.
  replace (F2R (Float radix2 z 0)) with (IZR z) by (unfold F2R; simpl; ring).
  rewrite Rlt_bool_true by exact Hz. intros (H1 & H2 & _). auto.
Qed.

Lemma ddiv_ok x y rx ry : is64 x rx -> is64 y ry -> ry <> 0%R ->
  (Rabs (rnd64 (rx / ry)) < bpow radix2 1024)%R -> is64 (ddiv x y) (rnd64 (rx / ry)).
Proof.
  intros (a & -> & Ha & <-) (b & -> & Hb & <-) Hn Hlt.
  exists (Bdiv mode_NE a b). split; [apply SFdiv_eq|].
  generalize (Bdiv_correct 53 1024 Hp64 Hm64 mode_NE a b Hn).
  unfold rnd64 in Hlt. simpl round_mode. rewrite Rlt_bool_true by exact Hlt.
  intros (H1 & H2 & _). rewrite H2. auto.
Qed.
Lemma dmul_ok x y rx ry : is64 x rx -> is64 y ry ->
  (Rabs (rnd64 (rx * ry)) < bpow radix2 1024)%R -> is64 (dmul x y) (rnd64 (rx * ry)).
Proof.
  intros (a & -> & Ha & <-) (b & -> & Hb & <-) Hlt.
  exists (Bmult mode_NE a b). split; [apply SFmul_eq|].
  generalize (Bmult_correct 53 1024 Hp64 Hm64 mode_NE a b).
  unfold rnd64 in Hlt. simpl round_mode. rewrite Rlt_bool_true by exact Hlt.
  intros (H1 & H2 & _). rewrite H2, Ha, Hb. auto.
Qed.
Lemma dadd_ok x y rx ry : is64 x rx -> is64 y ry ->
  (Rabs (rnd64 (rx + ry)) < bpow radix2 1024)%R -> is64 (dadd x y) (rnd64 (rx + ry)).
Proof.
  intros (a & -> & Ha & <-) (b & -> & Hb & <-) Hlt.
  exists (Bplus mode_NE a b). split; [apply SFadd_eq|].
  generalize (Bplus_correct 53 1024 Hp64 Hm64 mode_NE a b Ha Hb).
  unfold rnd64 in Hlt. simpl round_mode. rewrite Rlt_bool_true by exact Hlt.
  intros (H1 & H2 & _). auto.
Qed.
Lemma dsub_ok x y rx ry : is64 x rx -> is64 y ry ->
  (Rabs (rnd64 (rx - ry)) < bpow radix2 1024)%R -> is64 (dsub x y) (rnd64 (rx - ry)).
Proof.
  intros (a & -> & Ha & <-) (b & -> & Hb & <-) Hlt.
  exists (Bminus mode_NE a b). split; [apply SFsub_eq|].
  generalize (Bminus_correct 53 1024 Hp64 Hm64 mode_NE a b Ha Hb).
  unfold rnd64 in Hlt. simpl round_mode. rewrite Rlt_bool_true by exact Hlt.
  intros (H1 & H2 & _). auto.
Qed.
Lemma dsqrt_ok x rx : is64 x rx -> (0 <= rx)%R -> is64 (dsqrt x) (rnd64 (sqrt rx)).
Proof.
  intros (a & -> & Ha & <-) Hn. exists (Bsqrt mode_NE a). split; [apply SFsqrt_eq|].
  destruct (Bsqrt_correct 53 1024 Hp64 Hm64 mode_NE a) as (H1 & H2 & _).
  split; [|exact H1]. rewrite H2. destruct a as [s|s| |[|] m e H]; try easy.
  exfalso. revert Hn. simpl. apply Rlt_not_le. now apply F2R_lt_0.
Qed.

(** ** Truncation, floor and ceiling on the executable side *)
Lemma pow2_pos e : 0 <= e -> 0 < 2 ^ e. Proof. intros. now apply Z.pow_pos_nonneg. Qed.

Lemma SF2R_finite s m e :
  SF2R radix2 (S754_finite s m e) = (IZR (if s then Z.neg m else Z.pos m) * bpow radix2 e)%R.
Proof. unfold SF2R, F2R. simpl. now destruct s. Qed.

Lemma bpow_IZR e : 0 <= e -> bpow radix2 e = IZR (2 ^ e).
Proof. intros H. symmetry. exact (IZR_Zpower radix2 e H). Qed.
Lemma bpow_neg e : e < 0 -> bpow radix2 e = (/ IZR (2 ^ (- e)))%R.
Proof.
  intros. rewrite <- bpow_IZR by lia. rewrite bpow_opp. now rewrite Rinv_inv.
Qed.

Lemma Zfloor_of_ok f : is_finite_SF f = true -> Zfloor_of f = Some (Zfloor (SF2R radix2 f)).
Proof.
  destruct f as [s|s| |s m e]; try easy.
  - intros _. simpl. now rewrite (Zfloor_IZR 0).
  - intros _. rewrite SF2R_finite. unfold Zfloor_of.
    set (z := if s then Z.neg m else Z.pos m).
    destruct (Z.leb_spec 0 e).
    + rewrite bpow_IZR, <-mult_IZR, Zfloor_IZR by lia. reflexivity.
    + rewrite bpow_neg by lia. f_equal. symmetry. apply Zfloor_div.
      pose proof (pow2_pos (- e)). lia.
Qed.
Lemma Zceil_of_ok f : is_finite_SF f = true -> Zceil_of f = Some (Zceil (SF2R radix2 f)).
Proof.
  destruct f as [s|s| |s m e]; try easy.
  - intros _. simpl. now rewrite (Zceil_IZR 0).
  - intros _. rewrite SF2R_finite. unfold Zceil_of.
    set (z := if s then Z.neg m else Z.pos m).
    destruct (Z.leb_spec 0 e).
    + rewrite bpow_IZR, <-mult_IZR, Zceil_IZR by lia. reflexivity.
    + rewrite bpow_neg by lia. unfold Zceil. do 2 f_equal. symmetry.
      rewrite <-Ropp_mult_distr_l_reverse, <-opp_IZR. apply Zfloor_div.
      pose proof (pow2_pos (- e)). lia.
Qed.
Lemma flt_trunc_ok f : is_finite_SF f = true -> flt_trunc f = Some (Ztrunc (SF2R radix2 f)).
Proof.
  destruct f as [s|s| |s m e]; try easy.
  - intros _. simpl. now rewrite (Ztrunc_IZR 0).
  - intros _. rewrite SF2R_finite. unfold flt_trunc. 
    destruct (Z.leb_spec 0 e).
    + rewrite bpow_IZR, <-mult_IZR, Ztrunc_IZR by lia. f_equal. destruct s; lia.
    + rewrite bpow_neg by lia. pose proof (pow2_pos (- e) ltac:(lia)) as Hp. destruct s.
      * change (Z.neg m) with (- Z.pos m). rewrite opp_IZR, Ropp_mult_distr_l_reverse, Ztrunc_opp.
        do 2 f_equal. symmetry. rewrite Ztrunc_floor.
        -- apply Zfloor_div. lia.
        -- apply Rmult_le_pos; [apply IZR_le; lia|]. apply Rlt_le, Rinv_0_lt_compat, IZR_lt. lia.
      * f_equal. symmetry. rewrite Ztrunc_floor.
        -- apply Zfloor_div. lia.
        -- apply Rmult_le_pos; [apply IZR_le; lia|]. apply Rlt_le, Rinv_0_lt_compat, IZR_lt. lia.
Qed.

Lemma dbl_ceil_ok f r : is64 f r -> Z.abs (Zceil r) <= 2 ^ 53 ->
  is64 (dbl_ceil f) (IZR (Zceil r)).
Proof.
  intros Hf Hr. unfold dbl_ceil. rewrite Zceil_of_ok by (now apply is64_finite in Hf).
  rewrite (is64_R _ _ Hf). now apply dbl_of_Z_ok.
Qed.
Lemma dbl_floor_ok f r : is64 f r -> Z.abs (Zfloor r) <= 2 ^ 53 ->
  is64 (dbl_floor f) (IZR (Zfloor r)).
Proof.
  intros Hf Hr. unfold dbl_floor. rewrite Zfloor_of_ok by (now apply is64_finite in Hf).
  rewrite (is64_R _ _ Hf). now apply dbl_of_Z_ok.
Qed.
Lemma trunc_ok f r : is64 f r -> flt_trunc f = Some (Ztrunc r).
Proof.
  intros Hf. rewrite flt_trunc_ok by (now apply is64_finite in Hf). now rewrite (is64_R _ _ Hf).
Qed.

(** ** Quotients of small integers *)

(** The rounded quotient is off by less than 1/t. *)
Lemma rnd64_quot s t : 0 <= s < 2 ^ 52 -> 1 <= t <= 2 ^ 52 ->
  (Rabs (rnd64 (IZR s / IZR t) - IZR s / IZR t) < / IZR t)%R.
Proof.
  intros Hs Ht.
  assert (0 < IZR t)%R as Htp by (apply IZR_lt; lia).
  assert (0 < / IZR t)%R as Hti by now apply Rinv_0_lt_compat.
  destruct (Z.eq_dec s 0) as [->|Hs0].
  { unfold rnd64. replace (0 / IZR t)%R with 0%R by (unfold Rdiv; ring).
    rewrite round_0 by apply valid_rnd_N. rewrite Rminus_0_r, Rabs_R0. exact Hti. }
  assert (1 <= IZR s)%R as Hs1 by (apply IZR_le; lia).
  assert (/ IZR t <= IZR s / IZR t)%R as Hq.
  { unfold Rdiv. rewrite <-(Rmult_1_l (/ IZR t)) at 1. apply Rmult_le_compat_r; lra. }
  assert (0 < IZR s / IZR t)%R as Hqp by lra.
  unfold rnd64. change (SpecFloat.fexp 53 1024) with (FLT_exp (3 - 1024 - 53) 53).
  eapply Rle_lt_trans.
  { apply relative_error_N_FLT; [easy|].
    rewrite Rabs_pos_eq by lra. apply Rle_trans with (2 := Hq).
    apply Rle_trans with (bpow radix2 (- 52)).
    - apply bpow_le. lia.
    - rewrite bpow_neg by lia. apply Rinv_le; [exact Htp|]. apply IZR_le. lia. }
  rewrite Rabs_pos_eq by lra. unfold Rdiv.
  rewrite <-Rmult_assoc. rewrite <-(Rmult_1_l (/ IZR t)) at 2.
  apply Rmult_lt_compat_r; [exact Hti|].
  replace (/ 2 * bpow radix2 (- (53) + 1))%R with (bpow radix2 (-53)).
  2:{ change (/2)%R with (bpow radix2 (-1)). now rewrite <-bpow_plus. }
  apply Rlt_le_trans with (bpow radix2 (- 53) * bpow radix2 52)%R.
  - apply Rmult_lt_compat_l; [apply bpow_gt_0|]. rewrite bpow_IZR by lia. apply IZR_lt. lia.
  - rewrite <-bpow_plus. change 1%R with (bpow radix2 0). apply bpow_le. lia.
Qed.
Lemma rnd64_quot_exact s t : 0 <= s < 2 ^ 52 -> 1 <= t -> s mod t = 0 ->
  rnd64 (IZR s / IZR t) = IZR (s / t).
Proof.
  intros Hs Ht Hm. assert (IZR s / IZR t = IZR (s / t))%R as ->.
  { pose proof (Z.div_mod s t ltac:(lia)) as H. rewrite Hm, Z.add_0_r in H. rewrite H at 1.
    rewrite mult_IZR. field. apply not_0_IZR. lia. }
  apply round_generic; [apply valid_rnd_N|]. apply int_format.
  assert (0 <= s / t <= s) by (split; [apply Z.div_pos; lia|apply Z.div_le_upper_bound; nia]). lia.
Qed.

(** Position of an exact quotient between integers *)
Lemma quot_bounds s t : 1 <= t -> s mod t <> 0 ->
  (IZR (s / t) + / IZR t <= IZR s / IZR t <= IZR (s / t) + 1 - / IZR t)%R.
Proof.
  intros Ht Hm.
  assert (0 < IZR t)%R as Htp by (apply IZR_lt; lia).
  assert (0 < / IZR t)%R as Hti by now apply Rinv_0_lt_compat.
  pose proof (Z.div_mod s t ltac:(lia)) as H. pose proof (Z.mod_pos_bound s t ltac:(lia)).
  assert (IZR s / IZR t = IZR (s / t) + IZR (s mod t) * / IZR t)%R as ->.
  { rewrite H at 1. rewrite plus_IZR, mult_IZR. field. lra. }
  assert (1 <= IZR (s mod t) <= IZR t - 1)%R as [H1 H2].
  { split; [apply IZR_le; lia|]. rewrite <-minus_IZR. apply IZR_le. lia. }
  assert (IZR t * / IZR t = 1)%R by (apply Rinv_r; lra).
  split; [nra|nra].
Qed.

Lemma cdiv_mod s t : 1 <= t -> cdiv s t = if s mod t =? 0 then s / t else s / t + 1.
Proof.
  intros Ht. unfold cdiv. destruct (Z.eqb_spec (s mod t) 0) as [H|H].
  - rewrite Z.div_opp_l_z by lia. lia.
  - rewrite Z.div_opp_l_nz by lia. lia.
Qed.

Lemma quot_range s t : 0 <= s < 2 ^ 52 -> 1 <= t -> 0 <= s / t <= s.
Proof.
  intros. split; [apply Z.div_pos; lia|]. apply Z.div_le_upper_bound; nia.
Qed.

Lemma ceil_quot s t : 0 <= s < 2 ^ 52 -> 1 <= t <= 2 ^ 52 ->
  Zceil (rnd64 (IZR s / IZR t)) = cdiv s t.
Proof.
  intros Hs Ht. rewrite cdiv_mod by lia. pose proof (quot_range s t Hs ltac:(lia)).
  destruct (Z.eqb_spec (s mod t) 0) as [Hm|Hm].
  - rewrite rnd64_quot_exact by lia. apply Zceil_IZR.
  - pose proof (rnd64_quot s t Hs Ht) as He. pose proof (quot_bounds s t ltac:(lia) Hm) as Hb.
    apply Rabs_def2 in He. apply Zceil_imp.
    replace (s / t + 1 - 1) with (s / t) by lia. rewrite plus_IZR. lra.
Qed.
Lemma floor_quot s t : 0 <= s < 2 ^ 52 -> 1 <= t <= 2 ^ 52 ->
  Zfloor (rnd64 (IZR s / IZR t)) = s / t.
Proof.
  intros Hs Ht. pose proof (quot_range s t Hs ltac:(lia)).
  destruct (Z.eq_dec (s mod t) 0) as [Hm|Hm].
  - rewrite rnd64_quot_exact by lia. apply Zfloor_IZR.
  - pose proof (rnd64_quot s t Hs Ht) as He. pose proof (quot_bounds s t ltac:(lia) Hm) as Hb.
    apply Rabs_def2 in He. apply Zfloor_imp. rewrite plus_IZR. lra.
Qed.

Lemma rnd64_small s t : 0 <= s < 2 ^ 52 -> 1 <= t <= 2 ^ 52 ->
  (Rabs (rnd64 (IZR s / IZR t)) < bpow radix2 1024)%R.
Proof.
  intros Hs Ht.
  assert (0 < IZR t)%R as Htp by (apply IZR_lt; lia).
  assert (0 < / IZR t <= 1)%R as [Hti Hti1].
  { split; [now apply Rinv_0_lt_compat|]. rewrite <-Rinv_1. apply Rinv_le; [lra|]. apply IZR_le. lia. }
  pose proof (rnd64_quot s t Hs Ht) as He. apply Rabs_def2 in He.
  assert (0 <= IZR s / IZR t <= IZR s)%R as Hq.
  { assert (0 <= IZR s)%R by (apply IZR_le; lia). split; [apply Rmult_le_pos; lra|].
    unfold Rdiv. rewrite <-(Rmult_1_r (IZR s)) at 2. apply Rmult_le_compat_l; lra. }
  assert (IZR s <= IZR (2 ^ 52 - 1))%R by (apply IZR_le; lia).
  assert (bpow radix2 52 < bpow radix2 1024)%R by (apply bpow_lt; lia).
  rewrite bpow_IZR in H0 by lia. rewrite minus_IZR in H.
  apply Rabs_def1; lra.
Qed.

(** ceil of a quotient of ints, computed in double, is exact *)
Lemma ceil_div_double s t : 0 <= s < 2 ^ 52 -> 1 <= t <= 2 ^ 52 ->
  flt_trunc (dbl_ceil (ddiv (dbl_of_Z s) (dbl_of_Z t))) = Some (cdiv s t).
Proof.
  intros Hs Ht.
  assert (is64 (ddiv (dbl_of_Z s) (dbl_of_Z t)) (rnd64 (IZR s / IZR t))) as Hd.
  { apply ddiv_ok; [apply dbl_of_Z_ok; lia|apply dbl_of_Z_ok; lia| |now apply rnd64_small].
    apply not_0_IZR. lia. }
  assert (0 <= cdiv s t <= 2 ^ 52) as Hc.
  { rewrite cdiv_mod by lia. pose proof (quot_range s t Hs ltac:(lia)).
    destruct (_ =? _); lia. }
  apply dbl_ceil_ok in Hd.
  - rewrite ceil_quot in Hd by lia. apply trunc_ok in Hd. rewrite Hd. now rewrite Ztrunc_IZR.
  - rewrite ceil_quot by lia. lia.
Qed.
