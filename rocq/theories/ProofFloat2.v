(** * ProofFloat2: conversions between integer and float formats *)
From Coq Require Import ZArith Lia Reals Lra Floats.SpecFloat.
From Flocq Require Import Core IEEE754.BinarySingleNaN.
From Verif Require Import Base Spec ProofFloat.
Open Scope Z_scope.

Definition Hp (t : tcode) : Prec_gt_0 (fprec t) :=
  match t with F32 => Hp32 | _ => Hp64 end.
Definition Hm (t : tcode) : Prec_lt_emax (fprec t) (femax t) :=
  match t with F32 => Hm32 | _ => Hm64 end.
Global Existing Instance Hp. Global Existing Instance Hm.
Notation fmt t := (generic_format radix2 (SpecFloat.fexp (fprec t) (femax t))).
Notation vb t := (valid_binary (fprec t) (femax t)).

Lemma bin_of (t : tcode) f : vb t f = true -> exists b : binary_float (fprec t) (femax t), f = B2SF b.
Proof. intros H. exists (SF2B f H). now rewrite B2SF_SF2B. Qed.
Lemma fmt_B2R t (b : binary_float (fprec t) (femax t)) : fmt t (B2R b).
Proof. apply generic_format_B2R. Qed.
Lemma fmt_val t f : vb t f = true -> fmt t (SF2R radix2 f).
Proof. intros H. destruct (bin_of t f H) as [b ->]. rewrite SF2R_B2SF. apply fmt_B2R. Qed.
Lemma val_small t f : vb t f = true -> (Rabs (SF2R radix2 f) < bpow radix2 (femax t))%R.
Proof. intros H. destruct (bin_of t f H) as [b ->]. rewrite SF2R_B2SF. apply abs_B2R_lt_emax. Qed.

(** Finite floats of one format with the same sign and value are the same. *)
Lemma SF_inj t f g : vb t f = true -> vb t g = true ->
  is_finite_SF f = true -> is_finite_SF g = true ->
  SF2R radix2 f = SF2R radix2 g -> sign_SF f = sign_SF g -> f = g.
Proof.
  intros Hf Hg Ff Fg HR HS.
  assert (SF2B f Hf = SF2B g Hg) as He.
  { apply B2R_Bsign_inj; rewrite ?is_finite_SF2B, ?B2R_SF2B, ?Bsign_SF2B; auto. }
  rewrite <-(B2SF_SF2B _ _ f Hf), <-(B2SF_SF2B _ _ g Hg). now rewrite He.
Qed.

(** ** Integers *)
Lemma int_fmt t z : Z.abs z <= 2 ^ fprec t -> fmt t (IZR z).
Proof.
  intros Hz. assert (0 < fprec t) as Hpp by (destruct t; easy).
  assert (fprec t < femax t) as Hpe by (destruct t; easy).
  change (SpecFloat.fexp (fprec t) (femax t)) with (FLT_exp (3 - femax t - fprec t) (fprec t)).
  assert (generic_format radix2 (FLT_exp (3 - femax t - fprec t) (fprec t)) (bpow radix2 (fprec t))) as Hb.
  { apply generic_format_bpow. unfold FLT_exp. destruct t; easy. }
  destruct (Z.eq_dec (Z.abs z) (2 ^ fprec t)) as [He|Hne].
  - rewrite bpow_IZR in Hb by lia.
    assert (z = 2 ^ fprec t \/ z = - 2 ^ fprec t) as [-> | ->] by lia; [exact Hb|].
    rewrite opp_IZR. now apply generic_format_opp.
  - apply generic_format_FLT. exists (Float radix2 z 0).
    + unfold F2R. simpl. ring.
    + cbn -[Z.pow]. change (Z.pow_pos 2) with (fun p => 2 ^ Z.pos p). lia.
    + simpl. lia.
Qed.

Lemma flt_of_Z_valid t z : vb t (flt_of_Z t z) = true.
Proof. unfold flt_of_Z. rewrite (binary_normalize_eq (fprec t) (femax t)). apply valid_binary_B2SF. Qed.

Lemma flt_of_Z_exact t z : Z.abs z <= 2 ^ fprec t ->
  is_finite_SF (flt_of_Z t z) = true /\ SF2R radix2 (flt_of_Z t z) = IZR z.
Proof.
  intros Hz. unfold flt_of_Z. rewrite (binary_normalize_eq (fprec t) (femax t)).
  rewrite is_finite_SF_B2SF, SF2R_B2SF.
  generalize (binary_normalize_correct (fprec t) (femax t) (Hp t) (Hm t) mode_NE z 0 false). cbv zeta.
  replace (F2R (Float radix2 z 0)) with (IZR z) by (unfold F2R; simpl; ring).
  assert (fmt t (IZR z)) as Hfm by now apply int_fmt.
  rewrite (round_generic radix2 _ _ (IZR z) Hfm).
  rewrite Rlt_bool_true.
  - intros (H1 & H2 & _). auto.
  - rewrite <- abs_IZR. apply Rle_lt_trans with (IZR (2 ^ fprec t)).
    + now apply IZR_le.
    + rewrite <-bpow_IZR by (destruct t; easy). apply bpow_lt. now destruct t.
Qed.

Lemma flt_of_Z_trunc t z : Z.abs z <= 2 ^ fprec t -> flt_trunc (flt_of_Z t z) = Some z.
Proof.
  intros Hz. destruct (flt_of_Z_exact t z Hz) as [H1 H2].
  rewrite flt_trunc_ok by exact H1. now rewrite H2, Ztrunc_IZR.
Qed.

(** ** Between formats *)
Lemma flt_conv_valid t f : vb t (flt_conv t f) = true.
Proof.
  destruct f as [s|s| |s m e]; try reflexivity. unfold flt_conv.
  rewrite (binary_round_eq (fprec t) (femax t)).
  apply (binary_round_correct (fprec t) (femax t) (Hp t) (Hm t) mode_NE s m e).
Qed.

(** A conversion rounds the real value (unless it overflows). *)
Lemma flt_conv_R t s m e (f := S754_finite s m e) :
  let r := round radix2 (SpecFloat.fexp (fprec t) (femax t)) ZnearestE (SF2R radix2 f) in
  (Rabs r < bpow radix2 (femax t))%R ->
  SF2R radix2 (flt_conv t f) = r /\ is_finite_SF (flt_conv t f) = true /\ sign_SF (flt_conv t f) = s.
Proof.
  intros r Hr. unfold f, flt_conv.
  rewrite (binary_round_eq (fprec t) (femax t)).
  destruct (binary_round_correct (fprec t) (femax t) (Hp t) (Hm t) mode_NE s m e) as [_ H].
  cbv zeta in H. rewrite Rlt_bool_true in H by exact Hr. exact H.
Qed.

Lemma flt_conv_exact t s m e (f := S754_finite s m e) :
  fmt t (SF2R radix2 f) -> (Rabs (SF2R radix2 f) < bpow radix2 (femax t))%R ->
  SF2R radix2 (flt_conv t f) = SF2R radix2 f /\ is_finite_SF (flt_conv t f) = true
  /\ sign_SF (flt_conv t f) = s.
Proof.
  intros Hf Hs.
  pose proof (flt_conv_R t s m e) as H. cbv zeta in H. fold f in H.
  rewrite (round_generic radix2 _ _ _ Hf) in H. now apply H.
Qed.

Lemma flt_conv_same t f : vb t f = true -> flt_conv t f = f.
Proof.
  intros H. destruct f as [s|s| |s m e]; try reflexivity.
  destruct (flt_conv_exact t s m e) as (H1 & H2 & H3).
  - now apply fmt_val.
  - now apply val_small.
  - apply (SF_inj t); auto. apply flt_conv_valid.
Qed.

Lemma fmt_incl t t' x : fprec t <= fprec t' -> 3 - femax t' - fprec t' <= 3 - femax t - fprec t ->
  fmt t x -> fmt t' x.
Proof.
  intros H1 H2. apply generic_inclusion_mag. intros _. unfold SpecFloat.fexp, SpecFloat.emin. lia.
Qed.

Lemma flt_conv_back t t' f : fprec t <= fprec t' -> femax t <= femax t' ->
  3 - femax t' - fprec t' <= 3 - femax t - fprec t -> vb t f = true ->
  flt_conv t (flt_conv t' f) = f.
Proof.
  intros Hp1 Hp2 Hp3 H. destruct f as [s|s| |s m e]; try reflexivity.
  pose proof (fmt_val _ _ H) as Hf. pose proof (val_small _ _ H) as Hs.
  destruct (flt_conv_exact t' s m e) as (H1 & H2 & H3).
  { now apply (fmt_incl t). }
  { eapply Rlt_le_trans; [exact Hs|]. now apply bpow_le. }
  destruct (flt_conv t' (S754_finite s m e)) as [s'|s'| |s' m' e'] eqn:Hc; try discriminate.
  - exfalso. cbn in H1. symmetry in H1. destruct s.
    + revert H1. apply Rlt_not_eq. now apply F2R_lt_0.
    + revert H1. apply Rgt_not_eq. now apply F2R_gt_0.
  - cbn in H3. subst s'.
    destruct (flt_conv_exact t s m' e') as (H4 & H5 & H6); [now rewrite H1|now rewrite H1|].
    apply (SF_inj t); auto. { apply flt_conv_valid. } now rewrite H4, H1.
Qed.

(** ** Results of arithmetic are well-formed floats *)
Lemma flt_op_valid t o x y : vb t x = true -> vb t y = true -> vb t (flt_op t o x y) = true.
Proof.
  intros Hx Hy. destruct (bin_of t x Hx) as [a ->], (bin_of t y Hy) as [b ->].
  destruct o; unfold flt_op.
  - rewrite (SFadd_eq (fprec t) (femax t)). apply valid_binary_B2SF.
  - rewrite (SFsub_eq (fprec t) (femax t)). apply valid_binary_B2SF.
  - rewrite (SFmul_eq (fprec t) (femax t)). apply valid_binary_B2SF.
  - rewrite (SFdiv_eq (fprec t) (femax t)). apply valid_binary_B2SF.
Qed.
Lemma dsqrt_valid x : vb F64 x = true -> vb F64 (dsqrt x) = true.
Proof.
  intros Hx. destruct (bin_of F64 x Hx) as [a ->]. unfold dsqrt.
  rewrite (SFsqrt_eq (fprec F64) (femax F64)). apply valid_binary_B2SF.
Qed.
