(** * ProofNarrow2: relu commutes with conversions *)
From stdpp Require Import gmap list.
From Coq Require Import ZArith Lia Reals Lra Floats.SpecFloat.
From Flocq Require Import Core.
From Verif Require Import Base Mem Spec SpecReal SpecNN SpecRing SpecCommute ModelCore ModelBasic ModelMath ModelNN.
From Verif Require Import Logic ProofCore ProofCore2 ProofCast ProofLaws ProofNeg5 ProofRing PropBasic PropNN.
Open Scope Z_scope.

Definition rv (v : val) : val := match v with VI z => VI (Z.max 0 z) | VF f => VF (rl f) | v => v end.
Lemma relu_rv t v : val_ok t v -> relu_spec t v (rv v).
Proof.
  destruct v as [z|f|]; cbn [val_ok rv]; [|intros [H _]; by apply relu_rl|done]. intros [H _].
  unfold relu_spec, zero_val. rewrite H. cbn [positive]. split; intros; f_equal; lia.
Qed.
Lemma rv_ok t v : val_ok t v -> val_ok t (rv v).
Proof.
  destruct v as [z|f|]; cbn [val_ok rv]; [|intros [H1 H2]; split; [done|]; unfold rl; by destruct (above f)|done].
  intros [H1 H2]. split; [done|]. pose proof (in_zero t). lia.
Qed.
Definition signed_as (s : bool) (f : spec_float) : Prop := match f with S754_zero b | S754_infinity b | S754_finite b _ _ => b = s | S754_nan => True end.
Lemma round_signed p e s m x : signed_as s (binary_round p e s m x).
Proof.
  unfold binary_round. destruct (shl_align _ _ _). unfold binary_round_aux. destruct (shr_fexp _ _ _ _ _) as [r q].
  destruct (shr_fexp _ _ _ _ _) as [r' q']. destruct (shr_m r'); [done| |done]. by destruct (_ <=? _).
Qed.
Lemma rl_pos f : signed_as false f -> f <> S754_nan -> rl f = f.
Proof. destruct f as [b|b| |b m e]; cbn; intros; subst; done. Qed.
Lemma rl_neg f : signed_as true f -> rl f = fzero.
Proof. destruct f as [b|b| |b m e]; cbn; intros; subst; done. Qed.

Lemma cast_rv t u v w : val_ok t v -> (is_float t = false -> is_float u = false -> contains u t) ->
  cast_val t u v = Some w -> cast_val t u (rv v) = Some (rv w).
Proof.
  intros Hv Hc Hw. pose proof (cast_val_spec t u v Hv) as Hs. rewrite Hw in Hs.
  destruct v as [z|f|]; cbn [val_ok] in Hv; [| |done]; destruct Hv as [Ht Hr]; cbn [cast_val rv] in *; rewrite Ht in *; destruct (is_float u) eqn:Hu.
  - injection Hw as <-. cbn [rv]. do 2 f_equal. unfold conv_spec in Hs. rewrite Hu in Hs. destruct Hs as (g & [= <-] & _ & Hfin & _). unfold flt_of_Z in *.
    destruct z as [|z|z]; [done|change (0 `max` Z.pos z) with (Z.pos z)|change (0 `max` Z.neg z) with 0].
    + symmetry. apply rl_pos; [apply round_signed|]. intros E. by rewrite E in Hfin.
    + symmetry. apply rl_neg. apply round_signed.
  - injection Hw as <-. cbn [rv]. do 2 f_equal. specialize (Hc eq_refl eq_refl). unfold contains in Hc. rewrite Ht, Hu in Hc.
    pose proof (in_zero u). rewrite !wrap_id by lia. done.
  - injection Hw as <-. cbn [rv]. do 2 f_equal. unfold conv_spec in Hs. rewrite Hu in Hs. destruct Hs as (g & [= <-] & _ & _ & H1 & H2).
    destruct f as [b|b| |b m e]; try (by destruct b); [done|].
    assert (flt_conv u (S754_finite b m e) <> S754_nan) as Hn.
    { destruct (Rlt_or_le (Rabs (rnd u (RV (S754_finite b m e)))) (bpow radix2 (femax u))) as [Hl|Hl].
      - destruct (H1 eq_refl Hl) as (_ & Hf & _). intros E. by rewrite E in Hf.
      - rewrite (H2 eq_refl Hl). done. }
    clear H1 H2. unfold rl at 1. destruct b; cbn [above negb].
    + symmetry. apply rl_neg. apply round_signed.
    + symmetry. apply rl_pos; [apply round_signed|done].
  - destruct (flt_trunc f) as [z|] eqn:Hz; [|done]. destruct (in_range u z) eqn:Hi; [|done]. injection Hw as <-. cbn [rv].
    assert (if above f then 0 <= z else z <= 0) as Hsg.
    { destruct f as [b|b| |b m e]; try done; [by injection Hz as <-|]. cbn in Hz. injection Hz as <-. cbn [above].
      assert (0 <= (if 0 <=? e then Z.pos m * 2 ^ e else Z.pos m / 2 ^ (- e))) as Ha.
      { destruct (Z.leb_spec 0 e); [apply Z.mul_nonneg_nonneg; [done|by apply Z.pow_nonneg]|].
        apply Z.div_pos; [done|]. apply Z.pow_pos_nonneg; lia. }
      destruct b; cbn [negb]; lia. }
    unfold rl. destruct (above f).
    + rewrite Hz, Hi. do 2 f_equal. lia.
    + cbn. assert (in_range u 0 = true) as -> by (pose proof (in_zero u); unfold in_range; lia). do 2 f_equal. lia.
Qed.

Lemma relu_cast ex u A : valid A -> init A -> u <> a_type A -> fits (tsz u) (a_dims A) ->
  (is_float (a_type A) = false -> is_float u = false -> contains u (a_type A)) ->
  Forall (fun v => cast_val (a_type A) u v <> None) (a_vals A) ->
  commute1 ex (fun p o => aitisa_relu p o) (fun p o => aitisa_cast p (dtype_of u) o) A.
Proof.
  intros V I Hne Hfit Hc HD.
  assert (exists ws, Forall2 (fun v w => cast_val (a_type A) u v = Some w) (a_vals A) ws /\
    Forall2 (fun v w => cast_val (a_type A) u v = Some w) (rv <$> a_vals A) (rv <$> ws) /\ Forall (val_ok u) ws) as (ws & W1 & W2 & W3).
  { unfold init in I. clear -I Hc HD. induction I as [|v vs Hv _ IH]; [exists []; split_and!; constructor|].
    inversion HD as [|? ? Hd HD']; subst. destruct (IH HD') as (ws & W1 & W2 & W3).
    destruct (cast_val (a_type A) u v) as [w|] eqn:E; [|done]. exists (w :: ws). cbn [fmap list_fmap].
    split_and!; constructor; try done; [by eapply cast_rv|]. by eapply cast_val_ok. }
  assert (forall t vs, Forall (val_ok t) vs -> Forall2 (relu_spec t) vs (rv <$> vs)) as HR.
  { intros t vs H. induction H as [|v vs Hv _ IH]; [constructor|]. cbn [fmap list_fmap]. constructor; [by apply relu_rv|exact IH]. }
  exists (AT (a_type A) (a_dev A) (a_dims A) (rv <$> a_vals A)), (AT u (a_dev A) (a_dims A) ws), (AT u (a_dev A) (a_dims A) (rv <$> ws)). split_and!.
  - intros p o E s W HE HK _ Hh. apply (makes_enough E HE _ s o). apply C37_relu; try done. by apply HR.
  - intros p o E s W HE HK _ Hh. apply (makes_enough E HE _ s o). by apply C16_cast.
  - intros p o E s W HE HK _ Hh. apply (makes_enough E HE _ s o). by apply (C16_cast E s p (AT (a_type A) (a_dev A) (a_dims A) (rv <$> a_vals A))).
  - intros p o E s W HE HK _ Hh. apply (makes_enough E HE _ s o). apply (C37_relu p (AT u (a_dev A) (a_dims A) ws)); try done. by apply HR.
Qed.
