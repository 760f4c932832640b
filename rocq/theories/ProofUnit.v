(** * ProofUnit: pooling with windows of one element *)
From stdpp Require Import gmap list list_numbers.
From Coq Require Import ZArith Lia Reals Lra Floats.SpecFloat.
From Coq Require Import ZifyBool ZifyNat.
From Flocq Require Import Core IEEE754.BinarySingleNaN.
From Verif Require Import Base Mem Spec SpecReal SpecNN SpecUnit ModelCore ModelBasic ModelNN.
From Verif Require Import Logic ProofCore ProofCore2 ProofFloat ProofFloat2 ProofFloat3 ProofIndex ProofKernel ProofKernel2
  ProofNN ProofPool2 ProofPool3 ProofAcc ProofMatmul PropPool PropNN.
Open Scope Z_scope.
Ltac Zify.zify_post_hook ::= idtac.

Lemma sign_of_R f : is_finite_SF f = true -> RV f <> 0%R -> (sign_SF f = true <-> (RV f < 0)%R).
Proof.
  destruct f as [s|s| |s m e]; try done; intros _ Hn. cbn [sign_SF]. unfold SF2R. destruct s; cbn [cond_Zopp].
  - split; [|done]. intros _. by apply F2R_lt_0.
  - split; [done|]. intros H. assert (0 < F2R (Float radix2 (Zpos m) e))%R by (by apply F2R_gt_0). lra.
Qed.
Lemma SF_inj_nz t f g : vb t f = true -> vb t g = true -> is_finite_SF f = true -> is_finite_SF g = true ->
  RV f = RV g -> RV f <> 0%R -> f = g.
Proof.
  intros Vf Vg Ff Fg HR Hn. apply (SF_inj t); try done.
  pose proof (sign_of_R f Ff Hn) as H1. pose proof (sign_of_R g Fg ltac:(congruence)) as H2. rewrite HR in H1.
  destruct (sign_SF f), (sign_SF g); try done; [symmetry; apply H2, H1; done|apply H1, H2; done].
Qed.
Lemma gt_zero d : vb F64 d = true -> (SFltb fzero d = true <-> (0 < RV d)%R \/ d = S754_infinity false).
Proof.
  intros V. destruct (gt0_spec F64 (VF d)) as (b & Hb & Hp); [by split|]. cbn in Hb. injection Hb as ->. exact Hp.
Qed.
Definition norm (d : spec_float) : spec_float := match d with S754_zero _ => fzero | d => d end.
Lemma norm_add d : dadd fzero d = norm d.
Proof. by destruct d as [[]|[]| |? ? ?]. Qed.
Lemma norm_div d : vb F64 d = true -> ddiv (norm d) (dbl_of_Z 1) = norm d.
Proof.
  intros V. destruct d as [s|s| |s m e]; try (by destruct s); [done|]. cbn [norm].
  destruct (ddiv_count (S754_finite s m e) 1 V ltac:(lia)) as (V' & F' & R'). cbn [is_finite_SF] in *.
  specialize (R' eq_refl). unfold Rdiv in R'. rewrite Rinv_1, Rmult_1_r in R'.
  assert (rnd F64 (RV (S754_finite s m e)) = RV (S754_finite s m e)) as Hr.
  { apply rnd_fmt. by apply (fmt_val F64). }
  rewrite Hr in R'. symmetry. apply (SF_inj_nz F64); try done. cbn [SF2R].
  destruct s; cbn [cond_Zopp].
  - apply Rlt_not_eq. by apply F2R_lt_0.
  - apply Rgt_not_eq. by apply F2R_gt_0.
Qed.

Lemma back t v d : val_ok t v -> in_double v -> to_double t v = Some d ->
  vb F64 d = true /\ of_double t d = Some v /\ of_double t (norm d) = Some (unsign_zero v) /\
  (SFltb fzero d = true <-> positive v).
Proof.
  intros Hok Hd Ht. destruct v as [z|f|]; [| |done]; unfold to_double in Ht; destruct Hok as [Hf Hv]; rewrite Hf in Ht; injection Ht as <-.
  - cbn [in_double] in Hd. pose proof (dbl_of_Z_ok z Hd) as H64.
    assert (vb F64 (dbl_of_Z z) = true) as V by (destruct H64 as (B & -> & _); apply valid_binary_B2SF).
    pose proof (flt_of_Z_trunc F64 z Hd) as Htr. change (flt_of_Z F64 z) with (dbl_of_Z z) in Htr.
    assert (forall e, flt_trunc e = Some z -> of_double t e = Some (VI z)) as Hof.
    { intros e He. unfold of_double. rewrite Hf, He. unfold in_range. destruct (_ && _) eqn:E; [done|lia]. }
    split; [done|]. split; [by apply Hof|]. split.
    + apply Hof. destruct (dbl_of_Z z) as [s|s| |s m e] eqn:E; try exact Htr.
    + rewrite gt_zero by done. rewrite (is64_R _ _ H64). apply is64_finite in H64. cbn [positive]. split.
      * intros [H|H]; [by apply lt_IZR|]. rewrite H in H64. done.
      * intros H. left. by apply IZR_lt.
  - pose proof (same_float_conv t f Hf Hv) as (V & H1 & H2). 
    assert (flt_conv t (flt_conv F64 f) = f) as Hb by (apply flt_conv_back; [destruct t; done..|done]).
    split; [done|]. split; [unfold of_double; by rewrite Hf, Hb|]. split.
    + unfold of_double. rewrite Hf. destruct f as [s|s| |s m e]; try done.
      cbn [unsign_zero]. destruct (flt_conv F64 (S754_finite s m e)) as [s'|s'| |s' m' e'] eqn:E; cbn [norm]; try (by rewrite Hb). discriminate Hb.
    + rewrite gt_zero by done. cbn [positive]. destruct (is_finite_SF f) eqn:Ff.
      * destruct (H2 eq_refl) as (F2 & R2 & _). rewrite R2. split; (intros [H|H]; [by left|exfalso]); [rewrite H in F2|rewrite H in Ff]; done.
      * rewrite H1 by done. done.
Qed.


(** ** Windows *)
Lemma win_ok_ones sd : Forall (fun d => 1 <= d <= 2 ^ 51) sd ->
  win_ok sd (ones (length sd)) (ones (length sd)) (zeros (length sd)) (ones (length sd)).
Proof.
  induction 1 as [|d sd Hd H IH]; [done|]. cbn. split; [|exact IH]. unfold win_ok1. lims. lia.
Qed.
Lemma win_outs_ones sd : win_outs sd (ones (length sd)) (ones (length sd)) (zeros (length sd)) (ones (length sd)) = sd.
Proof.
  induction sd as [|d sd IH]; [done|]. cbn. f_equal; [|exact IH]. unfold win_out. rewrite Z.div_1_r. lia.
Qed.
Lemma prod_ones n : prodZ (ones n) = 1.
Proof. induction n as [|n IH]; [done|]. unfold ones in *. cbn [replicate]. rewrite prodZ_cons, IH. done. Qed.
Lemma unravel_ones n : unravel (ones n) 0 = zeros n.
Proof.
  induction n as [|n IH]; [done|]. unfold ones, zeros in *. cbn [replicate unravel]. by rewrite IH, Zdiv_0_l, Zmod_0_l.
Qed.
Lemma win_coord_ones x : win_coord (ones (length x)) (zeros (length x)) (ones (length x)) x (zeros (length x)) = x.
Proof.
  unfold win_coord, ones, zeros. induction x as [|i x IH]; [done|]. cbn [length replicate zip_with]. rewrite IH. f_equal. lia.
Qed.
Lemma window_ones T nb nc sd b c x : a_dims T = nb :: nc :: sd -> in_box sd x ->
  let n := length sd in window T (ones n) (ones n) (zeros n) (ones n) b c x = [at_ T (b :: c :: x)].
Proof.
  intros HT Hx n. unfold window, coords. rewrite prod_ones. change (Z.to_nat 1) with 1%nat. change (seq 0 1) with [0%nat].
  cbn [fmap list_fmap]. change (Z.of_nat 0) with 0. rewrite unravel_ones. cbn [omap list_omap]. subst n. pose proof (Forall2_length _ _ _ Hx) as Hl. rewrite Hl, win_coord_ones, HT. cbn [drop].
  rewrite decide_True by done. done.
Qed.

Section unit.
  Context (p : nat) (T : atensor) (nb nc : Z) (sd : list Z) (o : hval) (E : env) (s : st).
  Context (Hwf : wf s) (HE : alloc_all E) (HH : hooks_ok E) (Hp : holds (heap s) p T).
  Context (HT : a_dims T = nb :: nc :: sd) (Hl : (1 <= length sd <= 3)%nat) (Hs : Forall (fun d => 1 <= d <= 2 ^ 51) sd).
  Context (Hc : prodZ sd <= INT_MAX) (Hfu : (Z.to_nat (prodZ sd) <= e_fuel E)%nat) (Hi : init T).
  Context (Hd : Forall in_double (a_vals T)).

  Lemma elem_facts c : in_box (a_dims T) c -> val_ok (a_type T) (at_ T c) /\ in_double (at_ T c).
  Proof using Hp Hi Hd.
    intros Hb. pose proof (holds_valid _ _ _ Hp) as V. unfold init in Hi. rewrite Forall_forall in Hi, Hd.
    split; [apply Hi|apply Hd]; by apply at_elem.
  Qed.
  Lemma elem_double c : in_box (a_dims T) c -> exists d, to_double (a_type T) (at_ T c) = Some d.
  Proof using Hp Hi Hd.
    intros Hb. destruct (elem_facts c Hb) as [Hok Hin]. destruct (at_ T c) as [z|f|]; [| |done]; destruct Hok as [Hf _];
      unfold to_double; rewrite Hf; eauto.
  Qed.
  Lemma fuel_pos : (1 <= e_fuel E)%nat.
  Proof using Hs Hfu.
    assert (0 < prodZ sd) as H; [|clear -H Hfu; lia]. clear -Hs. induction Hs as [|d l Hd' Hl' IH]; [done|]. rewrite prodZ_cons. specialize (IH Hl'). nia.
  Qed.
  Lemma avg_ones : let n := length sd in
    makes (aitisa_pooling (HPtr p) PAvg (ones n) (ones n) (zeros n) (ones n) o) E s
      (AT (a_type T) (a_dev T) (a_dims T) (unsign_zero <$> a_vals T)).
  Proof using Hwf HE HH Hp HT Hl Hs Hc Hfu Hi Hd.
    intros n. pose proof (holds_valid _ _ _ Hp) as V. pose proof fuel_pos as Hf1.
    eapply (C41_average p T _ nb nc sd (ones n) (ones n) (zeros n) (ones n)); try done.
    - by apply win_ok_ones.
    - rewrite prod_ones. lims. lia.
    - subst n. by rewrite win_outs_ones.
    - rewrite prod_ones. exact Hf1.
    - subst n. by rewrite win_outs_ones.
    - subst n. cbn [a_dims]. by rewrite win_outs_ones.
    - destruct V as [V1 V2]. split; [exact V1|]. cbn [a_vals a_dims a_type]. by rewrite fmap_length.
    - cbn [a_dims]. intros b c x Hx. assert (in_box sd x) as Hx'.
      { rewrite HT in Hx. inversion Hx as [|? ? ? ? _ Hy]; subst. inversion Hy; subst. done. }
      subst n. rewrite (window_ones T nb nc sd b c x HT Hx'), prod_ones.
      destruct (elem_double _ Hx) as [d Hdd]. destruct (elem_facts _ Hx) as [Hok Hin].
      destruct (back _ _ _ Hok Hin Hdd) as (Vd & _ & Hn & _).
      unfold pool_avg. cbn [mapM]. rewrite Hdd. cbn [mbind option_bind mret option_ret foldl].
      rewrite norm_add, norm_div, Hn by done. f_equal. unfold at_. cbn [a_vals a_dims]. rewrite list_lookup_fmap.
      by destruct (a_vals T !! _).
  Qed.
  Lemma max_ones : let n := length sd in exists ws, Forall2 (relu_spec (a_type T)) (a_vals T) ws /\
    makes (aitisa_pooling (HPtr p) PMax (ones n) (ones n) (zeros n) (ones n) o) E s (AT (a_type T) (a_dev T) (a_dims T) ws) /\
    makes (aitisa_relu (HPtr p) o) E s (AT (a_type T) (a_dev T) (a_dims T) ws).
  Proof using Hwf HE HH Hp HT Hl Hs Hc Hfu Hi Hd.
    intros n. pose proof (holds_valid _ _ _ Hp) as V. pose proof fuel_pos as Hf1.
    destruct (C37_total T Hi) as (ws & Hws & Hwo). exists ws. split; [exact Hws|]. split.
    2: { destruct (C37_relu p T ws o E s Hwf Hp Hi Hws) as [H|[H _]]; [exact H|]. by destruct (H HE). }
    eapply (C42_computes p T _ nb nc sd (ones n) (ones n) (zeros n) (ones n)); try done.
    - by apply win_ok_ones.
    - rewrite prod_ones. lims. lia.
    - subst n. by rewrite win_outs_ones.
    - rewrite prod_ones. exact Hf1.
    - subst n. by rewrite win_outs_ones.
    - subst n. cbn [a_dims]. by rewrite win_outs_ones.
    - destruct V as [V1 V2]. split; [exact V1|]. cbn [a_vals a_dims a_type]. by rewrite <-(Forall2_length _ _ _ Hws).
    - cbn [a_dims]. intros b c x Hx. assert (in_box sd x) as Hx'.
      { rewrite HT in Hx. inversion Hx as [|? ? ? ? _ Hy]; subst. inversion Hy; subst. done. }
      subst n. rewrite (window_ones T nb nc sd b c x HT Hx').
      destruct (elem_double _ Hx) as [d Hdd]. destruct (elem_facts _ Hx) as [Hok Hin].
      destruct (back _ _ _ Hok Hin Hdd) as (Vd & Hb & _ & Hpos).
      assert (relu_spec (a_type T) (at_ T (b :: c :: x)) (at_ (AT (a_type T) (a_dev T) (a_dims T) ws) (b :: c :: x))) as [R1 R2].
      { unfold at_. cbn [a_vals a_dims]. pose proof (at_elem T _ V Hx) as He.
        destruct (a_vals T !! Z.to_nat (ravel (a_dims T) (b :: c :: x))) as [v|] eqn:Hv.
        - destruct (Forall2_lookup_l _ _ _ _ _ Hws Hv) as (w & -> & Hw). exact Hw.
        - exfalso. unfold at_ in Hok. rewrite Hv in Hok. done. }
      unfold pool_max0. cbn [mapM]. rewrite Hdd. cbn [mbind option_bind mret option_ret foldl].
      destruct (SFltb fzero d) eqn:Hlt.
      + rewrite Hb. f_equal. symmetry. apply R1. by apply Hpos.
      + rewrite of_double_zero. f_equal. symmetry. apply R2. intros H%Hpos. done.
  Qed.
End unit.
