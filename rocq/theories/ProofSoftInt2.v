(** * ProofSoftInt2: lanes of integers *)
From stdpp Require Import gmap list list_numbers.
From Coq Require Import ZArith Lia ZifyBool ZifyNat Reals Lra Floats.SpecFloat.
From Flocq Require Import Core IEEE754.BinarySingleNaN.
From Verif Require Import Base Mem Spec SpecReal SpecNN SpecError SpecSoft SpecExp SpecSoftInt.
From Verif Require Import ProofFloat ProofFloat2 ProofFloat3 ProofFloat4 ProofError ProofNN ProofSoft ProofExp ProofExp2 ProofExp3 ProofSoftInt.
Open Scope Z_scope.

(** ** Sums of integers in double *)
Definition big : R := bpow radix2 118.
Lemma fmt_big : fmt F64 big.
Proof. apply generic_format_bpow. vm_compute. discriminate. Qed.
Lemma add_big a b : (a <= big)%R -> (b <= bpow radix2 64)%R -> (rnd F64 (a + b) <= big)%R.
Proof.
  intros Ha Hb. unfold rnd. apply round_N_le_midp; [exact _|exact fmt_big|].
  rewrite succ_eq_pos by apply bpow_ge_0. unfold big in *. rewrite ulp_bpow.
  change (SpecFloat.fexp (fprec F64) (femax F64) (118 + 1)) with 66.
  assert (bpow radix2 66 = 4 * bpow radix2 64)%R as -> by (change 4%R with (bpow radix2 2); by rewrite <-bpow_plus).
  pose proof (bpow_gt_0 radix2 64). lra.
Qed.

Lemma dbl_good w : 0 <= w <= 2 ^ 64 -> good_d (dbl_of_Z w) /\ (RV (dbl_of_Z w) <= bpow radix2 64)%R /\
  RV (dbl_of_Z w) = rnd F64 (IZR w).
Proof.
  intros Hw. pose proof (dbl_abs w ltac:(lia)) as Hd. pose proof (is64_R _ _ Hd) as Hr.
  split; [|split; [|exact Hr]].
  - split; [exact (is64_valid _ _ Hd)|]. split; [exact (is64_finite _ _ Hd)|]. rewrite Hr. apply rnd_nonneg. apply (IZR_le 0). lia.
  - rewrite Hr. rewrite <-(rnd_fmt F64 (bpow radix2 64)) by (apply generic_format_bpow; vm_compute; discriminate).
    apply rnd_le. rewrite bpow_IZR by lia. apply IZR_le. lia.
Qed.

Lemma dadd_good S d : good_d S -> (RV S <= big)%R -> good_d d -> (RV d <= bpow radix2 64)%R ->
  good_d (dadd S d) /\ (RV (dadd S d) <= big)%R /\ RV (dadd S d) = rnd F64 (RV S + RV d).
Proof.
  intros (Vs & Fs & Ps) HS (Vd & Fd & Pd) Hd.
  assert (0 <= rnd F64 (RV S + RV d))%R as Hn by (apply rnd_nonneg; lra).
  pose proof (add_big _ _ HS Hd) as Hb.
  destruct (flt_op_spec F64 OpAdd S d Vs Vd Fs Fd ltac:(done)) as [Hop _]. destruct Hop as [Ff Fr].
  { cbn [op_real]. rewrite Rabs_pos_eq by done. eapply Rle_lt_trans; [exact Hb|]. by apply bpow_lt. }
  change (dadd S d) with (flt_op F64 OpAdd S d). cbn [op_real] in Fr. rewrite Fr.
  split; [|done]. split; [by apply flt_op_valid|]. split; [exact Ff|]. by rewrite Fr.
Qed.

Lemma sum_int ws : Forall (fun w => 0 <= w <= 2 ^ 64) ws ->
  let S := foldl dadd fzero (dbl_of_Z <$> ws) in
  good_d S /\ (RV S <= big)%R /\ Forall (fun w => (RV (dbl_of_Z w) <= RV S)%R) ws /\
  (Forall (fun w => w = 0) ws -> RV S = 0%R) /\
  (foldr Z.add 0 ws <= 2 ^ 53 -> RV S = IZR (foldr Z.add 0 ws)).
Proof.
  induction ws as [|w ws IH] using rev_ind; intros Hw S.
  - cbn in S. unfold S. split; [split_and!; [done|done|cbn; lra]|]. split; [apply bpow_ge_0|]. split; [constructor|].
    split; [done|]. intros _. done.
  - apply Forall_app in Hw as [Hw [Hw1 _]%Forall_cons]. destruct (IH Hw) as (G & B & M & Z0 & SE). clear IH.
    assert (S = dadd (foldl dadd fzero (dbl_of_Z <$> ws)) (dbl_of_Z w)) as ES.
    { unfold S. by rewrite fmap_app, foldl_app. }
    set (S0 := foldl dadd fzero (dbl_of_Z <$> ws)) in *.
    destruct (dbl_good w Hw1) as (Gd & Bd & Rd). destruct (dadd_good S0 (dbl_of_Z w) G B Gd Bd) as (G2 & B2 & R2).
    rewrite ES. split; [done|]. split; [done|].
    pose proof G as (VS & FS & PS). pose proof Gd as (VD & FD & PD).
    split; [|split].
    + rewrite R2. apply Forall_app. split.
      * eapply Forall_impl; [exact M|]. cbv beta. intros b Hb. eapply Rle_trans; [exact Hb|].
        rewrite <-(rnd_fmt F64 (RV S0)) at 1 by by apply fmt_val. apply rnd_le. lra.
      * apply Forall_singleton. rewrite <-(rnd_fmt F64 (RV (dbl_of_Z w))) at 1 by by apply fmt_val. apply rnd_le. lra.
    + intros H. apply Forall_app in H as [H [-> _]%Forall_cons]. rewrite R2, (Z0 H), Rd.
      rewrite rnd_0, Rplus_0_l. apply rnd_0.
    + rewrite foldr_app. cbn [foldr]. 
      assert (forall a l, foldr Z.add a l = foldr Z.add 0 l + a) as Hf.
      { intros a l. induction l as [|x l IHl]; cbn; lia. }
      rewrite Hf. intros Hs.
      assert (0 <= foldr Z.add 0 ws) as Hp.
      { clear -Hw. induction Hw as [|x l Hx _ IHl]; cbn; lia. }
      rewrite R2, SE, Rd by lia. rewrite (rnd_Z w) by lia. rewrite <-plus_IZR, Z.add_0_r. apply rnd_Z. lia.
Qed.

(** ** Quotients *)
Lemma pred_one : pred radix2 (SpecFloat.fexp 53 1024) 1 = (1 - bpow radix2 (-53))%R.
Proof. change 1%R with (bpow radix2 0). rewrite pred_bpow. done. Qed.

Lemma quot_below a b : fmt F64 a -> fmt F64 b -> (0 <= a < b)%R -> (rnd F64 (a / b) < 1)%R.
Proof.
  intros Fa Fb [Ha Hab].
  assert (fmt F64 1%R) as F1 by (apply (fmt_int F64 1); done).
  assert (rnd F64 (a / b) <= pred radix2 (SpecFloat.fexp 53 1024) 1)%R as H.
  { unfold rnd. apply round_N_le_midp; [exact _|apply generic_format_pred; [exact _|exact F1]|].
    change (fprec F64) with 53. change (femax F64) with 1024.
    rewrite succ_pred; [|exact _|exact F1]. rewrite pred_one.
    assert (succ radix2 (SpecFloat.fexp 53 1024) a <= b)%R as Hs by (apply succ_le_lt; [exact _|exact Fa|exact Fb|exact Hab]).
    rewrite succ_eq_pos in Hs by done.
    pose proof (ulp_FLT_gt radix2 (3 - 1024 - 53) 53 (prec_gt_0_ := Hp64) a) as Hu.
    change (FLT_exp (3 - 1024 - 53) 53) with (SpecFloat.fexp 53 1024) in Hu.
    rewrite Rabs_pos_eq in Hu by done. change (- (53)) with (-53) in Hu.
    set (e := bpow radix2 (-53)) in *.
    assert (0 < e <= / 2)%R as He.
    { split; [apply bpow_gt_0|]. apply (bpow_le radix2 _ (-1)). lia. }
    apply (Rmult_lt_reg_r b); [lra|]. unfold Rdiv at 1. rewrite Rmult_assoc, Rinv_l, Rmult_1_r by lra. nra. }
  rewrite pred_one in H. pose proof (bpow_gt_0 radix2 (-53)). lra.
Qed.

Section lanes.
Context (t : tcode) (Ht : is_float t = false).

Lemma quot_int d S : good_d d -> good_d S -> (RV d <= RV S)%R -> (0 < RV S)%R ->
  exists u, of_double t (ddiv d S) = Some (VI u) /\ (u = 0 \/ u = 1) /\ (u = 1 <-> RV d = RV S).
Proof using Ht.
  intros (Vd & Fd & Pd) (Vs & Fs & _) Hle Hpos.
  pose proof (div_unit (RV d) (RV S) Hpos ltac:(lra)) as Hu. pose proof (div_nonneg (RV d) (RV S) Hpos Pd) as Hn.
  destruct (flt_op_spec F64 OpDiv d S Vd Vs Fd Fs ltac:(lra)) as [Hop _].
  destruct (Hop (rnd_unit_small F64 _ eq_refl Hu)) as [Fq Rq]. cbn [op_real] in Rq.
  change (flt_op F64 OpDiv d S) with (ddiv d S) in *.
  pose proof (rnd_unit F64 _ eq_refl Hu) as Hu2. pose proof (rnd_nonneg F64 _ Hn) as Hn2.
  assert (1 <= tmax t) as Hp by (clear - Ht; destruct t; (discriminate Ht || (vm_compute; discriminate))).
  apply IZR_le in Hp.
  rewrite of_double_fit by (done || (rewrite Rq; lra)). rewrite Rq.
  destruct Hle as [Hlt|Heq].
  - exists 0. pose proof (quot_below _ _ (fmt_val F64 _ Vd) (fmt_val F64 _ Vs) (conj Pd Hlt)) as Hb.
    split; [|split; [by left|split; [done|lra]]]. do 2 f_equal. apply Zfloor_imp. change (0 + 1) with 1. lra.
  - exists 1. rewrite Heq. unfold Rdiv. rewrite Rinv_r by lra. rewrite rnd_R1 by done.
    split; [by rewrite (Zfloor_IZR 1)|]. split; [by right|done].
Qed.
Lemma zero_div d S : is_finite_SF d = true -> is_finite_SF S = true -> RV d = 0%R -> RV S = 0%R -> of_double t (ddiv d S) = None.
Proof using Ht.
  intros Fd Fs Rd Rs.
  assert (forall x, is_finite_SF x = true -> RV x = 0%R -> exists b, x = S754_zero b) as H.
  { intros [b|b| |b m e] Fx Rx; try done; [by exists b|]. exfalso. cbn in Rx. apply eq_0_F2R in Rx. by destruct b. }
  destruct (H d Fd Rd) as [b ->], (H S Fs Rs) as [b' ->]. unfold of_double. by rewrite Ht.
Qed.

Context (ex : spec_float -> spec_float) (Hex : exp_std ex).

Lemma int_exps zs : Forall (within t) zs -> Forall (fun z => z <= exp_limit t) zs ->
  exists ws, Forall2 (fun z w => of_double t (ex (dbl_of_Z z)) = Some (VI w) /\ 0 <= w <= tmax t /\ (z < 0 -> w = 0) /\ (0 <= z -> 1 <= w)) zs ws.
Proof using Ht Hex.
  destruct Hex as (eps & Heps & Hc & H0).
  induction zs as [|z zs IH]; [by exists []|]. intros [Hz Hzs]%Forall_cons [Hl Hls]%Forall_cons.
  destruct (IH Hzs Hls) as (ws & Hws). destruct (int_exp_spec t Ht ex eps Heps Hc H0 z Hz) as (H1 & H2 & _).
  destruct (decide (z < 0)) as [Hn|Hn].
  - exists (0 :: ws). constructor; [|done]. split; [by apply H1|]. split; [|lia].
    assert (0 <= tmax t) by (clear - Ht; destruct t; (discriminate Ht || (vm_compute; discriminate))). lia.
  - destruct (H2 ltac:(lia)) as (w & Hw & Hb). exists (w :: ws). constructor; [|done]. split; [done|]. lia.
Qed.

Lemma mapM_some_F2 {A B} (f : A -> option B) xs ys : Forall2 (fun x y => f x = Some y) xs ys -> mapM f xs = Some ys.
Proof using Type. intros H. by apply mapM_Some. Qed.

Lemma lane_int zs : Forall (within t) zs ->
  (~ int_lane_ok t zs -> softmax_lane ex t (VI <$> zs) = None) /\
  (int_lane_ok t zs -> exists us, softmax_lane ex t (VI <$> zs) = Some (VI <$> us) /\ length us = length zs /\
     Forall (fun u => u = 0 \/ u = 1) us /\
     (tmax t < 2 ^ 32 -> Z.of_nat (length zs) <= 2 ^ 21 -> us = one_hot zs)).
Proof using Ht Hex.
  intros Hzs.
  assert (forall z, to_double t (VI z) = Some (dbl_of_Z z)) as Htd by (intros z; cbn; by rewrite Ht).
  destruct (decide (Forall (fun z => z <= exp_limit t) zs)) as [Hlim|Hlim].
  2:{ split; [|intros [H _]; done]. intros _. apply not_Forall_Exists in Hlim; [|intros z; apply _].
      apply Exists_exists in Hlim as (z & Hz & Hzl). unfold softmax_lane.
      match goal with |- context [mapM ?f (VI <$> zs)] => destruct (mapM f (VI <$> zs)) as [es|] eqn:Hes end; [|done].
      exfalso. apply mapM_Some in Hes. apply elem_of_list_lookup in Hz as [i Hi].
      assert ((VI <$> zs) !! i = Some (VI z)) as Hi' by (by rewrite list_lookup_fmap, Hi).
      destruct (Forall2_lookup_l _ _ _ _ _ Hes Hi') as (e & _ & He). rewrite Htd in He. cbn in He.
      destruct Hex as (eps & Heps & Hc & H0).
      destruct (int_exp_spec t Ht ex eps Heps Hc H0 z (Forall_lookup_1 _ _ _ _ Hzs Hi)) as (_ & _ & H3).
      unfold compose in Hzl. rewrite H3 in He by lia. done. }
  destruct (int_exps zs Hzs Hlim) as (ws & Hws). pose proof (Forall2_length _ _ _ Hws) as Lw.
  assert (tmax t <= 2 ^ 64) as HM by (clear - Ht; destruct t; (discriminate Ht || (vm_compute; discriminate))).
  assert (Forall (fun w => 0 <= w <= tmax t) ws) as Hwt.
  { apply Forall_lookup_2. intros i w Hi. destruct (Forall2_lookup_r _ _ _ _ _ Hws Hi) as (z & _ & _ & H & _). done. }
  assert (Forall (fun w => 0 <= w <= 2 ^ 64) ws) as Hwb.
  { eapply Forall_impl; [exact Hwt|]. cbv beta. intros w H. lia. }
  destruct (sum_int ws Hwb) as (GS & BS & MS & ZS & ES).
  set (S := foldl dadd fzero (dbl_of_Z <$> ws)) in *. pose proof GS as (VS & FS & PS).
  assert (softmax_lane ex t (VI <$> zs) = mapM (fun d => of_double t (ddiv d S)) (dbl_of_Z <$> ws)) as Hsl.
  { unfold softmax_lane.
    replace (mapM _ (VI <$> zs)) with (Some (VI <$> ws)).
    2:{ symmetry. apply mapM_some_F2. apply Forall2_fmap. eapply Forall2_impl; [exact Hws|]. cbv beta.
        intros z w (H & _). rewrite Htd. done. }
    cbn [mbind option_bind]. replace (mapM (to_double t) (VI <$> ws)) with (Some (dbl_of_Z <$> ws)); [done|].
    symmetry. apply mapM_some_F2. apply Forall2_fmap. apply Forall_Forall2_diag. apply Forall_true. intros w. apply Htd. }
  split.
  - intros Hno. rewrite Hsl. destruct zs as [|z0 zs0]; [exfalso; apply Hno; split; [constructor|done]|].
    set (zs := z0 :: zs0) in *.
    assert (Forall (fun w => w = 0) ws) as Hw0.
    { apply Forall_lookup_2. intros i w Hi. destruct (Forall2_lookup_r _ _ _ _ _ Hws Hi) as (z & Hz & _ & _ & H & _).
      apply H. destruct (decide (z < 0)); [done|]. exfalso. apply Hno. split; [done|]. intros _.
      apply Exists_exists. exists z. split; [by eapply elem_of_list_lookup_2|]. lia. }
    destruct ws as [|w0 ws0]; [done|]. apply Forall_cons in Hw0 as [-> Hw0].
    cbn [fmap list_fmap mapM]. rewrite zero_div; [done|done|exact FS| |].
    + rewrite (is64_R _ _ (dbl_abs 0 ltac:(done))). apply rnd_0.
    + apply ZS. by constructor.
  - intros [_ Hne].
    assert (zs <> [] -> 0 < RV S)%R as HSpos.
    { intros Hz. specialize (Hne Hz). apply Exists_exists in Hne as (z & Hin & Hzp).
      apply elem_of_list_lookup in Hin as [i Hi]. destruct (Forall2_lookup_l _ _ _ _ _ Hws Hi) as (w & Hwi & _ & _ & _ & H1).
      specialize (H1 Hzp). pose proof (Forall_lookup_1 _ _ _ _ MS Hwi) as Hm. cbv beta in Hm.
      pose proof (Forall_lookup_1 _ _ _ _ Hwb Hwi) as Hwi2. cbv beta in Hwi2.
      destruct (dbl_good w Hwi2) as (_ & _ & Hr). rewrite Hr in Hm.
      assert (1 <= rnd F64 (IZR w))%R; [|lra]. rewrite <-(rnd_Z 1) by done. apply rnd_le, IZR_le. lia. }
    assert (exists us, Forall2 (fun w u => of_double t (ddiv (dbl_of_Z w) S) = Some (VI u) /\ (u = 0 \/ u = 1) /\
      (u = 1 <-> RV (dbl_of_Z w) = RV S)) ws us) as (us & Hus).
    { destruct (decide (zs = [])) as [->|Hz]; [destruct ws; [by exists []|done]|]. specialize (HSpos Hz).
      clear -MS Hwb GS HSpos Ht. clearbody S. induction ws as [|w ws IH]; [by exists []|].
      apply Forall_cons in MS as [H1 MS]. apply Forall_cons in Hwb as [H2 Hwb]. destruct (IH Hwb MS) as (us & Hus).
      destruct (dbl_good w H2) as (Gd & _ & _). destruct (quot_int _ S Gd GS H1 HSpos) as (u & Hu).
      exists (u :: us). by constructor. }
    exists us. pose proof (Forall2_length _ _ _ Hus) as Lu. split_and!.
    + rewrite Hsl. apply mapM_some_F2. apply Forall2_fmap. eapply Forall2_impl; [exact Hus|]. cbv beta. by intros w u (H & _).
    + lia.
    + apply Forall_lookup_2. intros i u Hi. destruct (Forall2_lookup_r _ _ _ _ _ Hus Hi) as (w & _ & _ & H & _). done.
    + intros Hn32 Hlen.
      set (A := foldr Z.add 0 ws) in *.
      assert (forall l, Forall (fun w => 0 <= w <= tmax t) l -> 0 <= foldr Z.add 0 l <= Z.of_nat (length l) * 2 ^ 32) as Hbd.
      { induction 1 as [|x l Hx _ IHl]; cbn [foldr length]; lia. }
      pose proof (Hbd _ Hwt) as HA. fold A in HA. specialize (ES ltac:(lia)).
      assert (forall i w, ws !! i = Some w -> RV (dbl_of_Z w) = IZR w) as Hdw.
      { intros i w Hi. pose proof (Forall_lookup_1 _ _ _ _ Hwt Hi) as H. cbv beta in H.
        rewrite (is64_R _ _ (dbl_abs w ltac:(lia))). apply rnd_Z. lia. }
      apply list_eq. intros i. unfold one_hot. rewrite list_lookup_fmap.
      destruct (zs !! i) as [z|] eqn:Hz.
      2:{ apply lookup_ge_None in Hz. cbn. apply lookup_ge_None. lia. }
      destruct (Forall2_lookup_l _ _ _ _ _ Hws Hz) as (w & Hw & _ & Hwr & Hw0 & Hw1).
      destruct (Forall2_lookup_l _ _ _ _ _ Hus Hw) as (u & Hu & _ & Hu01 & Hu1). rewrite Hu. cbn [fmap option_fmap option_map].
      f_equal. rewrite (Hdw _ _ Hw), ES in Hu1.
      assert (u = 1 <-> w = A) as Hu2.
      { rewrite Hu1. split; [apply eq_IZR|by intros ->]. }
      clear Hu1.
      (* split the lane at i *)
      assert (zs = take i zs ++ z :: drop (Datatypes.S i) zs) as Ez by (by rewrite take_drop_middle).
      assert (ws = take i ws ++ w :: drop (Datatypes.S i) ws) as Ew by (by rewrite take_drop_middle).
      assert (forall l1 l2, foldr Z.add 0 (l1 ++ l2) = foldr Z.add 0 l1 + foldr Z.add 0 l2) as Hfa.
      { intros l1 l2. induction l1 as [|x l1 IHl]; cbn; lia. }
      assert (A = w + (foldr Z.add 0 (take i ws) + foldr Z.add 0 (drop (Datatypes.S i) ws))) as EA.
      { unfold A. rewrite Ew at 1. rewrite Hfa. cbn [foldr]. lia. }
      assert (forall zl wl, Forall2 (fun z w => of_double t (ex (dbl_of_Z z)) = Some (VI w) /\ 0 <= w <= tmax t /\ (z < 0 -> w = 0) /\ (0 <= z -> 1 <= w)) zl wl ->
        Z.of_nat (length (filter (fun z => 0 <= z) zl)) <= foldr Z.add 0 wl /\
        (Z.of_nat (length (filter (fun z => 0 <= z) zl)) = 0 -> foldr Z.add 0 wl = 0)) as Hcnt.
      { clear. induction 1 as [|z w zl wl (_ & Hr & H0 & H1) _ [IH1 IH2]]; [done|].
        destruct (decide (0 <= z)) as [Hz|Hz].
        - rewrite filter_cons_True by done. cbn [length foldr]. specialize (H1 Hz). lia.
        - rewrite filter_cons_False by done. cbn [foldr]. specialize (H0 ltac:(lia)). subst w. split; [lia|]. intros H. rewrite (IH2 H). lia. }
      destruct (Hcnt (take i zs) (take i ws) ltac:(by apply Forall2_take)) as [C1 D1].
      destruct (Hcnt (drop (Datatypes.S i) zs) (drop (Datatypes.S i) ws) ltac:(by apply Forall2_drop)) as [C2 D2].
      assert (Z.of_nat (length (filter (fun z => 0 <= z) zs)) = Z.of_nat (length (filter (fun z => 0 <= z) (take i zs))) +
        (if decide (0 <= z) then 1 else 0) + Z.of_nat (length (filter (fun z => 0 <= z) (drop (Datatypes.S i) zs)))) as Hl.
      { rewrite Ez at 1. rewrite filter_app, app_length. case_decide.
        - rewrite filter_cons_True by done. cbn [length]. lia.
        - rewrite filter_cons_False by done. lia. }
      rewrite Hl. case_decide as Hzp.
      * specialize (Hw1 Hzp). replace (0 <=? z) with true by lia. cbn [andb].
        destruct (Z.eqb_spec (Z.of_nat (length (filter (fun z => 0 <= z) (take i zs))) + 1 + Z.of_nat (length (filter (fun z => 0 <= z) (drop (Datatypes.S i) zs)))) 1) as [E|E].
        -- apply Hu2. rewrite EA, D1, D2 by lia. lia.
        -- destruct Hu01 as [-> | ->]; [done|]. exfalso. pose proof (proj1 Hu2 eq_refl). lia.
      * replace (0 <=? z) with false by lia. cbn [andb]. destruct Hu01 as [-> | ->]; [done|]. exfalso.
        pose proof (proj1 Hu2 eq_refl) as Hwa. rewrite (Hw0 ltac:(lia)) in Hwa.
        assert (zs <> []) as Hzn by (intros ->; done). specialize (HSpos Hzn). rewrite ES, <-Hwa in HSpos. lra.
Qed.
End lanes.
