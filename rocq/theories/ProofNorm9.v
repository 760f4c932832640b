(** * ProofNorm9: src/nn/batch_norm.c, an output element that does not exist *)
From stdpp Require Import gmap list.
From Coq Require Import ZArith Lia Floats.SpecFloat.
From Coq Require Import ZifyBool ZifyNat.
From Verif Require Import Base Mem Spec SpecReal SpecExact SpecNN SpecNorm ModelCore ModelBasic ModelMath ModelNN Logic
  ProofCore ProofCore2 ProofCore3 ProofIndex ProofKernel ProofKernel2 ProofBasic ProofSqueeze ProofSlice ProofFrame
  ProofMatmul ProofMath ProofCast ProofSqrt ProofExact ProofDot3 ProofSoftmax ProofOwn ProofNorm ProofNorm2 ProofNorm3
  ProofNorm4 ProofNorm5 ProofNorm6 ProofNorm7 ProofNorm8.
Open Scope Z_scope.


Ltac Zify.zify_post_hook ::= Z.div_mod_to_equations.

(** ** Two axes: the whole function *)
Lemma bn_2d_bad p pS pB pM pV T Sc Bi Me Va ds axis eps e nb ch o E s :
  wf s -> alloc_all E -> hooks_ok E ->
  holds (heap s) p T -> holds (heap s) pS Sc -> holds (heap s) pB Bi -> holds (heap s) pM Me ->
  holds (heap s) pV Va -> bn_ok T axis Sc Bi Me Va eps -> init T -> init Sc -> init Bi -> init Me -> init Va ->
  dev_type (a_dev T) = 0 -> dev_type (a_dev Sc) = 0 -> dev_type (a_dev Bi) = 0 -> dev_type (a_dev Me) = 0 ->
  dev_type (a_dev Va) = 0 ->
  a_dims T = [nb; ch] -> 0 < ch <= INT_MAX -> nb <= INT_MAX ->
  of_double (a_type T) eps = Some e ->
  (forall b, 0 <= b < ch -> bn_den (a_type T) eps (at_ Va [b]) (ds b)) ->
  (exists a b, 0 <= a < nb /\ 0 <= b < ch /\
     bn_out (a_type T) (ds b) (at_ Sc [b]) (at_ Bi [b]) (at_ Me [b]) (at_ T [a; b]) = None) ->
  aitisa_batch_norm (HPtr p) axis (HPtr pS) (HPtr pB) (HPtr pM) (HPtr pV) eps o E s = UB UB_overflow.
Proof.
  intros Hwf HA HE HT HS HB HM HV Hok IT_ IS IB_ IM Hin Ct CS CB CM CV Dt Hch Hnb He Hden Hbad.
  pose proof (bn_check_ok p pS pB pM pV T Sc Bi Me Va axis eps E s HT HS HB HM HV Hok) as Hchk.
  destruct Hok as (Hr & Hax & TS & TB & TM & TV & (ch' & Hch' & DS & DB & DM & DV) & Heps).
  rewrite Dt in Hr, Hax, Hch'. cbn [length] in Hr, Hax.
  assert (axis = 1) as -> by lia. cbn in Hch'. injection Hch' as <-.
  set (t := a_type T) in *. set (dev := a_dev T) in *.
  unfold aitisa_batch_norm.
  erewrite bind_done by exact Hchk. rewrite bool_decide_eq_true_2 by done. cbn [negb].
  destruct (create_like_ok p T o E s Hwf HA HT) as (s1 & q & pd & pm & ps & px & Hcr & HO1).
  erewrite bind_done by exact Hcr. cbv beta match. rewrite bool_decide_eq_true_2 by done. cbn [negb].
  assert (forall s' U pU vs L, over (E:=E) (s:=s) q pd pm ps px (a_type T) (a_dev T) (a_dims T) vs L s' ->
     holds (heap s) pU U -> holds (heap s') pU U) as Hbase by (intros; by eapply over_base).
  pose proof (Hbase _ _ _ _ _ HO1 HT) as (_ & bx & tg & ex & Vt & _).
  pose proof (Hbase _ _ _ _ _ HO1 HV) as HV1.
  pose proof HV1 as (_ & bxv & tgv & exv & Vv & _). rewrite TV, DV in Vv.
  erewrite bind_done by (by eapply tensor_ndim_ok). rewrite Dt.
  change (Z.of_nat (length [nb; ch]) =? 2) with true. cbv match.
  destruct (over_own _ _ _ _ _ _ _ _ _ _ _ HO1) as (sb & Ho1 & Hback).
  assert (prodZ [ch] = ch) as Hpc by (rewrite prodZ_cons, prodZ_nil; lia).
  set (dl := (fun j => ds (Z.of_nat j)) <$> seq 0 (Z.to_nat ch)).
  set (De := AT t (a_dev Va) [ch] dl).
  apply ub_bind with (Q := fun r s' => exists qd, r = Next (HPtr qd) /\ own E sb [IT qd De] s').
  { unfold bn_denominator.
    eapply wp_step; [by eapply tensor_dtype_ok|].
    eapply wp_step; [by eapply tensor_device_ok|].
    eapply wp_step; [by eapply tensor_dims_ok|].
    eapply wp_step; [by eapply tensor_ndim_ok|].
    eapply own_try; [exact Ho1| |].
    { eapply (makes_or_nomem_alloc _ _ _ HUndef); [done|]. apply (full_rule t dev [ch] eps e); [by eapply own_wf| |lia|done].
      pose proof (valid_fits _ (holds_valid _ _ _ HV)) as Hfv. by rewrite TV, DV in Hfv. }
    intros pe s2 O2. rewrite Hpc in O2.
    eapply (den_ok HA _ _ s2 pV pe Va (AT t dev [ch] (replicate (Z.to_nat ch) e)) t (a_dev Va) [ch] eps e dl);
      try done; try congruence.
    - eapply over_base; [by eapply Hback|done].
    - eapply own_holds; [exact O2|left].
    - lia.
    - cbn [a_vals]. by rewrite Hpc.
    - apply Forall2_same_length_lookup_2.
      + pose proof (valid_len _ (holds_valid _ _ _ HV)) as Hl. rewrite DV, Hpc in Hl.
        unfold dl. rewrite fmap_length, seq_length. lia.
      + intros i x y Hx Hy. unfold dl in Hy. rewrite list_lookup_fmap in Hy.
        destruct (seq 0 (Z.to_nat ch) !! i) as [j|] eqn:Hj; [|done]. apply lookup_seq in Hj as [-> Hj].
        injection Hy as <-. cbn [Nat.add]. replace x with (at_ Va [Z.of_nat i]); [apply Hden; lia|].
        by rewrite (at_1 Va ch _ DV), Nat2Z.id, Hx.
    - intros qt qd s3 as_ O3.
      eapply (own_drop pe _ [_; _] []); [done|exact O3|]. intros s4 O4. cbn [app] in O4.
      eapply (own_drop qt _ [_] []); [done|exact O4|]. intros s5 O5. cbn [app] in O5.
      apply wp_ret. exists qd. done. }
  intros r s2 (qd & -> & O2). cbv match. pose proof (Hback _ _ O2) as HO2. rewrite Dt in HO2.
  fold t dev in HO2.
  assert (forall b, 0 <= b < ch -> at_ De [b] = ds b) as HDe.
  { intros b Hb. rewrite (at_1 De ch _ eq_refl). cbn [a_vals De]. unfold dl.
    rewrite list_lookup_fmap, lookup_seq_lt by lia. cbn. f_equal. lia. }
  assert (init De) as ID.
  { unfold init. cbn [a_vals a_type De]. unfold dl. apply Forall_fmap, Forall_forall. intros j Hj.
    apply elem_of_seq in Hj. cbn. destruct (Hden (Z.of_nat j)) as (? & ? & ? & _ & _ & _ & _ & Hd); [lia|].
    by eapply of_double_ok. }
  (* rows *)
  apply bind_UB. unfold batch_norm_without_channel.
  pose proof (over_base _ _ _ _ _ _ _ _ _ _ _ p T HO2 HT) as (_ & bx2 & tg2 & ex2 & Vt2 & _).
  erewrite bind_done by (by eapply tensor_dims_ok). rewrite Dt.
  erewrite bind_done by (by apply aget_Z).
  eapply (ub_mem HA); [llia|exact O2|]. intros b1 s3 O3.
  eapply (ub_mem HA); [llia|exact O3|]. intros b2 s4 O4.
  eapply (ub_mem HA); [llia|exact O4|]. intros b3 s5 O5. cbn [is_null orb].
  erewrite bind_done by (by apply aget_Z).
  eapply (ub_mem HA); [llia|exact O5|]. intros b4 s6 O6. cbn [is_null orb].
  pose proof (Hback _ _ O6) as HO6. rewrite Dt in HO6. fold t dev in HO6.
  pose proof (over_base _ _ _ _ _ _ _ _ _ _ _ p T HO6 HT) as (_ & bx6 & tg6 & ex6 & Vt6 & _).
  erewrite bind_done by (by eapply tensor_dtype_ok).
  erewrite bind_done by (by eapply tensor_data_ok, over_view).
  rewrite to_int_id by llia. cbn [d_size dtype_of].
  set (L6 := [IB b4; IB b3; IB b2; IB b1; IT qd De]) in *.
  set (g := fun a b => bn_out t (ds b) (at_ Sc [b]) (at_ Bi [b]) (at_ Me [b]) (at_ T [a; b])).
  set (f := fun x : list Z => default VU (g (nth 0 x 0) (nth 1 x 0))).
  apply bind_UB.
  match goal with |- iter_ret ?n0 ?i0 ?body0 ?z0 E s6 = _ => destruct (iter_ret_or (fun k x s' =>
      (forall a b, 0 <= a < Z.of_nat k -> 0 <= b < ch -> g a b <> None) /\ x = [Z.of_nat k; 0] /\ exists vs',
      over (E:=E) (s:=s) q pd pm ps px t dev [nb; ch] vs' L6 s' /\
      good [nb; ch] f (row_done ch (Z.of_nat k) 0) vs') E n0 i0 body0 z0 s6 UB_overflow) as [HU|HW] end; [| |exact HU|].
  - split; [intros; lia|]. split; [done|]. eexists. split; [exact HO6|]. split; [by rewrite replicate_length|].
    intros c Hc (a' & b' & -> & Hb' & Hab). apply in_box_cons in Hc as [Hc _]. lia.
  - intros k x s' Hk (HP & -> & vs' & HO' & HG'). rewrite Z.add_0_l.
    destruct (all_some (g (Z.of_nat k)) ch) as [Hall|(b & Hb & Hnone)].
    + right. eapply wp_mono.
      { eapply (row_ok HA HE p pS pB pM T Sc Bi Me t dev nb ch f) with (De := De);
          try done; try (do 4 apply elem_of_list_further; apply elem_of_list_here).
        - lia.
        - intros b Hb. rewrite HDe by done. unfold f. cbn [nth]. apply some_default. by apply Hall. }
      intros r s'' (-> & vs'' & HO'' & HG''). exists [Z.of_nat k + 1; 0]. split; [done|].
      replace (Z.of_nat (S k)) with (Z.of_nat k + 1) by lia. split; [|split; [done|]; exists vs''; done].
      intros a b Ha Hb. destruct (decide (a = Z.of_nat k)) as [->|Hne]; [by apply Hall|]. apply HP; lia.
    + left. eapply (row_bad HA HE p pS pB pM T Sc Bi Me t dev nb ch) with (De := De) (b := b);
        try done; try (do 4 apply elem_of_list_further; apply elem_of_list_here).
      * lia.
      * rewrite HDe by done. exact Hnone.
  - exfalso. apply wp_elim in HW as (r & s7 & _ & x & -> & HP & _).
    destruct Hbad as (a & b & Ha & Hb & Hn). apply (HP a b); [lia|done|exact Hn].
Qed.

(** ** Three to five axes: the whole function *)
Lemma bn_nd_bad p pS pB pM pV T Sc Bi Me Va ds axis eps e nb ch b1 b2 o E s :
  wf s -> alloc_all E -> hooks_ok E ->
  holds (heap s) p T -> holds (heap s) pS Sc -> holds (heap s) pB Bi -> holds (heap s) pM Me ->
  holds (heap s) pV Va -> bn_ok T axis Sc Bi Me Va eps -> init T -> init Sc -> init Bi -> init Me -> init Va ->
  dev_type (a_dev T) = 0 ->
  a_dims T = bn_dims nb ch b1 b2 -> axis = Z.of_nat (S (length b1)) -> (1 <= length (b1 ++ b2))%nat ->
  Forall (fun d => 0 < d) b1 -> Forall (fun d => 0 < d) b2 ->
  Forall (fun d => d <= INT_MAX) b1 -> Forall (fun d => d <= INT_MAX) b2 ->
  0 < ch <= INT_MAX -> nb <= INT_MAX -> prodZ (b1 ++ b2) <= INT_MAX ->
  Z.of_nat (tsz (a_type T)) * prodZ (b1 ++ b2) <= 2 ^ 32 -> Z.of_nat (tsz (a_type T)) * ch <= 2 ^ 32 ->
  of_double (a_type T) eps = Some e ->
  (forall b, 0 <= b < ch -> bn_den (a_type T) eps (at_ Va [b]) (ds b)) ->
  (exists a c i, 0 <= a < nb /\ 0 <= c < ch /\ 0 <= i < prodZ (b1 ++ b2) /\
     bn_out (a_type T) (ds c) (at_ Sc [c]) (at_ Bi [c]) (at_ Me [c]) (at_ T (co b1 b2 a c i)) = None) ->
  aitisa_batch_norm (HPtr p) axis (HPtr pS) (HPtr pB) (HPtr pM) (HPtr pV) eps o E s = UB UB_overflow.
Proof.
  intros Hwf HA HE HT HS HB HM HV Hok IT_ IS IB_ IM Hin Ct Dt Hax Hr1 P1 P2 M1 M2 Hch Hnb Hlane Hp32 Hc32 He Hden Hbad.
  pose proof (bn_check_ok p pS pB pM pV T Sc Bi Me Va axis eps E s HT HS HB HM HV Hok) as Hchk.
  destruct Hok as (Hr & Hax' & TS & TB & TM & TV & (ch' & Hch' & DS & DB & DM & DV) & Heps).
  assert (length (bn_dims nb ch b1 b2) = (length (b1 ++ b2) + 2)%nat) as Hlen.
  { unfold bn_dims. cbn [length]. rewrite !app_length. cbn. lia. }
  rewrite Dt, Hlen in Hr, Hax'. rewrite Dt in Hch'.
  assert (ch' = ch) as ->.
  { rewrite Hax, Nat2Z.id in Hch'. unfold bn_dims in Hch'. rewrite lookup_cons_ne_0 in Hch' by done.
    cbn [Nat.pred] in Hch'. rewrite list_lookup_middle in Hch' by done. congruence. }
  assert (b1 = [] \/ b2 = []) as Hends.
  { rewrite app_length in Hax'. destruct b1 as [|? b1]; [by left|]. destruct b2 as [|? b2]; [by right|].
    cbn in *. lia. }
  assert (0 <= nb) as Hnb0.
  { pose proof (valid_fits _ (holds_valid _ _ _ HT)) as [Hn _]. rewrite Dt in Hn. by apply Forall_cons in Hn as [Hn _]. }
  set (t := a_type T) in *. set (dev := a_dev T) in *.
  assert (fits (tsz t) (b1 ++ b2)) as Hfitp.
  { pose proof (valid_fits _ (holds_valid _ _ _ HT)) as Hn. rewrite Dt in Hn. by eapply fits_parts. }
  unfold aitisa_batch_norm.
  erewrite bind_done by exact Hchk. rewrite bool_decide_eq_true_2 by done. cbn [negb].
  destruct (create_like_ok p T o E s Hwf HA HT) as (s1 & q & pd & pm & ps & px & Hcr & HO1).
  erewrite bind_done by exact Hcr. cbv beta match. rewrite bool_decide_eq_true_2 by done. cbn [negb].
  fold t dev in HO1. rewrite Dt in HO1.
  destruct (over_base _ _ _ _ _ _ _ _ _ _ _ p T HO1 HT) as (_ & bx & tg & ex & V & _).
  erewrite bind_done by (by eapply tensor_ndim_ok). rewrite Dt, Hlen.
  replace (Z.of_nat (length (b1 ++ b2) + 2) =? 2) with false by lia.
  replace ((2 <? Z.of_nat (length (b1 ++ b2) + 2)) && (Z.of_nat (length (b1 ++ b2) + 2) <? 6)) with true by lia.
  cbv match.
  destruct (over_own _ _ _ _ _ _ _ _ _ _ _ HO1) as (sb & Ho1 & Hback).
  assert (forall U pU, holds (heap s) pU U -> holds (heap sb) pU U) as Hsb.
  { assert (heap sb = heap s1) as Hh.
    { destruct Ho1 as (_ & _ & _ & Hp). by inversion Hp. }
    intros U pU HU. rewrite Hh. by eapply over_base. }
  eapply ub_bind.
  { eapply (inter_ok (s0 := sb) HA HE p pS pB pM pV T Sc Bi Me Va t dev nb ch b1 b2 eps e axis ds); try done; try (by apply Hsb).
    lia. }
  intros r s2 (ss & bs & ms & dn & xs & xb & xm & xd & -> & Ls & Lb & Lm & Ld & O2). cbv match.
  cbn [bl_scale bl_bias bl_mean bl_den ba_scale ba_bias ba_mean ba_den]. rewrite app_nil_r in O2.
  assert (forall U c, valid U -> init U -> a_type U = t -> a_dims U = [ch] -> 0 <= c < ch -> val_ok t (at_ U [c])) as Hval.
  { intros U c HU HI TU DU Hc. rewrite <-TU. apply init_at; [done|done|]. rewrite DU. apply in_box_cons. split; [done|constructor]. }
  apply bind_UB.
  eapply (with_channel_bad HA HE nb ch b1 b2 t dev) with (Sc := Sc) (Bi := Bi) (Me := Me) (ds := ds);
    try done; try (by rewrite replicate_length); try (by apply Hback); try lia.
  - intros c Hc. apply Hval; try done. by destruct HS.
  - intros c Hc. apply Hval; try done. by destruct HB.
  - intros c Hc. apply Hval; try done. by destruct HM.
  - intros c Hc. destruct (Hden c Hc) as (? & ? & ? & _ & _ & _ & _ & Hd). by eapply of_double_ok.
Qed.

(** ** One theorem for all ranks *)
Lemma bn_rule_bad E s p pS pB pM pV T Sc Bi Me Va axis eps o :
  wf s -> alloc_all E -> hooks_ok E ->
  holds (heap s) p T -> holds (heap s) pS Sc -> holds (heap s) pB Bi -> holds (heap s) pM Me -> holds (heap s) pV Va ->
  forall ds, bn_ok T axis Sc Bi Me Va eps -> bn_sizes T axis ->
  Forall (fun U => dev_type (a_dev U) = 0 /\ init U) [T; Sc; Bi; Me; Va] ->
  (forall k, 0 <= k < nth (Z.to_nat axis) (a_dims T) 0 -> bn_den (a_type T) eps (at_ Va [k]) (ds k)) ->
  (exists c, in_box (a_dims T) c /\ let k := chan axis c in
     bn_out (a_type T) (ds k) (at_ Sc [k]) (at_ Bi [k]) (at_ Me [k]) (at_ T c) = None) ->
  aitisa_batch_norm (HPtr p) axis (HPtr pS) (HPtr pB) (HPtr pM) (HPtr pV) eps o E s = UB UB_overflow.
Proof.
  intros Hwf HA HE HT HS HB HM HV ds Hok (Hpos & Hmax & Hsz) Hcpu Hden (c0 & Hc0 & Hnone). cbv zeta in Hnone.
  pose proof Hok as (Hr & Hax & TS & TB & TM & TV & (ch & Hch & DS & DB & DM & DV) & Heps).
  apply nth_lookup_Some with (d := 0) in Hch as Hnth. rewrite Hnth in *.
  assert (0 < ch <= INT_MAX) as Hcr.
  { split; [|by apply (Forall_lookup_1 _ _ _ _ Hmax Hch)].
    assert (tail (a_dims T) !! pred (Z.to_nat axis) = Some ch) as Ht.
    { destruct (a_dims T) as [|d0 l]; [done|]. destruct (Z.to_nat axis) as [|k] eqn:Hk; [cbn in *; lia|]. done. }
    by apply (Forall_lookup_1 _ _ _ _ Hpos Ht). }
  destruct (Hden 0 ltac:(lia)) as (e & _ & _ & He & _).
  rewrite !Forall_cons in Hcpu. destruct Hcpu as ([C1 I1] & [C2 I2] & [C3 I3] & [C4 I4] & [C5 I5] & _).
  destruct (decide (length (a_dims T) = 2%nat)) as [H2|H2].
  - destruct (a_dims T) as [|nb [|ch' [|]]] eqn:Dt; try done.
    assert (axis = 1) as -> by (cbn in Hax; lia). cbn in Hch. injection Hch as ->.
    rewrite !Forall_cons in Hmax. destruct Hmax as (Hnb & _ & _).
    eapply bn_2d_bad with (ds := ds) (nb := nb) (ch := ch); try done.
    destruct c0 as [|a c0]; [by inversion Hc0|]. apply in_box_cons in Hc0 as [Ha Hc0].
    destruct c0 as [|b c0]; [by inversion Hc0|]. apply in_box_cons in Hc0 as [Hb Hc0].
    destruct c0; [|by inversion Hc0]. exists a, b. done.
  - destruct (bn_split T axis ltac:(lia) Hax) as (nb & ch' & b1 & b2 & Dt & -> & Hlane & Hc'). rewrite Hnth in Hc'. subst ch'.
    destruct (Hsz ltac:(lia)) as (S1 & S2 & S3). rewrite Hlane in *. rewrite Dt in Hpos, Hmax. unfold bn_dims in Hpos, Hmax.
    cbn [tail] in Hpos. apply Forall_cons in Hmax as [Hnb Hmax].
    apply Forall_app in Hpos as [P1 P2]. apply Forall_cons in P2 as [_ P2].
    apply Forall_app in Hmax as [M1 M2]. apply Forall_cons in M2 as [_ M2].
    eapply bn_nd_bad with (ds := ds) (nb := nb) (ch := ch) (b1 := b1) (b2 := b2); try done.
    + rewrite Dt in Hr, H2. unfold bn_dims in *. cbn [length] in *. rewrite !app_length in *. cbn [length] in *. lia.
    + rewrite Dt in Hc0. destruct (co_all nb ch b1 b2 P1 P2 c0 Hc0) as (a & c & i & -> & Ha & Hc & Hi).
      rewrite chan_co in Hnone. exists a, c, i. done.
Qed.
