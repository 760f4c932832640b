(** * RefuteFault2: batch normalisation when a request is refused *)
From stdpp Require Import gmap list.
From Coq Require Import ZArith Lia Floats.SpecFloat ZifyBool ZifyNat.
From Verif Require Import Base Mem Spec SpecReal SpecNN SpecNorm SpecHeap SpecFault ModelCore ModelBasic ModelMath ModelNN Logic ProofCore ProofCore2
  ProofKernel ProofKernel2 ProofBasic ProofSqueeze ProofSlice ProofMath ProofHeap ProofFault RefuteMath2 ProofCore3 ProofIndex ProofOwn
  ProofNorm2 ProofNorm3 ProofNorm4 ProofNorm5 ProofNorm6 ProofFrame ProofMatmul ProofMatmul2 ProofMatmul3 ProofDot ProofDot3 ProofDot4 ProofDot5 RefuteFault.
From Verif Require ProofUnknown4.
Open Scope Z_scope.

Lemma ag_full dt dev dims n d o : agrees (aitisa_full dt dev dims n d o).
Proof.
  unfold aitisa_full. apply ag_bind; [apply ag_create|]. intros [st h]. apply ag_na. nal.
Qed.
Lemma full_requests dt dev dims d o E h s s' :
  aitisa_full dt dev dims (Z.of_nat (length dims)) d o (plenty E) s = Done (SUCCESS, h) s' -> ctr s' = (ctr s + requests dims)%nat.
Proof.
  unfold aitisa_full. unfold bind at 1.
  destruct (aitisa_create _ _ _ _ _ _ _ (plenty E) s) as [[st p] s1| | |] eqn:Hc; try done.
  destruct (bool_decide_reflect (st = SUCCESS)) as [->|Hn]; cbn [negb]; [|by intros [= ? _ _]].
  pose proof (create_requests _ _ _ _ _ _ _ _ Hc) as H1. intros H.
  enough (ctr s' = ctr s1) by congruence.
  assert (forall m : M (status * hval), na m -> m (plenty E) s1 = Done (SUCCESS, h) s' -> ctr s' = ctr s1) as Hna.
  { intros m Hm Hr. destruct (Hm E (fun _ => true) s1) as [_ H2]. by eapply H2. }
  eapply Hna; [|exact H]. nal.
Qed.
Lemma full_granted t dev dims d v o E ok s :
  wf s -> fits (tsz t) dims -> prodZ dims <= INT_MAX -> of_double t d = Some v ->
  (forall k, (ctr s <= k < ctr s + requests dims)%nat -> ok k = true) ->
  exists s' p, aitisa_full (dtype_of t) dev dims (Z.of_nat (length dims)) d o (schedule E ok) s = Done (SUCCESS, HPtr p) s' /\
    keeps s s' /\ holds (heap s') p (AT t dev dims (replicate (Z.to_nat (prodZ dims)) v)) /\ ctr s' = (ctr s + requests dims)%nat.
Proof.
  intros Hw Hf Hm Hv Hok.
  assert (makes (aitisa_full (dtype_of t) dev dims (Z.of_nat (length dims)) d o) (plenty E) s
    (AT t dev dims (replicate (Z.to_nat (prodZ dims)) v))) as (s' & p & Hr & Hc).
  { eapply (makes_or_nomem_alloc _ _ _ o); [done|]. by apply full_rule. }
  pose proof (full_requests _ _ _ _ _ _ _ _ _ Hr) as Hq.
  exists s', p. split_and!; [|by eapply keeps_created|by eapply created_holds|done].
  destruct (ag_full (dtype_of t) dev dims (Z.of_nat (length dims)) d o E ok s _ _ Hr) as [_ H].
  apply H. intros k [H1 H2]. apply Hok. lia.
Qed.
Lemma like_granted p T o E ok s :
  wf s -> holds (heap s) p T -> (forall k, (ctr s <= k < ctr s + requests (a_dims T))%nat -> ok k = true) ->
  exists s' q, nn_create_like (HPtr p) o (schedule E ok) s = Done (SUCCESS, HPtr q) s' /\ heap s ⊆ heap s' /\ wf s' /\
    ctr s' = (ctr s + requests (a_dims T))%nat.
Proof.
  intros Hw HT Hok. pose proof HT as (HvT & bx & tg & ex & Hv & Hx). unfold nn_create_like.
  destruct (create_granted (a_type T) (a_dev T) (a_dims T) HUndef E ok s Hw (valid_fits _ HvT) Hok)
    as (s' & q & pd & pm & ps & px & Hr & Ht & Hc).
  exists s', q.
  erewrite bind_done by (by eapply tensor_dims_ok).
  erewrite bind_done by (by eapply tensor_ndim_ok).
  erewrite bind_done by (by eapply tensor_dtype_ok).
  erewrite bind_done by (by eapply tensor_device_ok).
  erewrite bind_done by exact Hr. cbv beta match.
  split_and!; [done|by eapply tnew_base|by eapply tnew_wf|done].
Qed.

Lemma batch_norm_refused p pS pB pM pV T Sc Bi Me Va axis eps e o E ok s :
  wf s -> holds (heap s) p T -> holds (heap s) pS Sc -> holds (heap s) pB Bi -> holds (heap s) pM Me -> holds (heap s) pV Va ->
  bn_ok T axis Sc Bi Me Va eps -> bn_sizes T axis -> dev_type (a_dev T) = 0 -> dev_type (a_dev Va) = 0 ->
  of_double (a_type T) eps = Some e -> refuses_nth ok s 15 -> ok (ctr s + 16)%nat = true ->
  aitisa_batch_norm (HPtr p) axis (HPtr pS) (HPtr pB) (HPtr pM) (HPtr pV) eps o (schedule E ok) s = UB UB_null.
Proof.
  intros Hwf HT HS HB HM HV Hok Hsz C1 C5 He [Hy Hn] Hn2. destruct Hsz as (Hpos & Hmax & Hs3).
  pose proof (bn_check_ok p pS pB pM pV T Sc Bi Me Va axis eps (schedule E ok) s HT HS HB HM HV Hok) as Hchk.
  pose proof Hok as (Hr & Hax & TS & TB & TM & TV & (c0 & Hch & DS & DB & DM & DV) & Heps).
  apply nth_lookup_Some with (d := 0) in Hch as Hnth. rewrite Hnth in *.
  assert (0 < c0 <= INT_MAX) as Hcr.
  { split; [|by apply (Forall_lookup_1 _ _ _ _ Hmax Hch)].
    assert (tail (a_dims T) !! pred (Z.to_nat axis) = Some c0) as Ht.
    { destruct (a_dims T) as [|d0 l]; [done|]. destruct (Z.to_nat axis) as [|k] eqn:Hk; [cbn in *; lia|]. done. }
    by apply (Forall_lookup_1 _ _ _ _ Hpos Ht). }
  assert (prodZ [c0] = c0) as Hpc by (rewrite prodZ_cons, prodZ_nil; lia).
  assert (requests (a_dims T) = 5%nat) as Hq by (by destruct (a_dims T)).
  unfold aitisa_batch_norm.
  erewrite bind_done by exact Hchk. rewrite bool_decide_eq_true_2 by done. cbn [negb]. unfold batch_norm_create_output.
  destruct (like_granted p T o E ok s Hwf HT) as (s1 & q & Hr1 & S1 & W1 & N1).
  { rewrite Hq. intros k Hk. apply Hy. lia. }
  rewrite Hq in N1.
  erewrite bind_done by exact Hr1. cbv beta match. rewrite bool_decide_eq_true_2 by done. cbn [negb].
  pose proof (holds_mono _ _ _ _ S1 HT) as HT1. pose proof (holds_mono _ _ _ _ S1 HV) as HV1.
  pose proof HT1 as (_ & bx & tg & ex & V & _). pose proof HV1 as (_ & bxv & tgv & exv & Vv & _). rewrite TV, DV in Vv.
  erewrite bind_done by (by eapply tensor_ndim_ok).
  destruct (decide (length (a_dims T) = 2%nat)) as [H2|H2].
  - replace (Z.of_nat (length (a_dims T)) =? 2) with true by lia. cbv match.
    apply bind_ub. unfold bn_denominator.
    erewrite bind_done by (by eapply tensor_dtype_ok).
    erewrite bind_done by (by eapply tensor_device_ok).
    erewrite bind_done by (by eapply tensor_dims_ok).
    erewrite bind_done by (by eapply tensor_ndim_ok).
    assert (fits (tsz (a_type T)) [c0]) as Hfv.
    { pose proof (valid_fits _ (holds_valid _ _ _ HV)) as Hfv. by rewrite TV, DV in Hfv. }
    destruct (full_granted (a_type T) (a_dev T) [c0] eps e HUndef E ok s1 W1 Hfv ltac:(lia) He) as (s2 & pe & Hr2 & K2 & He2 & N2).
    { cbn [requests]. intros k Hk. apply Hy. lia. }
    cbn [requests] in N2. unfold try_ at 1.
    erewrite bind_done by exact Hr2. cbv beta match. rewrite bool_decide_eq_true_2 by done. cbn [negb].
    unfold try_ at 1. apply bind_ub. unfold aitisa_add.
    apply (binary_refused OpAdd pV pe Va (AT (a_type T) (a_dev T) [c0] (replicate (Z.to_nat (prodZ [c0])) e)));
      cbn [a_type a_dims a_dev]; try done; try congruence.
    + by apply K2.
    + by eapply holds_mono; [apply K2|].
    + rewrite DV. lia.
    + rewrite DV. cbn [requests]. split.
      * intros k Hk. apply Hy. lia.
      * replace (ctr s2 + 5)%nat with (ctr s + 15)%nat by lia. done.
  - replace (Z.of_nat (length (a_dims T)) =? 2) with false by lia.
    replace ((2 <? Z.of_nat (length (a_dims T))) && (Z.of_nat (length (a_dims T)) <? 6)) with true by lia. cbv match.
    apply bind_ub. unfold bn_intermediate.
    destruct (bn_split T axis ltac:(lia) Hax) as (nb & ch' & b1 & b2 & Dt & Hax1 & Hlane & Hc').
    rewrite Hnth in Hc'. subst ch'.
    destruct (Hs3 ltac:(lia)) as (L1 & L2 & L3). rewrite Hlane in *.
    assert (length (bn_dims nb c0 b1 b2) = (length (b1 ++ b2) + 2)%nat) as Hlen.
    { unfold bn_dims. cbn [length]. rewrite !app_length. cbn. lia. }
    assert (b1 = [] \/ b2 = []) as Hends.
    { rewrite Dt, Hlen, app_length in Hax. destruct b1 as [|? b1]; [by left|]. destruct b2 as [|? b2]; [by right|].
      cbn in *. lia. }
    assert (fits (tsz (a_type T)) (b1 ++ b2)) as Hfitp.
    { pose proof (valid_fits _ (holds_valid _ _ _ HT)) as Hx. rewrite Dt in Hx. by eapply fits_parts. }
    rewrite Dt, Hlen in Hr, H2.
    assert (requests (b1 ++ b2) = 5%nat) as Hqp by (destruct (b1 ++ b2); [cbn in *; lia|done]).
    erewrite bind_done by (by eapply tensor_ndim_ok).
    erewrite bind_done by (by eapply tensor_dtype_ok).
    erewrite bind_done by (by eapply tensor_device_ok).
    erewrite bind_done by (by eapply tensor_dims_ok).
    erewrite bind_done by (eapply tensor_dim_ok; [exact V|lia|exact Hch]).
    rewrite Dt. cbv zeta. rewrite Hlen.
    replace (Z.of_nat (length (b1 ++ b2) + 2) - 2) with (Z.of_nat (length (b1 ++ b2))) by lia.
    erewrite bind_done by (apply scratch_ok; [apply Hy; lia|llia]). cbn [is_null].
    set (x2 := st_alloc s1 _).
    assert (keeps s1 x2) as K2 by (by apply keeps_alloc).
    assert (ctr x2 = (ctr s + 6)%nat) as N2 by (cbn; lia).
    erewrite bind_done.
    2:{ instantiate (1 := x2). instantiate (1 := b1 ++ b2). destruct (Z.eqb_spec axis 1) as [Ha|Ha].
      - assert (b1 = []) as Hb1 by (destruct b1; [done|cbn in Hax1; lia]). rewrite Hb1 in *.
        erewrite (segment_ok _ _ _ (length b2)); [|lia|cbn [app]; lia|rewrite Hlen; cbn [app]; lia].
        f_equal. unfold bn_dims. cbn [app Z.to_nat Pos.to_nat Pos.iter_op Init.Nat.add drop]. by rewrite firstn_all.
      - assert (b2 = []) as Hb2 by (destruct Hends as [->| ->]; [cbn in Hax1; lia|done]).
        rewrite Hb2 in *. rewrite app_nil_r in *.
        erewrite (segment_ok _ _ _ (length b1)); [|lia|lia|rewrite Hlen; cbn; lia].
        f_equal. unfold bn_dims. change (Z.to_nat 1) with 1%nat. cbn [drop]. rewrite drop_0. by rewrite take_app_alt. }
    destruct (full_granted (a_type T) (a_dev T) (b1 ++ b2) eps e HUndef E ok x2 (keeps_wf _ _ K2) Hfitp L1 He)
      as (s3 & pe & Hr3 & K3 & He3 & N3).
    { rewrite Hqp, N2. intros k Hk. apply Hy. lia. }
    rewrite Hqp, N2 in N3. unfold try_ at 1.
    erewrite bind_done by exact Hr3. cbv beta match. rewrite bool_decide_eq_true_2 by done. cbn [negb].
    erewrite bind_done by (apply size_of_dims_ok; [eapply fits_prefixes; [apply tsz_pos|exact Hfitp]|done|llia]).
    erewrite bind_done by (apply scratch_ok; [apply Hy; lia|llia]).
    erewrite bind_done by (apply scratch_ok; [apply Hy; cbn; lia|llia]).
    erewrite bind_done by (apply scratch_ok; [apply Hy; cbn; lia|llia]).
    erewrite bind_done by (apply scratch_ok; [apply Hy; cbn; lia|llia]).
    erewrite bind_done by (apply scratch_no; cbn; rewrite N3; replace (S (S (S (S (ctr s + 6 + 5))))) with (ctr s + 15)%nat by lia; exact Hn).
    erewrite bind_done by (apply scratch_ok; [cbn; rewrite N3; replace (S (S (S (S (S (ctr s + 6 + 5)))))) with (ctr s + 16)%nat by lia; exact Hn2|llia]).
    cbn [is_null orb].
    unfold ctl_u32. replace (2 ^ 32 <=? c0) with false by llia. apply bind_ub.
    destruct (Z.to_nat c0) as [|k] eqn:Hk; [lia|]. cbn [iter_ret]. apply bind_ub. apply touch_null.
Qed.

(** ** Dot: the product of a scalar and a tensor *)
Section scalar.
Context (t : tcode) (dev : device) (big small : nat) (TB TS : atensor) (x : spec_float) (v v' : val) (o : hval) (E : env) (ok : nat -> bool) (s : st).
Context (Hwf : wf s) (HB : holds (heap s) big TB) (HS : holds (heap s) small TS) (HtB : a_type TB = t) (HtS : a_type TS = t).
Context (Cd : dev_type dev = 0) (Cb : dev_type (a_dev TB) = 0) (Hpos : 0 < prodZ (a_dims TB)) (Hmax : prodZ (a_dims TB) <= INT_MAX)
  (HvS : a_vals TS = [v]) (Hx : to_double t v = Some x) (Hv' : of_double t x = Some v').
Lemma scalar_refused : refuses_nth ok s (2 * requests (a_dims TB)) ->
  (let* out_ndim := tensor_ndim (HPtr big) in
   let* out_dims := tensor_dims (HPtr big) in
   let* (s, value) := dot_get_value (HPtr small) 0 in
   if negb (bool_decide (s = SUCCESS)) then ret (s, o)
   else
     let* (s, new) := aitisa_full (dtype_of t) dev out_dims out_ndim value HUndef in
     if negb (bool_decide (s = SUCCESS)) then ret (s, o)
     else
       let* (s, o) := aitisa_mul new (HPtr big) o in
       let* _ := aitisa_destroy new in
       ret (s, o)) (schedule E ok) s = UB UB_null.
Proof using All.
  intros [Hy Hn]. pose proof HB as (HvB & bx & tg & ex & VB & XB). pose proof HS as (HvT & bx2 & tg2 & ex2 & VS & XS).
  pose proof (valid_fits _ HvB) as Hfit. rewrite HtB in Hfit.
  erewrite bind_done by (by eapply tensor_ndim_ok).
  erewrite bind_done by (by eapply tensor_dims_ok).
  assert (dot_get_value (HPtr small) 0 (schedule E ok) s = Done (SUCCESS, x) s) as Hg.
  { unfold dot_get_value. erewrite bind_done by (by eapply tensor_dtype_ok).
    rewrite dispatch_all_t. erewrite bind_done by (by eapply tensor_data_ok).
    erewrite bind_done.
    2:{ change 0 with (Z.of_nat 0). eapply loadi_cells; [exact XS|]. by rewrite HvS. }
    erewrite bind_done by (apply opt_ok; rewrite HtS; exact Hx). done. }
  erewrite bind_done by exact Hg. cbv beta match. rewrite bool_decide_eq_true_2 by done. cbn [negb].
  destruct (full_granted t dev (a_dims TB) x v' HUndef E ok s Hwf Hfit Hmax Hv') as (s1 & q & Hr & K & HN & N).
  { intros k Hk. apply Hy. lia. }
  erewrite bind_done by exact Hr. cbv beta match. rewrite bool_decide_eq_true_2 by done. cbn [negb].
  apply bind_ub. eapply binary_refused; [by apply K|exact HN|by eapply holds_mono; [apply K|]|done|done|done|done|done|].
  cbn [a_dims]. split.
  - intros k Hk. apply Hy. lia.
  - replace (ctr s1 + requests (a_dims TB))%nat with (ctr s + 2 * requests (a_dims TB))%nat by lia. done.
Qed.
End scalar.

Section dot.
Context (p1 p2 : nat) (T1 T2 : atensor) (o : hval) (E : env) (ok : nat -> bool) (s : st).
Context (Hwf : wf s) (H1 : holds (heap s) p1 T1) (H2 : holds (heap s) p2 T2) (Hty : a_type T2 = a_type T1)
  (Hc1 : dev_type (a_dev T1) = 0) (Hc2 : dev_type (a_dev T2) = 0).
Let t := a_type T1.
Lemma scalar_left_refused x v v' :
  a_dims T1 = [] -> 0 < prodZ (a_dims T2) -> prodZ (a_dims T2) <= INT_MAX -> a_vals T1 = [v] ->
  to_double t v = Some x -> of_double t x = Some v' -> refuses_nth ok s (2 * requests (a_dims T2)) ->
  aitisa_dot (HPtr p1) (HPtr p2) o (schedule E ok) s = UB UB_null.
Proof using All.
  intros D1 Hpos Hmax Hv Hx Hv' Hn.
  rewrite (dot_unfold p1 p2 T1 T2) by done. rewrite D1. cbn [length].
  change (Z.of_nat 0 =? 1) with false. change (Z.of_nat 0 =? 2) with false.
  change (Z.of_nat 0 =? 0) with true. cbn [andb orb]. unfold scalar_tensor_mul.
  pose proof H1 as (HvT & bx & tg & ex & V1 & X1). pose proof H2 as (HvT2 & bx2 & tg2 & ex2 & V2 & X2).
  erewrite bind_done by (by eapply tensor_ndim_ok).
  erewrite bind_done by (by eapply tensor_ndim_ok).
  erewrite bind_done by (by eapply tensor_dtype_ok).
  erewrite bind_done by (by eapply tensor_device_ok). cbv zeta.
  rewrite D1. cbn [length]. replace (Z.of_nat (length (a_dims T2)) <? Z.of_nat 0) with false by lia.
  exact (scalar_refused t (a_dev T1) p2 p1 T2 T1 x v v' o E ok s Hwf H2 H1 Hty eq_refl Hc1 Hc2 Hpos Hmax Hv Hx Hv' Hn).
Qed.
Lemma scalar_right_refused x v v' :
  a_dims T2 = [] -> a_dims T1 <> [] -> 0 < prodZ (a_dims T1) -> prodZ (a_dims T1) <= INT_MAX -> a_vals T2 = [v] ->
  to_double t v = Some x -> of_double t x = Some v' -> refuses_nth ok s (2 * requests (a_dims T1)) ->
  aitisa_dot (HPtr p1) (HPtr p2) o (schedule E ok) s = UB UB_null.
Proof using All.
  intros D2 D1 Hpos Hmax Hv Hx Hv' Hn.
  assert (0 < Z.of_nat (length (a_dims T1))) as Hl by (destruct (a_dims T1); [done|cbn; lia]).
  rewrite (dot_unfold p1 p2 T1 T2) by done. rewrite D2. cbn [length].
  change (Z.of_nat 0 =? 1) with false. change (Z.of_nat 0 =? 2) with false.
  change (Z.of_nat 0 =? 0) with true. rewrite !andb_false_r, orb_true_r. unfold scalar_tensor_mul.
  pose proof H1 as (HvT & bx & tg & ex & V1 & X1). pose proof H2 as (HvT2 & bx2 & tg2 & ex2 & V2 & X2).
  erewrite bind_done by (by eapply tensor_ndim_ok).
  erewrite bind_done by (by eapply tensor_ndim_ok).
  erewrite bind_done by (by eapply tensor_dtype_ok).
  erewrite bind_done by (by eapply tensor_device_ok). cbv zeta.
  rewrite D2. cbn [length]. replace (Z.of_nat 0 <? Z.of_nat (length (a_dims T1))) with true by lia.
  exact (scalar_refused t (a_dev T1) p1 p2 T1 T2 x v v' o E ok s Hwf H1 H2 eq_refl Hty Hc1 Hc1 Hpos Hmax Hv Hx Hv' Hn).
Qed.

(** ** Dot: the product of a tensor and a vector *)
Lemma dot_tv_refused b k : hooks_ok E ->
  Forall (fun d => 0 < d <= INT_MAX) (a_dims T1) -> b <> [] -> a_dims T1 = b ++ [k] -> a_dims T2 = [k] ->
  refuses_nth ok s 10 -> aitisa_dot (HPtr p1) (HPtr p2) o (schedule E ok) s = UB UB_oob.
Proof using All.
  intros HHk Hp1 Hb D1 D2 [Hy Hno].
  rewrite (dot_unfold p1 p2 T1 T2) by done. rewrite D1, D2.
  assert (0 < Z.of_nat (length b)) as Hlb by (destruct b; cbn in *; [done|lia]).
  assert (length (b ++ [k]) = (length b + 1)%nat) as Hlen by (by rewrite app_length).
  rewrite Hlen. cbn [length].
  replace ((Z.of_nat (length b + 1) =? 1) && (Z.of_nat 1 =? 1)) with false by lia.
  replace ((Z.of_nat (length b + 1) =? 2) && (Z.of_nat 1 =? 2)) with false by lia.
  replace ((Z.of_nat (length b + 1) =? 0) || (Z.of_nat 1 =? 0)) with false by lia.
  change (Z.of_nat 1 =? 1) with true. cbv beta match.
  unfold tensor_vector_dot.
  pose proof H1 as (HvT & bx1 & tg1 & ex1 & Hv1 & Hx1). pose proof H2 as (HvT2 & bx2 & tg2 & ex2 & Hv2 & Hx2). 
  pose proof (valid_fits _ HvT) as Hf1. pose proof (fits_len _ _ Hf1) as Hn1.
  pose proof Hp1 as Hp. rewrite D1 in Hp. apply Forall_app in Hp as [Hpb Hk]. apply Forall_cons in Hk as [Hk _].
  pose proof (pos_of _ Hpb) as Hpb'. pose proof (prodZ_pos _ Hpb') as Hpp.
  rewrite D1 in Hv1, Hf1, Hn1. rewrite D2 in Hv2.
  assert (fits (tsz t) b) as Hfb by (eapply ProofUnknown4.fits_sublist; [|exact Hf1]; by apply sublist_inserts_r).
  assert (requests b = 5%nat) as Hq by (by destruct b).
  erewrite bind_done by (by eapply tensor_ndim_ok).
  erewrite bind_done by (by eapply tensor_dims_ok).
  erewrite bind_done by (by eapply tensor_dims_ok).
  replace (Z.of_nat (length (b ++ [k])) - 1) with (Z.of_nat (length b)) by lia.
  erewrite bind_done by (apply aget_nat; by rewrite list_lookup_middle).
  erewrite bind_done by (by apply (aget_nat [k] 0 k)). rewrite Z.eqb_refl. cbn [negb]. cbv zeta.
  assert (INT_MAX <= PTRDIFF_MAX) as HIP by done. assert (8 * INT_MAX <= PTRDIFF_MAX) as HIP8 by done.
  erewrite bind_done by (apply scratch_ok; [apply Hy; lia|lia]). cbn [is_null].
  set (x1 := Blk (e_alloc E) (CRaw _)). set (s1 := st_alloc s x1).
  assert (wf s1) as W1 by by apply wf_alloc.
  assert (heap s ⊆ heap s1) as S1 by (by apply keeps_alloc).
  erewrite bind_done.
  2:{ eapply (for64_pure (fun i => take i b) (schedule E ok) 0 _ (length b)); [done|lia|].
    intros i Hi. destruct (lookup_lt_is_Some_2 b i) as [d Hd]; [lia|].
    erewrite bind_done by (rewrite Z.add_0_l; apply aget_nat; by apply lookup_app_l_Some).
    by rewrite (take_S_r _ _ _ Hd). }
  rewrite take_ge by lia.
  pose proof (view_mono _ _ _ _ _ _ _ _ S1 Hv1) as Hv1'.
  erewrite bind_done by (by eapply tensor_dtype_ok).
  erewrite bind_done by (by eapply tensor_device_ok).
  destruct (create_granted t (a_dev T1) b HUndef E ok s1 W1 Hfb) as (s2 & q & pd & pm & ps & px & Hr & Ht & Hc).
  { rewrite Hq. cbn [s1 st_alloc ctr]. intros j Hj. apply Hy. lia. }
  rewrite Hq in Hc. cbn [s1 st_alloc ctr] in Hc.
  erewrite bind_done by exact Hr. cbv beta match. rewrite bool_decide_eq_true_2 by done. cbn [negb].
  assert (heap s1 !! ctr s = Some x1) as L1 by apply lookup_insert.
  erewrite bind_done.
  2:{ eapply raw_dealloc_ok; [eapply tnew_lookup; [exact Ht|exact L1]|symmetry; exact HHk]. }
  assert (tnew (e_alloc E) (ctr s1) (heap s) (st_free s2 (ctr s)) q pd pm ps px (dtype_of t) (a_dev T1) b
    (cells t (replicate (Z.to_nat (prodZ b)) VU))) as Ht3.
  { replace (heap s) with (delete (ctr s) (heap s1)).
    - apply tnew_free; [done|eauto].
    - cbn [s1 st_alloc heap]. apply delete_insert. by apply wf_fresh. }
  set (s3 := st_free s2 (ctr s)) in *. assert (ctr s3 = (ctr s + 6)%nat) as C3 by (cbn; lia).
  erewrite bind_done by (apply scratch_ok; [apply Hy; lia|lia]).
  erewrite bind_done by (apply scratch_ok; [apply Hy; cbn [st_alloc ctr]; lia|lia]).
  erewrite bind_done by (apply scratch_ok; [apply Hy; cbn [st_alloc ctr]; lia|lia]).
  cbn [is_null orb]. rewrite Nat2Z.id.
  set (x4 := Blk (e_alloc E) (CRaw _)).
  pose proof (tnew_alloc _ _ x4 Ht3) as Ht4. set (s4 := st_alloc s3 x4) in *.
  pose proof (tnew_alloc _ _ x4 Ht4) as Ht5. set (s5 := st_alloc s4 x4) in *.
  pose proof (tnew_alloc _ _ x4 Ht5) as Ht6. set (s6 := st_alloc s5 x4) in *.
  erewrite bind_done by (apply aset_nat; rewrite replicate_length, Hlen; lia).
  rewrite line_size_set by (apply to_int_id; llia).
  erewrite bind_done.
  2:{ apply size_to_dim_ok.
    - eapply fits_prefixes; [|exact Hf1]. apply tsz_pos.
    - rewrite app_length. lia.
    - lia. }
  rewrite take_app.
  erewrite bind_done by (by eapply tensor_data_ok, tnew_view).
  erewrite bind_done by (by eapply tensor_dtype_ok, tnew_view).
  apply bind_ub. destruct (Z.to_nat (prodZ b)) as [|n] eqn:En; [lia|]. cbn [iter_ret]. apply bind_ub. apply bind_ub.
  rewrite Hlen, replicate_add.
  rewrite <-(unravel_0 b) at 1 by done. 
  apply (slice_refused_at p1 T1); [..|split].
  - by eapply tnew_wf.
  - eapply holds_mono; [|exact H1]. etrans; [|by eapply tnew_base].
    assert (forall (h : gmap nat block) c (y : block), h !! c = None -> h ⊆ <[c := y]> h) as Hins by (intros; by apply insert_subseteq).
    do 2 (etrans; [|apply Hins; by eapply tnew_fresh]). apply Hins; by eapply tnew_fresh.
  - rewrite D1. rewrite <-Hlen. apply line_ok; [done|done|done|by apply unravel_in_box|by constructor].
  - rewrite <-Hlen. by rewrite line_dims.
  - intros j Hj. apply Hy. cbn in Hj. lia.
  - cbn. match goal with |- ok ?x = false => replace x with (ctr s + 10)%nat by lia end. done.
Qed.

(** ** Dot: the product of two tensors *)
Lemma dot_tt_refused b1 b2 k n : hooks_ok E ->
  Forall (fun d => 0 < d <= INT_MAX) (a_dims T1) -> Forall (fun d => 0 < d <= INT_MAX) (a_dims T2) ->
  (2 <= length b1)%nat -> (1 <= length b2)%nat -> fits (tsz t) (b1 ++ b2 ++ [n]) ->
  a_dims T1 = b1 ++ [k] -> a_dims T2 = b2 ++ [k; n] ->
  refuses_nth ok s 13 -> aitisa_dot (HPtr p1) (HPtr p2) o (schedule E ok) s = UB UB_oob.
Proof using All.
  intros HHk Hp1 Hp2 Hl1 Hl2 Hf3 D1 D2 [Hy Hno].
  rewrite (dot_unfold p1 p2 T1 T2) by done. rewrite D1, D2, !app_length. cbn [length].
  replace ((Z.of_nat (length b1 + 1) =? 1) && (Z.of_nat (length b2 + 2) =? 1)) with false by lia.
  replace ((Z.of_nat (length b1 + 1) =? 2) && (Z.of_nat (length b2 + 2) =? 2)) with false by lia.
  replace ((Z.of_nat (length b1 + 1) =? 0) || (Z.of_nat (length b2 + 2) =? 0)) with false by lia.
  replace (Z.of_nat (length b2 + 2) =? 1) with false by lia.
  replace ((2 <? Z.of_nat (length b1 + 1)) && (2 <? Z.of_nat (length b2 + 2))) with true by lia. cbv beta match.
  unfold multidim_dot.
  pose proof H1 as (HvT & bx1 & tg1 & ex1 & Hv1 & Hx1). pose proof H2 as (HvT2 & bx2 & tg2 & ex2 & Hv2 & Hx2).
  pose proof (valid_fits _ HvT) as Hf1. pose proof (fits_len _ _ Hf1) as Hn1.
  pose proof (valid_fits _ HvT2) as Hf2. rewrite Hty in Hf2. pose proof (fits_len _ _ Hf2) as Hn2.
  pose proof (fits_len _ _ Hf3) as Hn3. pose proof (fits_bytes _ _ Hf3) as Hby3. pose proof (fits_bytes _ _ Hf2) as Hby2.
  pose proof Hp1 as Hp. rewrite D1 in Hp. apply Forall_app in Hp as [Hpb1 Hk]. apply Forall_cons in Hk as [Hk _].
  pose proof Hp2 as Hp. rewrite D2 in Hp. apply Forall_app in Hp as [Hpb2 Hn]. apply Forall_cons in Hn as [_ Hn].
  apply Forall_cons in Hn as [Hn _].
  pose proof (pos_of _ Hpb1) as Hpb1'. pose proof (prodZ_pos _ Hpb1') as Hpp1.
  pose proof (pos_of _ Hpb2) as Hpb2'. pose proof (prodZ_pos _ Hpb2') as Hpp2.
  rewrite D1 in Hv1, Hf1, Hn1. rewrite D2 in Hv2, Hf2, Hn2, Hby2.
  set (B2 := b2 ++ [n]) in *.
  assert (prodZ B2 = prodZ b2 * n) as HpB2 by (subst B2; by rewrite prodZ_snoc).
  assert (fits (tsz t) B2) as HfB2 by (eapply ProofUnknown4.fits_sublist; [|exact Hf3]; by apply sublist_inserts_l).
  assert (prodZ B2 <= INT64_MAX) as HmB2 by (apply (fits_size (tsz t)); [apply tsz_pos|done]).
  assert (requests (b1 ++ B2) = 5%nat) as Hq by (by destruct b1; [cbn in Hl1; lia|]).
  assert (length (b1 ++ [k]) = (length b1 + 1)%nat) as Hln1 by (by rewrite app_length).
  assert (Z.of_nat (length (b1 ++ [k])) = Z.of_nat (length b1) + 1) as Hnd1 by (rewrite app_length; cbn; lia).
  assert (Z.of_nat (length (b2 ++ [k; n])) = Z.of_nat (length b2) + 2) as Hnd2 by (rewrite app_length; cbn; lia).
  assert (length (b1 ++ B2) = length b1 + length b2 + 1)%nat as Hnd3 by (subst B2; rewrite !app_length; cbn; lia).
  erewrite bind_done by (by eapply tensor_ndim_ok).
  erewrite bind_done by (by eapply tensor_ndim_ok).
  erewrite bind_done by (by eapply tensor_dims_ok).
  erewrite bind_done by (by eapply tensor_dims_ok).
  replace (Z.of_nat (length (b1 ++ [k])) - 1) with (Z.of_nat (length b1)) by lia.
  replace (Z.of_nat (length (b2 ++ [k; n])) - 2) with (Z.of_nat (length b2)) by lia.
  erewrite bind_done by (apply aget_nat; by rewrite list_lookup_middle).
  erewrite bind_done by (apply aget_nat; by rewrite list_lookup_middle). rewrite Z.eqb_refl. cbn [negb]. cbv zeta.
  replace (Z.of_nat (length (b1 ++ [k])) + Z.of_nat (length (b2 ++ [k; n])) - 2)
    with (Z.of_nat (length (b1 ++ B2))) by lia.
  assert (INT_MAX <= PTRDIFF_MAX) as HIP by done. assert (8 * INT_MAX <= PTRDIFF_MAX) as HIP8 by done.
  erewrite bind_done by (apply scratch_ok; [apply Hy; lia|lia]). cbn [is_null].
  set (x1 := Blk (e_alloc E) (CRaw _)). set (s1 := st_alloc s x1). set (N := length (b1 ++ B2)) in *.
  assert (wf s1) as W1 by by apply wf_alloc.
  assert (heap s ⊆ heap s1) as S1 by (by apply keeps_alloc).
  erewrite bind_done.
  2:{ eapply (for64_pure (fun i => filled N (take i b1)) (schedule E ok) 0 _ (length b1)); [|lia|].
    { unfold filled. cbn. by rewrite Nat2Z.id, Nat.sub_0_r. }
    intros i Hi. destruct (lookup_lt_is_Some_2 b1 i) as [d Hd]; [lia|].
    erewrite bind_done by (rewrite Z.add_0_l; apply aget_nat; by apply lookup_app_l_Some).
    rewrite Z.add_0_l. erewrite aset_nat by (rewrite filled_length; rewrite ?take_length; lia).
    rewrite (take_S_r _ _ _ Hd), <-filled_set by (rewrite take_length; lia).
    rewrite take_length. do 3 f_equal. lia. }
  rewrite take_ge by lia.
  erewrite bind_done.
  2:{ eapply (for64_pure (fun i => filled N (b1 ++ take i b2 ++ (if decide (length b2 + 2 <= i)%nat then [n] else [])))
      (schedule E ok) 0 _ (length b2 + 2)).
    { rewrite decide_False by lia. by rewrite take_0, !app_nil_r. }
    { lia. }
    intros i Hi. rewrite Z.add_0_l.
    destruct (decide (i < length b2)%nat).
    - replace (Z.of_nat i <? Z.of_nat (length b2)) with true by lia.
      destruct (lookup_lt_is_Some_2 b2 i) as [d Hd]; [lia|].
      erewrite bind_done by (apply aget_nat; by apply lookup_app_l_Some).
      rewrite !decide_False by lia. rewrite !app_nil_r.
      erewrite aset_Z by (rewrite filled_length; rewrite ?app_length, ?take_length; cbn [length]; lia).
      rewrite (take_S_r _ _ _ Hd), app_assoc, <-filled_set by (rewrite app_length, take_length; lia).
      rewrite !app_length, take_length. cbn [length]. do 3 f_equal. lia.
    - replace (Z.of_nat i <? Z.of_nat (length b2)) with false by lia.
      rewrite (take_ge b2 i), (take_ge b2 (S i)) by lia.
      destruct (decide (i = length b2)) as [->|Hne].
      + replace (Z.of_nat (length b2) <? Z.of_nat (length b2)) with false by lia.
        rewrite !decide_False by lia. done.
      + assert (i = length b2 + 1)%nat as -> by lia.
        replace (Z.of_nat (length b2) <? Z.of_nat (length b2 + 1)) with true by lia.
        erewrite bind_done.
        2:{ apply aget_nat. rewrite lookup_app_r by lia. by replace (length b2 + 1 - length b2)%nat with 1%nat by lia. }
        rewrite decide_False, decide_True by lia. rewrite !app_nil_r.
        erewrite aset_Z by (rewrite filled_length; rewrite ?app_length; cbn [length]; lia).
        rewrite (app_assoc b1), <-filled_set by (rewrite app_length; lia).
        rewrite !app_length. cbn [length]. do 3 f_equal. lia. }
  rewrite decide_True, take_ge by lia. fold B2. subst N. rewrite filled_full.
  erewrite bind_done by (apply force_array_ok).
  pose proof (view_mono _ _ _ _ _ _ _ _ S1 Hv1) as Hv1'.
  erewrite bind_done by (by eapply tensor_dtype_ok).
  erewrite bind_done by (by eapply tensor_device_ok).
  destruct (create_granted t (a_dev T1) (b1 ++ B2) HUndef E ok s1 W1 Hf3) as (s2 & q & pd & pm & ps & px & Hr & Ht & Hc).
  { rewrite Hq. cbn [s1 st_alloc ctr]. intros j Hj. apply Hy. lia. }
  rewrite Hq in Hc. cbn [s1 st_alloc ctr] in Hc.
  erewrite bind_done by exact Hr. cbv beta match. rewrite bool_decide_eq_true_2 by done. cbn [negb].
  assert (heap s1 !! ctr s = Some x1) as L1 by apply lookup_insert.
  erewrite bind_done.
  2:{ eapply raw_dealloc_ok; [eapply tnew_lookup; [exact Ht|exact L1]|symmetry; exact HHk]. }
  assert (tnew (e_alloc E) (ctr s1) (heap s) (st_free s2 (ctr s)) q pd pm ps px (dtype_of t) (a_dev T1) (b1 ++ B2)
    (cells t (replicate (Z.to_nat (prodZ (b1 ++ B2))) VU))) as Ht3.
  { replace (heap s) with (delete (ctr s) (heap s1)).
    - apply tnew_free; [done|eauto].
    - cbn [s1 st_alloc heap]. apply delete_insert. by apply wf_fresh. }
  set (s3 := st_free s2 (ctr s)) in *. assert (ctr s3 = (ctr s + 6)%nat) as C3 by (cbn; lia).
  erewrite bind_done by (apply scratch_ok; [apply Hy; lia|lia]).
  do 5 (erewrite bind_done by (apply scratch_ok; [apply Hy; cbn [st_alloc ctr]; lia|lia])).
  cbn [is_null orb]. rewrite !Nat2Z.id.
  set (x4 := Blk (e_alloc E) (CRaw (4 * Z.of_nat (length (b1 ++ [k]))))).
  set (x5 := Blk (e_alloc E) (CRaw (4 * Z.of_nat (length (b2 ++ [k; n]))))).
  pose proof (tnew_alloc _ _ x4 Ht3) as Ht4. set (s4 := st_alloc s3 x4) in *.
  pose proof (tnew_alloc _ _ x5 Ht4) as Ht5. set (s5 := st_alloc s4 x5) in *.
  pose proof (tnew_alloc _ _ x4 Ht5) as Ht6. set (s6 := st_alloc s5 x4) in *.
  pose proof (tnew_alloc _ _ x5 Ht6) as Ht7. set (s7 := st_alloc s6 x5) in *.
  pose proof (tnew_alloc _ _ x4 Ht7) as Ht8. set (s8 := st_alloc s7 x4) in *.
  pose proof (tnew_alloc _ _ x5 Ht8) as Ht9. set (s9 := st_alloc s8 x5) in *.
  erewrite bind_done by (apply aset_nat; rewrite replicate_length, app_length; cbn; lia).
  rewrite line_size_set by (apply to_int_id; llia).
  erewrite bind_done by (apply aset_nat; rewrite replicate_length, app_length; cbn; lia).
  erewrite bind_done.
  2:{ apply size_to_dim_ok.
    - eapply fits_prefixes; [|exact Hf1]. apply tsz_pos.
    - rewrite app_length. lia.
    - lia. }
  rewrite take_app.
  erewrite bind_done.
  2:{ apply size_of_dims_ok; [|done|lia]. eapply fits_prefixes; [|exact Hf2]. apply tsz_pos. }
  rewrite prodZ_app, !prodZ_cons, prodZ_nil.
  erewrite bind_done.
  2:{ apply div64_ok; [lia|]. rewrite quot_mul_l by lia. split; [|lia].
    unfold INT64_MIN. enough (0 <= prodZ b2 * n) by lia. apply Z.mul_nonneg_nonneg; lia. }
  erewrite bind_done by (by eapply tensor_data_ok, tnew_view).
  erewrite bind_done by (by eapply tensor_dtype_ok, tnew_view).
  apply bind_ub. destruct (Z.to_nat (prodZ b1)) as [|m] eqn:En; [lia|]. cbn [iter_ret]. apply bind_ub. apply bind_ub.
  rewrite Hln1, replicate_add.
  rewrite <-(unravel_0 b1) at 1 by done.
  apply (slice_refused_at p1 T1); [..|split].
  - by eapply tnew_wf.
  - eapply holds_mono; [|exact H1]. etrans; [|by eapply tnew_base].
    assert (forall (h : gmap nat block) c (y : block), h !! c = None -> h ⊆ <[c := y]> h) as Hins by (intros; by apply insert_subseteq).
    do 5 (etrans; [|apply Hins; by eapply tnew_fresh]). apply Hins; by eapply tnew_fresh.
  - rewrite D1. rewrite <-Hln1. apply line_ok; [done|done|done|by apply unravel_in_box|by constructor].
  - rewrite <-Hln1. by rewrite line_dims.
  - intros j Hj. apply Hy. cbn in Hj. lia.
  - cbn. match goal with |- ok ?x = false => replace x with (ctr s + 13)%nat by lia end. done.
Qed.
End dot.
