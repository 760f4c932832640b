(** * ProofDot7: contractions outside their domain *)
From stdpp Require Import gmap list.
From Coq Require Import ZArith Lia Floats.SpecFloat.
From Coq Require Import ZifyBool ZifyNat.
From Verif Require Import Base Mem Spec SpecProduct SpecDot ModelCore ModelBasic ModelMath Logic ProofCore ProofCore2 ProofCore3 ProofIndex
  ProofKernel ProofKernel2 ProofBasic ProofSlice ProofFrame ProofMatmul ProofMatmul2 ProofMatmul3 ProofDot ProofDot3 ProofDot4 ProofDot5
  ProofDot6 ProofExact ProofProduct ProofBatch.
Open Scope Z_scope.
Ltac Zify.zify_post_hook ::= Z.div_mod_to_equations.

Lemma iter_ret_ub {S R} (I : nat -> S -> st -> Prop) E n i0 (body : Z -> S -> M (ctl S R)) x s j u :
  (j < n)%nat -> I O x s ->
  (forall k x s, (k < j)%nat -> I k x s ->
     wp (body (i0 + Z.of_nat k) x) E s (fun c s' => exists x', c = Next x' /\ I (Datatypes.S k) x' s')) ->
  (forall x s, I j x s -> body (i0 + Z.of_nat j) x E s = UB u) ->
  iter_ret n i0 body x E s = UB u.
Proof.
  revert I n i0 x s. induction j as [|j IH]; intros I n i0 x s Hj H0 Hs Hu.
  - destruct n as [|n]; [lia|]. cbn [iter_ret]. apply bind_UB.
    specialize (Hu x s H0). by rewrite Z.add_0_r in Hu.
  - destruct n as [|n]; [lia|]. cbn [iter_ret].
    pose proof (Hs O x s ltac:(lia) H0) as Hw. rewrite Z.add_0_r in Hw.
    apply wp_elim in Hw as (y & s' & Hb & x' & -> & HI). erewrite bind_done by exact Hb. cbv beta match.
    apply (IH (fun k => I (Datatypes.S k))); [lia|done| |].
    + intros k z s'' Hk Hz. replace (i0 + 1 + Z.of_nat k) with (i0 + Z.of_nat (Datatypes.S k)) by lia.
      apply Hs; [lia|done].
    + intros z s'' Hz. replace (i0 + 1 + Z.of_nat j) with (i0 + Z.of_nat (Datatypes.S j)) by lia. by apply Hu.
Qed.

Lemma ck32_over z E s : INT_MAX < z -> ck32 z E s = UB UB_overflow.
Proof. intros H. unfold ck32, bind, check. replace ((INT_MIN <=? z) && (z <=? INT_MAX)) with false by lia. done. Qed.
Lemma check_fails b u E s : b = false -> check b u E s = UB u.
Proof. by intros ->. Qed.

Lemma create_done t dev dims o E s :
  wf s -> alloc_all E -> fits (tsz t) dims ->
  exists s' q pd pm ps px, aitisa_create (dtype_of t) dev dims (Z.of_nat (length dims)) HNull 0 o E s = Done (SUCCESS, HPtr q) s' /\
     tnew (e_alloc E) (ctr s) (heap s) s' q pd pm ps px (dtype_of t) dev dims (cells t (replicate (Z.to_nat (prodZ dims)) VU)) /\
     rpos s' = rpos s.
Proof.
  intros Hwf HA Hf.
  assert (wp (aitisa_create (dtype_of t) dev dims (Z.of_nat (length dims)) HNull 0 o) E s (fun r s' => exists q pd pm ps px, r = (SUCCESS, HPtr q) /\
     tnew (e_alloc E) (ctr s) (heap s) s' q pd pm ps px (dtype_of t) dev dims (cells t (replicate (Z.to_nat (prodZ dims)) VU)) /\
     rpos s' = rpos s)) as Hw.
  { eapply create_t_rule; [done|done| |].
    - intros s' q pd pm ps px Ht Hr. by exists q, pd, pm, ps, px.
    - intros s' Hn. by destruct Hn. }
  apply wp_elim in Hw as (r & s' & Hd & q & pd & pm & ps & px & -> & Ht & Hr). by exists s', q, pd, pm, ps, px.
Qed.

Section ub_free.
Context {E : env} {lo : nat} {base h : gmap nat block} {s : st} {p pd pm ps px : nat} {t : dtype} {dev : device} {dims : list Z} {l : list mv}.
Let T h s := tnew (e_alloc E) lo h s p pd pm ps px t dev dims l.
Lemma ub_scr_free {B} L1 b L2 (k : unit -> M B) u :
  hooks_ok E -> T h s -> frame (e_alloc E) (L1 ++ b :: L2) base h ->
  (forall h' s', T h' s' -> frame (e_alloc E) (L1 ++ L2) base h' -> rpos s' = rpos s -> k tt E s' = UB u) ->
  bind (raw_dealloc (HPtr b)) k E s = UB u.
Proof using Type.
  intros HE HT HF Hk.
  destruct (frame_lookup _ _ b HF) as (x & Hx & Hxt); [apply elem_of_app; right; left|].
  assert (b_tag x = e_dealloc E) as Hxd by (rewrite Hxt; by symmetry).
  erewrite bind_done; [|apply (raw_dealloc_ok s b x); [eapply tnew_lookup; [exact HT|exact Hx]|exact Hxd]].
  apply (Hk (delete b h)); [apply tnew_free; [done|eauto]|by apply frame_free|done].
Qed.
End ub_free.

(** ** Two vectors whose inner product overflows *)
Lemma vv_dot_stuck p1 p2 T1 T2 k o E s :
  wf s -> alloc_all E -> holds (heap s) p1 T1 -> holds (heap s) p2 T2 -> a_type T2 = a_type T1 ->
  dev_type (a_dev T1) = 0 -> dev_type (a_dev T2) = 0 -> a_dims T1 = [k] -> a_dims T2 = [k] ->
  inner (a_type T1) k (fun q => at_ T1 [q]) (fun q => at_ T2 [q]) = None ->
  vector_vector_dot (HPtr p1) (HPtr p2) o E s = UB UB_overflow.
Proof.
  intros Hwf HA H1 H2 Hty Hc1 Hc2 D1 D2 Hin.
  transitivity (aitisa_dot (HPtr p1) (HPtr p2) o E s).
  { rewrite (dot_unfold p1 p2 T1 T2) by done. by rewrite D1, D2. }
  rewrite (dot_is_matmul p1 p2 T1 T2 o E s Hwf H1 H2 Hty Hc1 Hc2 k k D1 D2).
  apply (vv_every p1 p2 T1 T2 o E s Hwf HA H1 H2 Hty Hc1 Hc2 k D1 D2).
  intros (_ & _ & _ & H). destruct (H 0 0 ltac:(lia) ltac:(lia)) as [w Hw]. cbv beta in Hw. congruence.
Qed.

Lemma quot_small a c x : 0 < a -> 1 <= c -> c * (a * x) <= INT64_MAX -> x <= INT64_MAX.
Proof. intros Ha Hc H. assert (1 <= c * a) by nia. unfold INT64_MAX in *. nia. Qed.

Section dot.
Context (p1 p2 : nat) (T1 T2 T3 : atensor) (o : hval) (E : env) (s : st).
Context (Hwf : wf s) (HAl : alloc_all E) (HHk : hooks_ok E)
  (H1 : holds (heap s) p1 T1) (H2 : holds (heap s) p2 T2)
  (Hty : a_type T2 = a_type T1)
  (Hc1 : dev_type (a_dev T1) = 0) (Hc2 : dev_type (a_dev T2) = 0)
  (Hp1 : Forall (fun d => 0 < d <= INT_MAX) (a_dims T1)) (Hp2 : Forall (fun d => 0 < d <= INT_MAX) (a_dims T2))
  (HT3 : valid T3) (Ht3 : a_type T3 = a_type T1) (Hd3 : a_dev T3 = a_dev T1).
Let t := a_type T1.

Lemma dot_tv_stuck b k :
  a_dims T1 = b ++ [k] -> a_dims T2 = [k] -> a_dims T3 = b ->
  (forall c w, in_box b c -> inner t k (fun q => at_ T1 (c ++ [q])) (fun q => at_ T2 [q]) = Some w -> at_ T3 c = w) ->
  ~ contract_vec_ok t b k (fun c q => at_ T1 (c ++ [q])) (fun q => at_ T2 [q]) ->
  tensor_vector_dot (HPtr p1) (HPtr p2) o E s = UB UB_overflow.
Proof using All.
  intros D1 D2 D3 Hin Hno. 
  unfold tensor_vector_dot.
  open_holds H1 Hv1 Hx1. open_holds H2 Hv2 Hx2. rewrite Hty in *.
  pose proof (valid_fits _ HvT) as Hf1. pose proof (fits_len _ _ Hf1) as Hn1.
  pose proof Hp1 as Hp. rewrite D1 in Hp. apply Forall_app in Hp as [Hpb Hk]. apply Forall_cons in Hk as [Hk _].
  pose proof (pos_of _ Hpb) as Hpb'. pose proof (prodZ_pos _ Hpb') as Hpp.
  rewrite D1 in Hv1, Hf1, Hn1. rewrite D2 in Hv2.
  assert (Z.of_nat (length (b ++ [k])) = Z.of_nat (length b) + 1) as Hnd by (rewrite app_length; cbn; lia).
  eapply ub_step; [by eapply tensor_ndim_ok|].
  eapply ub_step; [by eapply tensor_dims_ok|].
  eapply ub_step; [by eapply tensor_dims_ok|].
  replace (Z.of_nat (length (b ++ [k])) - 1) with (Z.of_nat (length b)) by lia.
  eapply ub_step; [apply aget_nat; by rewrite list_lookup_middle|].
  eapply ub_step; [by apply (aget_nat [k] 0 k)|]. rewrite Z.eqb_refl. cbn [negb]. cbv zeta.
  pose proof (frame_nil (tag := e_alloc E) (base := heap s)) as HF.
  assert (INT_MAX <= PTRDIFF_MAX) as HIP by done. assert (8 * INT_MAX <= PTRDIFF_MAX) as HIP8 by done.
  eapply ub_scr0; [done|lia|done|exact HF|]. clear HF. intros pp s1 Hwf1 HF1 Hr1 Hct1 Hsub1.
  cbn [is_null].
  eapply ub_step.
  { eapply (for64_pure (fun i => take i b) E 0 _ (length b)); [done|lia|].
    intros i Hi. destruct (lookup_lt_is_Some_2 b i) as [d Hd]; [lia|].
    erewrite bind_done by (rewrite Z.add_0_l; apply aget_nat; by apply lookup_app_l_Some).
    by rewrite (take_S_r _ _ _ Hd). }
  rewrite take_ge by lia.
  pose proof (view_mono _ _ _ _ _ _ _ _ Hsub1 Hv1) as Hv1'.
  eapply ub_step; [by eapply tensor_dtype_ok|].
  eapply ub_step; [by eapply tensor_device_ok|].
  destruct (create_done (a_type T1) (a_dev T1) b HUndef E s1) as (s2 & q & pd & pm & ps & px & Hcr & Ht & Hr2);
    [done|done|rewrite <-D3, <-Ht3; apply valid_fits, HT3|].
  eapply ub_step; [exact Hcr|]. cbv beta match. rewrite bool_decide_eq_true_2 by done. cbn [negb].
  eapply (ub_scr_free [] pp []); [done|exact Ht|exact HF1|]. intros h3 s3 HT3' HF3 Hr3. cbn [app] in HF3.
  eapply ub_scr; [done| |exact HT3'|exact HF3|]; [lia|]. intros q1 h4 s4 HT4 HF4 Hr4 _.
  eapply ub_scr; [done| |exact HT4|exact HF4|]; [lia|]. intros q2 h5 s5 HT5 HF5 Hr5 _.
  eapply ub_scr; [done| |exact HT5|exact HF5|]; [lia|]. intros q3 h6 s6 HT6 HF6 Hr6 _.
  cbn [is_null orb]. clear HT3' HF3 HT4 HF4 HT5 HF5 HF1 Ht.
  rewrite Nat2Z.id.
  eapply ub_step; [apply aset_nat; rewrite replicate_length, app_length; cbn; lia|].
  rewrite line_size_set by (apply to_int_id; llia).
  eapply ub_step.
  { apply size_to_dim_ok.
    - eapply fits_prefixes; [|exact Hf1]. destruct (a_type T1); cbn; lia.
    - rewrite app_length. lia.
    - lia. }
  rewrite take_app.
  eapply ub_step; [by eapply tensor_data_ok, tnew_view|].
  eapply ub_step; [by eapply tensor_dtype_ok, tnew_view|].
  cbn [dtype_of d_size].
  pose proof (valid_len_nat _ HT3) as Hlen. rewrite D3 in Hlen.
  set (ws := a_vals T3) in *.
  set (TN := fun s' vs => tnew (e_alloc E) (ctr s1) h6 s' q pd pm ps px (dtype_of t) (a_dev T1) b (cells t vs)).
  assert (1 <= Z.of_nat (tsz t) <= 8) as Hsz by (subst t; destruct (a_type T1); cbn; lia).
  set (good := fun v : nat => is_Some (inner t k (fun q => at_ T1 (unravel b (Z.of_nat v) ++ [q])) (fun q => at_ T2 [q])) /\
    Z.of_nat v * Z.of_nat (tsz t) <= INT_MAX /\ Z.of_nat v < INT_MAX).
  assert (forall v, Decision (good v)) as Hdec by (intros v; unfold good; apply _).
  destruct (first_index (fun v => negb (bool_decide (good v))) (Z.to_nat (prodZ b))) as [Hall|(jb & Hjb & Hbad & Hbef)].
  { exfalso. apply Hno.
    assert (forall v, (v < Z.to_nat (prodZ b))%nat -> good v) as Hg.
    { intros v Hv. specialize (Hall v Hv). destruct (bool_decide_reflect (good v)); [done|discriminate]. }
    destruct (Hg (Z.to_nat (prodZ b) - 1)%nat ltac:(lia)) as (_ & X1 & X2).
    replace (Z.of_nat (Z.to_nat (prodZ b) - 1)) with (prodZ b - 1) in X1, X2 by lia. split_and!; [lia|done|].
    intros c Hc. pose proof (ravel_bound _ _ Hc) as Hrb.
    destruct (Hg (Z.to_nat (ravel b c)) ltac:(lia)) as (X & _). rewrite Z2Nat.id, unravel_ravel in X by (done || lia). exact X. }
  assert (~ good jb) as Hbad' by (destruct (bool_decide_reflect (good jb)); [discriminate|done]). clear Hbad. rename Hbad' into Hbad.
  assert (forall v, (v < jb)%nat -> good v) as Hgood.
  { intros v Hv. specialize (Hbef v Hv). destruct (bool_decide_reflect (good v)); [done|discriminate]. }
  clear Hbef. apply bind_UB.
  apply (iter_ret_ub (fun v idx s' => idx = unravel b (Z.of_nat v) ++ [0] /\
      TN s' (prog VU ws v) /\ rpos s' = rpos s)) with (j := jb); [done| | |].
    - split_and!.
      + rewrite unravel_0 by done. rewrite app_length, replicate_add. done.
      + rewrite prog_0, <-Hlen. exact HT6.
      + congruence.
    - intros v idx s' Hv (-> & HT & Hr). rewrite Z.add_0_l.
      pose proof (unravel_in_box b (Z.of_nat v) Hpb') as Hbox.
      assert (v < Z.to_nat (prodZ b))%nat as Hvn by lia. assert (v < length ws)%nat as Hvl by lia.
      destruct (Hgood v Hv) as ((w & Hw) & Hoff' & Hcnt).
      assert (0 <= Z.of_nat v * Z.of_nat (tsz t) <= INT_MAX) as Hoff by lia.
      pose proof (tnew_base _ _ HT) as Hsub'. pose proof (frame_sub _ _ HF6) as HsubF.
      pose proof (tnew_wf _ _ HT) as Hwf'.
      assert (holds (heap s') p1 T1) as H1' by (eapply holds_mono; [|exact H1]; by etrans).
      assert (holds (heap s') p2 T2) as H2' by (eapply holds_mono; [|exact H2]; by etrans).
      destruct (line_rule p1 T1 b k [] (unravel b (Z.of_nat v)) [] HUndef E s' Hwf' HAl HHk H1' D1 Hp1 Hbox
        ltac:(by constructor)) as (s7 & vec & Hrun & HV).
      eapply wp_step; [exact Hrun|]. cbv beta match. rewrite bool_decide_eq_true_2 by done. cbn [negb].
      pose proof (created_holds _ _ _ _ _ _ HV) as HhV.
      pose proof (holds_mono _ _ _ _ (created_sub _ _ _ _ _ _ HV) H2') as H2''.
      assert (inner t k (fun q => at_ (line T1 b k [] (unravel b (Z.of_nat v)) []) [q]) (fun q => at_ T2 [q])
              = Some (at_ T3 (unravel b (Z.of_nat v)))) as Hinv.
      { rewrite (Hin _ w Hbox Hw), <-Hw. apply inner_ext. intros y Hy. split; [|done]. apply line_at; [done|done|by constructor|done]. }
      pose proof (vv_dot_rule vec p2 (line T1 b k [] (unravel b (Z.of_nat v)) []) T2 _ k HUndef E s7
        (created_wf _ _ _ _ _ _ Hwf' HV) HhV H2'' Hty eq_refl D2 ltac:(lia) Hinv) as Hvv.
      apply makes_or_nomem_alloc in Hvv as (s8 & res & Hrun2 & HR); [|done].
      eapply wp_step; [exact Hrun2|]. cbv beta match. rewrite bool_decide_eq_true_2 by done. cbn [negb].
      destruct (store_result HHk _ _ _ _ _ _ _ _ _ v HT ltac:(rewrite prog_length; lia) HV HR)
        as (rx & s9 & s10 & s11 & Hd & Hm & Hde & Hde2 & HT' & Hr').
      eapply wp_step; [exact Hd|].
      eapply wp_step; [apply ck32_ok; subst t; unfold INT_MIN; lia|].
      eapply wp_step; [exact Hm|].
      eapply wp_step.
      { replace (length (b ++ [k]) - 1)%nat with (length b) by (rewrite app_length; cbn; lia).
        by apply advance_prefix. }
      eapply wp_step; [exact Hde|].
      eapply wp_step; [exact Hde2|].
      eapply wp_step; [apply check_ok; lia|].
      apply wp_ret. eexists. split; [done|]. split_and!.
      + f_equal. f_equal. lia.
      + rewrite prog_step in HT'; [exact HT'|].
        pose proof (at_lookup T3 v HT3 ltac:(done)) as Hat. rewrite D3 in Hat. rewrite Hat.
        destruct (lookup_lt_is_Some_2 ws v Hvl) as [w' Hw']. fold ws. by rewrite Hw'.
      + congruence.
    - set (v := jb). intros idx s' (-> & HT & Hr). rewrite Z.add_0_l.
      pose proof (unravel_in_box b (Z.of_nat v) Hpb') as Hbox.
      assert (v < length ws)%nat as Hvl by lia.
      pose proof (tnew_base _ _ HT) as Hsub'. pose proof (frame_sub _ _ HF6) as HsubF.
      pose proof (tnew_wf _ _ HT) as Hwf'.
      assert (holds (heap s') p1 T1) as H1' by (eapply holds_mono; [|exact H1]; by etrans).
      assert (holds (heap s') p2 T2) as H2' by (eapply holds_mono; [|exact H2]; by etrans).
      destruct (line_rule p1 T1 b k [] (unravel b (Z.of_nat v)) [] HUndef E s' Hwf' HAl HHk H1' D1 Hp1 Hbox
        ltac:(by constructor)) as (s7 & vec & Hrun & HV).
      eapply ub_step; [exact Hrun|]. cbv beta match. rewrite bool_decide_eq_true_2 by done. cbn [negb].
      pose proof (created_holds _ _ _ _ _ _ HV) as HhV.
      pose proof (holds_mono _ _ _ _ (created_sub _ _ _ _ _ _ HV) H2') as H2''.
      assert (inner t k (fun q => at_ (line T1 b k [] (unravel b (Z.of_nat v)) []) [q]) (fun q => at_ T2 [q])
              = inner t k (fun q => at_ T1 (unravel b (Z.of_nat v) ++ [q])) (fun q => at_ T2 [q])) as Hinv.
      { apply inner_ext. intros y Hy. split; [|done]. apply line_at; [done|done|by constructor|done]. }
      destruct (inner t k (fun q => at_ T1 (unravel b (Z.of_nat v) ++ [q])) (fun q => at_ T2 [q])) as [w|] eqn:Hw.
      2:{ apply bind_UB. eapply (vv_dot_stuck vec p2 (line T1 b k [] (unravel b (Z.of_nat v)) []) T2 k);
            [by eapply created_wf|done|done|done|done|done|done|done|done|exact Hinv]. }
      pose proof (vv_dot_rule vec p2 (line T1 b k [] (unravel b (Z.of_nat v)) []) T2 _ k HUndef E s7
        (created_wf _ _ _ _ _ _ Hwf' HV) HhV H2'' Hty eq_refl D2 ltac:(lia) Hinv) as Hvv.
      apply makes_or_nomem_alloc in Hvv as (s8 & res & Hrun2 & HR); [|done].
      eapply ub_step; [exact Hrun2|]. cbv beta match. rewrite bool_decide_eq_true_2 by done. cbn [negb].
      destruct (store_result HHk _ _ _ _ _ _ _ _ _ v HT ltac:(rewrite prog_length; lia) HV HR)
        as (rx & s9 & s10 & s11 & Hd & Hm & Hde & Hde2 & HT' & Hr').
      eapply ub_step; [exact Hd|].
      destruct (decide (INT_MAX < Z.of_nat v * Z.of_nat (tsz t))) as [Hbig|Hsmall].
      { apply bind_UB. apply ck32_over. done. }
      eapply ub_step; [apply ck32_ok; subst t; unfold INT_MIN; lia|].
      eapply ub_step; [exact Hm|].
      eapply ub_step.
      { replace (length (b ++ [k]) - 1)%nat with (length b) by (rewrite app_length; cbn; lia).
        by apply advance_prefix. }
      eapply ub_step; [exact Hde|].
      eapply ub_step; [exact Hde2|].
      apply bind_UB. apply check_fails.
      destruct (decide (Z.of_nat v < INT_MAX)) as [Hlt|]; [|lia]. exfalso. apply Hbad. split_and!; [exists w; exact Hw|lia|done].
Qed.

Lemma dot_tt_stuck b1 b2 k n :
  a_dims T1 = b1 ++ [k] -> a_dims T2 = b2 ++ [k; n] -> a_dims T3 = b1 ++ b2 ++ [n] ->
  (forall c e j w, in_box b1 c -> in_box b2 e -> 0 <= j < n ->
     inner t k (fun q => at_ T1 (c ++ [q])) (fun q => at_ T2 (e ++ [q; j])) = Some w -> at_ T3 (c ++ e ++ [j]) = w) ->
  ~ contract_ok t b1 b2 n k (fun c q => at_ T1 (c ++ [q])) (fun e q j => at_ T2 (e ++ [q; j])) ->
  multidim_dot (HPtr p1) (HPtr p2) o E s = UB UB_overflow.
Proof using All.
  intros D1 D2 D3 Hin Hno. 
  unfold multidim_dot.
  open_holds H1 Hv1 Hx1. open_holds H2 Hv2 Hx2. rewrite Hty in *.
  pose proof (valid_fits _ HvT) as Hf1. pose proof (fits_len _ _ Hf1) as Hn1.
  pose proof (valid_fits _ HvT0) as Hf2. rewrite Hty in Hf2. pose proof (fits_len _ _ Hf2) as Hn2.
  pose proof (valid_fits _ HT3) as Hf3. rewrite Ht3 in Hf3. pose proof (fits_len _ _ Hf3) as Hn3.
  pose proof (fits_bytes _ _ Hf3) as Hby3. pose proof (fits_bytes _ _ Hf2) as Hby2.
  pose proof Hp1 as Hp. rewrite D1 in Hp. apply Forall_app in Hp as [Hpb1 Hk]. apply Forall_cons in Hk as [Hk _].
  pose proof Hp2 as Hp. rewrite D2 in Hp. apply Forall_app in Hp as [Hpb2 Hn]. apply Forall_cons in Hn as [_ Hn].
  apply Forall_cons in Hn as [Hn _].
  pose proof (pos_of _ Hpb1) as Hpb1'. pose proof (prodZ_pos _ Hpb1') as Hpp1.
  pose proof (pos_of _ Hpb2) as Hpb2'. pose proof (prodZ_pos _ Hpb2') as Hpp2.
  rewrite D1 in Hv1, Hf1, Hn1. rewrite D2 in Hv2, Hf2, Hn2, Hby2.
  set (B2 := b2 ++ [n]) in *.
  assert (Forall (fun d => 0 < d) B2) as HB2 by (apply Forall_app; split; [done|repeat constructor; lia]).
  assert (prodZ B2 = prodZ b2 * n) as HpB2 by (subst B2; by rewrite prodZ_snoc).
  assert (Z.of_nat (length (b1 ++ [k])) = Z.of_nat (length b1) + 1) as Hnd1 by (rewrite app_length; cbn; lia).
  assert (Z.of_nat (length (b2 ++ [k; n])) = Z.of_nat (length b2) + 2) as Hnd2 by (rewrite app_length; cbn; lia).
  assert (length (b1 ++ B2) = length b1 + length b2 + 1)%nat as Hnd3 by (subst B2; rewrite !app_length; cbn; lia).
  rewrite D3 in Hn3.
  eapply ub_step; [by eapply tensor_ndim_ok|].
  eapply ub_step; [by eapply tensor_ndim_ok|].
  eapply ub_step; [by eapply tensor_dims_ok|].
  eapply ub_step; [by eapply tensor_dims_ok|].
  replace (Z.of_nat (length (b1 ++ [k])) - 1) with (Z.of_nat (length b1)) by lia.
  replace (Z.of_nat (length (b2 ++ [k; n])) - 2) with (Z.of_nat (length b2)) by lia.
  eapply ub_step; [apply aget_nat; by rewrite list_lookup_middle|].
  eapply ub_step; [apply aget_nat; by rewrite list_lookup_middle|]. rewrite Z.eqb_refl. cbn [negb]. cbv zeta.
  replace (Z.of_nat (length (b1 ++ [k])) + Z.of_nat (length (b2 ++ [k; n])) - 2)
    with (Z.of_nat (length (b1 ++ B2))) by lia.
  pose proof (frame_nil (tag := e_alloc E) (base := heap s)) as HF.
  assert (INT_MAX <= PTRDIFF_MAX) as HIP by done. assert (8 * INT_MAX <= PTRDIFF_MAX) as HIP8 by done.
  eapply ub_scr0; [done|lia|done|exact HF|]. clear HF. intros pp s1 Hwf1 HF1 Hr1 Hct1 Hsub1.
  cbn [is_null]. set (N := length (b1 ++ B2)) in *.
  eapply ub_step.
  { eapply (for64_pure (fun i => filled N (take i b1)) E 0 _ (length b1)); [|lia|].
    { unfold filled. cbn. by rewrite Nat2Z.id, Nat.sub_0_r. }
    intros i Hi. destruct (lookup_lt_is_Some_2 b1 i) as [d Hd]; [lia|].
    erewrite bind_done by (rewrite Z.add_0_l; apply aget_nat; by apply lookup_app_l_Some).
    rewrite Z.add_0_l. erewrite aset_nat by (rewrite filled_length; rewrite ?take_length; lia).
    rewrite (take_S_r _ _ _ Hd), <-filled_set by (rewrite take_length; lia).
    rewrite take_length. do 3 f_equal. lia. }
  rewrite take_ge by lia.
  eapply ub_step.
  { eapply (for64_pure (fun i => filled N (b1 ++ take i b2 ++ (if decide (length b2 + 2 <= i)%nat then [n] else [])))
      E 0 _ (length b2 + 2)).
    { rewrite decide_False by lia. by rewrite take_0, !app_nil_r. }
    { lia. }
    intros i Hi. rewrite Z.add_0_l.
    destruct (decide (i < length b2)%nat).
    - replace (Z.of_nat i <? Z.of_nat (length b2)) with true by lia.
      destruct (lookup_lt_is_Some_2 b2 i) as [d Hd]; [lia|].
      erewrite bind_done by (apply aget_nat; by apply lookup_app_l_Some).
      rewrite !decide_False by lia. rewrite !app_nil_r.
      erewrite aset_Z by (rewrite filled_length; rewrite ?app_length, ?take_length; cbn [length]; lia).
      rewrite (take_S_r _ _ _ Hd), app_assoc, <-filled_set by (rewrite app_length, take_length; lia).
      rewrite !app_length, take_length. cbn [length]. do 3 f_equal. lia.
    - replace (Z.of_nat i <? Z.of_nat (length b2)) with false by lia.
      rewrite (take_ge b2 i), (take_ge b2 (S i)) by lia.
      destruct (decide (i = length b2)) as [->|Hne].
      + replace (Z.of_nat (length b2) <? Z.of_nat (length b2)) with false by lia.
        rewrite !decide_False by lia. done.
      + assert (i = length b2 + 1)%nat as -> by lia.
        replace (Z.of_nat (length b2) <? Z.of_nat (length b2 + 1)) with true by lia.
        erewrite bind_done.
        2:{ apply aget_nat. rewrite lookup_app_r by lia. by replace (length b2 + 1 - length b2)%nat with 1%nat by lia. }
        rewrite decide_False, decide_True by lia. rewrite !app_nil_r.
        erewrite aset_Z by (rewrite filled_length; rewrite ?app_length; cbn [length]; lia).
        rewrite (app_assoc b1), <-filled_set by (rewrite app_length; lia).
        rewrite !app_length. cbn [length]. do 3 f_equal. lia. }
  rewrite decide_True, take_ge by lia. fold B2. subst N. rewrite filled_full.
  eapply ub_step; [apply force_array_ok|].
  pose proof (view_mono _ _ _ _ _ _ _ _ Hsub1 Hv1) as Hv1'.
  eapply ub_step; [by eapply tensor_dtype_ok|].
  eapply ub_step; [by eapply tensor_device_ok|].
  destruct (create_done (a_type T1) (a_dev T1) (b1 ++ B2) HUndef E s1) as (s2 & q & pd & pm & ps & px & Hcr & Ht & Hr2);
    [done|done|rewrite <-D3; exact Hf3|].
  eapply ub_step; [exact Hcr|]. cbv beta match. rewrite bool_decide_eq_true_2 by done. cbn [negb].
  eapply (ub_scr_free [] pp []); [done|exact Ht|exact HF1|]. intros h3 s3 HT3' HF3 Hr3. cbn [app] in HF3.
  eapply ub_scr; [done| |exact HT3'|exact HF3|]; [lia|]. intros q1 h4 s4 HT4 HF4 Hr4 _.
  eapply ub_scr; [done| |exact HT4|exact HF4|]; [lia|]. intros q2 h5 s5 HT5 HF5 Hr5 _.
  eapply ub_scr; [done| |exact HT5|exact HF5|]; [lia|]. intros q3 h6 s6 HT6 HF6 Hr6 _.
  clear HT3' HF3 HT4 HF4 HT5 HF5 HF1 Ht.
  eapply ub_scr; [done| |exact HT6|exact HF6|]; [lia|]. intros q4 h7 s7 HT7 HF7 Hr7 _.
  eapply ub_scr; [done| |exact HT7|exact HF7|]; [lia|]. intros q5 h8 s8 HT8 HF8 Hr8 _.
  eapply ub_scr; [done| |exact HT8|exact HF8|]; [lia|]. intros q6 h9 s9 HT9 HF9 Hr9 _.
  clear HT6 HF6 HT7 HF7 HT8 HF8.
  cbn [is_null orb]. rewrite !Nat2Z.id.
  eapply ub_step; [apply aset_nat; rewrite replicate_length, app_length; cbn; lia|].
  rewrite line_size_set by (apply to_int_id; llia).
  eapply ub_step; [apply aset_nat; rewrite replicate_length, app_length; cbn; lia|].
  rewrite line_size_set by (apply to_int_id; llia).
  eapply ub_step.
  { apply size_to_dim_ok.
    - eapply fits_prefixes; [|exact Hf1]. destruct (a_type T1); cbn; lia.
    - rewrite app_length. lia.
    - lia. }
  rewrite take_app.
  eapply ub_step.
  { apply size_of_dims_ok; [|done|lia]. eapply fits_prefixes; [|exact Hf2]. destruct (a_type T1); cbn; lia. }
  rewrite prodZ_app, !prodZ_cons, prodZ_nil.
  eapply ub_step.
  { apply div64_ok; [lia|]. rewrite quot_mul_l by lia. assert (0 <= prodZ b2 * n <= INT64_MAX) as Hq; [|unfold INT64_MIN; lia].
    split; [apply Z.mul_nonneg_nonneg; lia|]. apply (quot_small (prodZ b1) (Z.of_nat (tsz (a_type T1)))); [lia|destruct (a_type T1); cbn; lia|].
    rewrite D3, prodZ_app in Hby3. fold B2 in Hby3. rewrite HpB2 in Hby3. lia. }
  rewrite quot_mul_l by lia. rewrite <-HpB2 in *.
  eapply ub_step; [by eapply tensor_data_ok, tnew_view|].
  eapply ub_step; [by eapply tensor_dtype_ok, tnew_view|].
  cbn [dtype_of d_size].
  pose proof (valid_len_nat _ HT3) as Hlen. rewrite D3, prodZ_app in Hlen. fold B2 in Hlen.
  rewrite D3, prodZ_app in Hby3. fold B2 in Hby3.
  pose proof (prodZ_pos _ HB2) as HppB2.
  set (ws := a_vals T3) in *.
  set (n1 := Z.to_nat (prodZ b1)) in *. set (n2 := Z.to_nat (prodZ B2)) in *.
  assert (length ws = n1 * n2)%nat as Hlen' by (rewrite <-Hlen; subst n1 n2; by rewrite Z2Nat.inj_mul by lia).
  assert (1 <= Z.of_nat (tsz t) <= 8) as Hsz by (subst t; destruct (a_type T1); cbn; lia).
  set (TN := fun base s' vs => tnew (e_alloc E) (ctr s1) base s' q pd pm ps px (dtype_of t) (a_dev T1) (b1 ++ B2) (cells t vs)).
  pose proof (frame_sub _ _ HF9) as HsubF.
  set (good2 := fun v1 v2 : nat => is_Some (inner t k (fun q => at_ T1 (unravel b1 (Z.of_nat v1) ++ [q]))
    (fun q => at_ T2 (unravel b2 (Z.of_nat v2 / n) ++ [q; Z.of_nat v2 mod n]))) /\ Z.of_nat v2 < INT_MAX).
  assert (forall v1 v2, Decision (good2 v1 v2)) as Hdec2 by (intros; unfold good2; apply _).
  set (good := fun v1 => (forall v2, (v2 < n2)%nat -> good2 v1 v2) /\ Z.of_nat v1 < INT_MAX).
  assert (forall v1, Decision (good v1)) as Hdec.
  { intros v1. unfold good. destruct (decide (Z.of_nat v1 < INT_MAX)) as [Hlt|Hge]; [|right; intros [_ ?]; lia].
    destruct (forallb (fun v2 => bool_decide (good2 v1 v2)) (seq 0 n2)) eqn:Hfb.
    - left. split; [|done]. intros v2 Hv2x. rewrite forallb_forall in Hfb. specialize (Hfb v2 ltac:(apply in_seq; lia)).
      by apply bool_decide_eq_true_1 in Hfb.
    - right. intros [Hg _]. enough (forallb (fun v2 => bool_decide (good2 v1 v2)) (seq 0 n2) = true) by congruence.
      apply forallb_forall. intros v2 Hv2x. apply in_seq in Hv2x. apply bool_decide_eq_true_2, Hg. lia. }
  destruct (first_index (fun v => negb (bool_decide (good v))) n1) as [Hall|(j1 & Hj1 & Hbad & Hbef)].
  { exfalso. apply Hno.
    assert (forall v, (v < n1)%nat -> good v) as Hg.
    { intros v Hv. specialize (Hall v Hv). destruct (bool_decide_reflect (good v)); [done|discriminate]. }
    clear Hall. split_and!.
    - destruct (Hg (n1 - 1)%nat ltac:(lia)) as [_ X]. lia.
    - destruct (Hg 0%nat ltac:(lia)) as [X _]. destruct (X (n2 - 1)%nat ltac:(lia)) as [_ Y]. lia.
    - intros c e j Hc He Hj. pose proof (ravel_bound _ _ Hc) as Hrc. pose proof (ravel_bound _ _ He) as Hre.
      destruct (Hg (Z.to_nat (ravel b1 c)) ltac:(lia)) as [X _].
      destruct (X (Z.to_nat (ravel b2 e * n + j))) as [Y _].
      { subst n2. rewrite HpB2. apply Z2Nat.inj_lt; nia. }
      rewrite !Z2Nat.id in Y by nia. rewrite unravel_ravel in Y by done.
      rewrite Z.div_add_l, Z.div_small, Z.add_0_r, unravel_ravel in Y by (done || lia).
      rewrite Z.add_comm, Z_mod_plus_full, Z.mod_small in Y by lia. exact Y. }
  assert (~ good j1) as Hbad' by (destruct (bool_decide_reflect (good j1)); [discriminate|done]). clear Hbad. rename Hbad' into Hbad.
  assert (forall v, (v < j1)%nat -> good v) as Hgood.
  { intros v Hv. specialize (Hbef v Hv). destruct (bool_decide_reflect (good v)); [done|discriminate]. }
  clear Hbef. apply bind_UB.
  apply (iter_ret_ub (fun v1 idx s' => idx = (unravel b1 (Z.of_nat v1) ++ [0], hole (unravel B2 0)) /\
      TN h9 s' (prog VU ws (v1 * n2)) /\ rpos s' = rpos s)) with (j := j1); [done| | |].
    - split_and!.
      + rewrite !unravel_0 by done. subst B2. rewrite !app_length, !replicate_add. cbn [length replicate].
        by rewrite hole_snoc.
      + rewrite Nat.mul_0_l, prog_0, <-Hlen, <-prodZ_app. exact HT9.
      + congruence.
    - intros v1 idx s' Hv (-> & HT & Hr). destruct (Hgood v1 Hv) as (Hgood2 & Hc1'). assert (v1 < n1)%nat as Hvn by lia. rewrite Z.add_0_l.
      pose proof (unravel_in_box b1 (Z.of_nat v1) Hpb1') as Hbox1.
      pose proof (tnew_base _ _ HT) as Hsub'. pose proof (tnew_wf _ _ HT) as Hwf'.
      assert (holds (heap s') p1 T1) as H1' by (eapply holds_mono; [|exact H1]; by etrans).
      destruct (line_rule p1 T1 b1 k [] (unravel b1 (Z.of_nat v1)) [] HUndef E s' Hwf' HAl HHk H1' D1 Hp1 Hbox1
        ltac:(by constructor)) as (s10 & vec & Hrun & HV).
      eapply wp_step; [exact Hrun|]. cbv beta match. rewrite bool_decide_eq_true_2 by done. cbn [negb].
      set (L1 := line T1 b1 k [] (unravel b1 (Z.of_nat v1)) []) in *.
      pose proof (proj1 HV) as HvL1.
      destruct (tnew_push _ _ _ _ HT HV) as (nV & HoV & HdV & HTV).
      assert (rpos s10 = rpos s) as Hr10.
      { destruct HV as (_ & ? & _ & _ & _ & _ & _ & Hr10). lia. }
      apply wp_bind. eapply wp_mono.
      { eapply (iter_ret_rule (fun v2 idx s' => idx = hole (unravel B2 (Z.of_nat v2)) /\
          TN (nV ∪ h9) s' (prog VU ws (v1 * n2 + v2)) /\ rpos s' = rpos s)).
        - split_and!; [done| |done]. rewrite Nat.add_0_r. exact HTV.
        - clear dependent s'. clear dependent s10. intros v2 idx s' Hv2' (-> & HT & Hr). rewrite Z.add_0_l. assert (v2 < n2)%nat as Hv2n by lia. destruct (Hgood2 v2 Hv2') as [[w Hw] Hc2'].
          pose proof (tnew_base _ _ HT) as Hsub'. pose proof (tnew_wf _ _ HT) as Hwf'.
          assert (h9 ⊆ nV ∪ h9) as HsubV by (by apply map_union_subseteq_r).
          assert (holds (heap s') p2 T2) as H2'.
          { eapply holds_mono; [|exact H2]. etrans; [exact HsubF|]. by etrans. }
          assert (holds (heap s') vec L1) as HL1.
          { eapply owns_holds; [|exact HoV|]. 2:{ etrans; [apply map_union_subseteq_l|exact Hsub']. }
            done. }
          assert (v1 * n2 + v2 < length ws)%nat as Hvl by (rewrite Hlen'; apply pair_index_nat; lia).
          assert (unravel B2 (Z.of_nat v2) = unravel b2 (Z.of_nat v2 / n) ++ [Z.of_nat v2 mod n]) as Hu2
            by (subst B2; by rewrite unravel_snoc by (done || lia)).
          set (e := unravel b2 (Z.of_nat v2 / n)) in *. set (j := Z.of_nat v2 mod n) in *.
          pose proof (unravel_in_box b2 (Z.of_nat v2 / n) Hpb2') as Hboxe. fold e in Hboxe.
          assert (0 <= j < n) as Hj by (subst j; apply Z.mod_pos_bound; lia).
          rewrite Hu2, hole_snoc.
          destruct (line_rule p2 T2 b2 k [n] e [j] HUndef E s' Hwf' HAl HHk H2' D2 Hp2 Hboxe
            ltac:(by apply in_box_1)) as (s11 & vec2 & Hrun2 & HW).
          eapply wp_step; [exact Hrun2|]. cbv beta match. rewrite bool_decide_eq_true_2 by done. cbn [negb].
          set (L2 := line T2 b2 k [n] e [j]) in *.
          pose proof (created_holds _ _ _ _ _ _ HW) as HhW.
          pose proof (holds_mono _ _ _ _ (created_sub _ _ _ _ _ _ HW) HL1) as HL1'.
          assert (inner t k (fun q => at_ L1 [q]) (fun q => at_ L2 [q])
              = Some (at_ T3 (unravel b1 (Z.of_nat v1) ++ e ++ [j]))) as Hinv.
          { rewrite (Hin _ _ _ w Hbox1 Hboxe Hj Hw), <-Hw. apply inner_ext. intros y Hy. split.
            - apply line_at; [done|done|by constructor|done].
            - apply line_at; [done|done|by apply in_box_1|done]. }
          pose proof (vv_dot_rule vec vec2 L1 L2 _ k HUndef E s11
            (created_wf _ _ _ _ _ _ Hwf' HW) HL1' HhW Hty eq_refl eq_refl ltac:(lia) Hinv) as Hvv.
          apply makes_or_nomem_alloc in Hvv as (s12 & res & Hrun3 & HR); [|done].
          eapply wp_step; [exact Hrun3|]. cbv beta match. rewrite bool_decide_eq_true_2 by done. cbn [negb].
          destruct (store_result HHk _ _ _ _ _ _ _ _ _ (v1 * n2 + v2) HT ltac:(rewrite prog_length; lia) HW HR)
            as (rx & s13 & s14 & s15 & Hd & Hm & Hde & Hde2 & HT' & Hr').
          eapply wp_step; [exact Hd|].
          pose proof (pair_index (Z.of_nat v1) (Z.of_nat v2) (prodZ b1) (prodZ B2) _ ltac:(lia) ltac:(lia) ltac:(reflexivity)) as Hpi.
          pose proof (scale_le _ (Z.of_nat (tsz t)) _ _ ltac:(lia) Hpi (proj2 Hby3)) as Hsc.
          eapply wp_step; [apply ck64_ok; unfold INT64_MIN; clear -Hpi Hby3 Hsz; subst t; nia|].
          eapply wp_step; [apply ck64_ok; unfold INT64_MIN; subst t; lia|].
          replace (Z.of_nat v1 * prodZ B2 + Z.of_nat v2) with (Z.of_nat (v1 * n2 + v2)) by lia.
          eapply wp_step; [exact Hm|].
          eapply wp_step.
          { rewrite <-hole_snoc, <-Hu2. by apply advance_hole. }
          eapply wp_step; [exact Hde|].
          eapply wp_step; [exact Hde2|].
          eapply wp_step; [apply check_ok; lia|].
          apply wp_ret. eexists. split; [done|]. split_and!.
          + fold B2. do 2 f_equal. lia.
          + rewrite prog_step in HT'; [rewrite Nat.add_succ_r; exact HT'|].
            pose proof (at_lookup T3 (v1 * n2 + v2) HT3 Hvl) as Hat. rewrite D3 in Hat. fold B2 in Hat.
            rewrite unravel_app in Hat by done.
            replace (Z.of_nat (v1 * n2 + v2)) with (Z.of_nat v1 * prodZ B2 + Z.of_nat v2) in Hat by lia.
            rewrite unravel_add in Hat by done.
            rewrite Z.div_add_l, Z.div_small, Z.add_0_r, Hu2 in Hat by lia. rewrite Hat.
            destruct (lookup_lt_is_Some_2 ws _ Hvl) as [w' Hw']. fold ws. by rewrite Hw'.
          + congruence. }
      intros c s11 (idx2 & -> & -> & HT11 & Hr11). cbv beta match.
      eapply wp_step.
      { replace (length (b1 ++ [k]) - 1)%nat with (length b1) by (rewrite app_length; cbn; lia).
        by apply advance_prefix. }
      destruct (tnew_pop _ _ _ _ HHk HoV HdV HT11) as (s12 & Hde & HT12 & Hr12).
      eapply wp_step; [exact Hde|].
      eapply wp_step; [apply check_ok; lia|].
      apply wp_ret. eexists. split; [done|]. split_and!.
      + f_equal; [f_equal; f_equal; lia|]. f_equal. apply unravel_periodic; [done|lia].
      + replace (S v1 * n2)%nat with (v1 * n2 + n2)%nat by lia. exact HT12.
      + congruence.
    - set (v1 := j1). intros idx s' (-> & HT & Hr). assert (v1 < n1)%nat as Hvn by lia. rewrite Z.add_0_l.
      pose proof (unravel_in_box b1 (Z.of_nat v1) Hpb1') as Hbox1.
      pose proof (tnew_base _ _ HT) as Hsub'. pose proof (tnew_wf _ _ HT) as Hwf'.
      assert (holds (heap s') p1 T1) as H1' by (eapply holds_mono; [|exact H1]; by etrans).
      destruct (line_rule p1 T1 b1 k [] (unravel b1 (Z.of_nat v1)) [] HUndef E s' Hwf' HAl HHk H1' D1 Hp1 Hbox1
        ltac:(by constructor)) as (s10 & vec & Hrun & HV).
      eapply ub_step; [exact Hrun|]. cbv beta match. rewrite bool_decide_eq_true_2 by done. cbn [negb].
      set (L1 := line T1 b1 k [] (unravel b1 (Z.of_nat v1)) []) in *.
      pose proof (proj1 HV) as HvL1.
      destruct (tnew_push _ _ _ _ HT HV) as (nV & HoV & HdV & HTV).
      assert (rpos s10 = rpos s) as Hr10.
      { destruct HV as (_ & ? & _ & _ & _ & _ & _ & Hr10). lia. }
      assert (exists r, first_index (fun v2 => negb (bool_decide (good2 v1 v2))) n2 = r) as [[Hall2|(j2 & Hj2 & Hbad2 & Hbef2)] _] by eauto.
      + assert (forall v2, (v2 < n2)%nat -> good2 v1 v2) as Hgood2.
        { intros v2 Hv2x. specialize (Hall2 v2 Hv2x). destruct (bool_decide_reflect (good2 v1 v2)); [done|discriminate]. }
        assert (INT_MAX <= Z.of_nat v1) as Hbig.
        { destruct (decide (Z.of_nat v1 < INT_MAX)) as [Hlt|]; [|lia]. exfalso. apply Hbad. by split. }
        match goal with |- bind ?m _ _ _ = _ => assert (wp m E s10 (fun c s' => exists idx, c = Next idx /\ idx = hole (unravel B2 (Z.of_nat n2)) /\
          TN (nV ∪ h9) s' (prog VU ws (v1 * n2 + n2)) /\ rpos s' = rpos s)) as Hw2 end.
        { eapply (iter_ret_rule (fun v2 idx s' => idx = hole (unravel B2 (Z.of_nat v2)) /\
          TN (nV ∪ h9) s' (prog VU ws (v1 * n2 + v2)) /\ rpos s' = rpos s)).
        - split_and!; [done| |done]. rewrite Nat.add_0_r. exact HTV.
        - clear dependent s'. clear dependent s10. intros v2 idx s' Hv2' (-> & HT & Hr). rewrite Z.add_0_l. assert (v2 < n2)%nat as Hv2n by lia. destruct (Hgood2 v2 Hv2') as [[w Hw] Hc2'].
          pose proof (tnew_base _ _ HT) as Hsub'. pose proof (tnew_wf _ _ HT) as Hwf'.
          assert (h9 ⊆ nV ∪ h9) as HsubV by (by apply map_union_subseteq_r).
          assert (holds (heap s') p2 T2) as H2'.
          { eapply holds_mono; [|exact H2]. etrans; [exact HsubF|]. by etrans. }
          assert (holds (heap s') vec L1) as HL1.
          { eapply owns_holds; [|exact HoV|]. 2:{ etrans; [apply map_union_subseteq_l|exact Hsub']. }
            done. }
          assert (v1 * n2 + v2 < length ws)%nat as Hvl by (rewrite Hlen'; apply pair_index_nat; lia).
          assert (unravel B2 (Z.of_nat v2) = unravel b2 (Z.of_nat v2 / n) ++ [Z.of_nat v2 mod n]) as Hu2
            by (subst B2; by rewrite unravel_snoc by (done || lia)).
          set (e := unravel b2 (Z.of_nat v2 / n)) in *. set (j := Z.of_nat v2 mod n) in *.
          pose proof (unravel_in_box b2 (Z.of_nat v2 / n) Hpb2') as Hboxe. fold e in Hboxe.
          assert (0 <= j < n) as Hj by (subst j; apply Z.mod_pos_bound; lia).
          rewrite Hu2, hole_snoc.
          destruct (line_rule p2 T2 b2 k [n] e [j] HUndef E s' Hwf' HAl HHk H2' D2 Hp2 Hboxe
            ltac:(by apply in_box_1)) as (s11 & vec2 & Hrun2 & HW).
          eapply wp_step; [exact Hrun2|]. cbv beta match. rewrite bool_decide_eq_true_2 by done. cbn [negb].
          set (L2 := line T2 b2 k [n] e [j]) in *.
          pose proof (created_holds _ _ _ _ _ _ HW) as HhW.
          pose proof (holds_mono _ _ _ _ (created_sub _ _ _ _ _ _ HW) HL1) as HL1'.
          assert (inner t k (fun q => at_ L1 [q]) (fun q => at_ L2 [q])
              = Some (at_ T3 (unravel b1 (Z.of_nat v1) ++ e ++ [j]))) as Hinv.
          { rewrite (Hin _ _ _ w Hbox1 Hboxe Hj Hw), <-Hw. apply inner_ext. intros y Hy. split.
            - apply line_at; [done|done|by constructor|done].
            - apply line_at; [done|done|by apply in_box_1|done]. }
          pose proof (vv_dot_rule vec vec2 L1 L2 _ k HUndef E s11
            (created_wf _ _ _ _ _ _ Hwf' HW) HL1' HhW Hty eq_refl eq_refl ltac:(lia) Hinv) as Hvv.
          apply makes_or_nomem_alloc in Hvv as (s12 & res & Hrun3 & HR); [|done].
          eapply wp_step; [exact Hrun3|]. cbv beta match. rewrite bool_decide_eq_true_2 by done. cbn [negb].
          destruct (store_result HHk _ _ _ _ _ _ _ _ _ (v1 * n2 + v2) HT ltac:(rewrite prog_length; lia) HW HR)
            as (rx & s13 & s14 & s15 & Hd & Hm & Hde & Hde2 & HT' & Hr').
          eapply wp_step; [exact Hd|].
          pose proof (pair_index (Z.of_nat v1) (Z.of_nat v2) (prodZ b1) (prodZ B2) _ ltac:(lia) ltac:(lia) ltac:(reflexivity)) as Hpi.
          pose proof (scale_le _ (Z.of_nat (tsz t)) _ _ ltac:(lia) Hpi (proj2 Hby3)) as Hsc.
          eapply wp_step; [apply ck64_ok; unfold INT64_MIN; clear -Hpi Hby3 Hsz; subst t; nia|].
          eapply wp_step; [apply ck64_ok; unfold INT64_MIN; subst t; lia|].
          replace (Z.of_nat v1 * prodZ B2 + Z.of_nat v2) with (Z.of_nat (v1 * n2 + v2)) by lia.
          eapply wp_step; [exact Hm|].
          eapply wp_step.
          { rewrite <-hole_snoc, <-Hu2. by apply advance_hole. }
          eapply wp_step; [exact Hde|].
          eapply wp_step; [exact Hde2|].
          eapply wp_step; [apply check_ok; lia|].
          apply wp_ret. eexists. split; [done|]. split_and!.
          + fold B2. do 2 f_equal. lia.
          + rewrite prog_step in HT'; [rewrite Nat.add_succ_r; exact HT'|].
            pose proof (at_lookup T3 (v1 * n2 + v2) HT3 Hvl) as Hat. rewrite D3 in Hat. fold B2 in Hat.
            rewrite unravel_app in Hat by done.
            replace (Z.of_nat (v1 * n2 + v2)) with (Z.of_nat v1 * prodZ B2 + Z.of_nat v2) in Hat by lia.
            rewrite unravel_add in Hat by done.
            rewrite Z.div_add_l, Z.div_small, Z.add_0_r, Hu2 in Hat by lia. rewrite Hat.
            destruct (lookup_lt_is_Some_2 ws _ Hvl) as [w' Hw']. fold ws. by rewrite Hw'.
          + congruence. }
        apply wp_elim in Hw2 as (c & s11 & Hrun2 & idx2 & -> & -> & HT11 & Hr11).
        eapply ub_step; [exact Hrun2|]. cbv beta match.
      eapply ub_step.
      { replace (length (b1 ++ [k]) - 1)%nat with (length b1) by (rewrite app_length; cbn; lia).
        by apply advance_prefix. }
      destruct (tnew_pop _ _ _ _ HHk HoV HdV HT11) as (s12 & Hde & HT12 & Hr12).
      eapply ub_step; [exact Hde|].
        apply bind_UB. apply check_fails. lia.
      + assert (~ good2 v1 j2) as Hbad2' by (destruct (bool_decide_reflect (good2 v1 j2)); [discriminate|done]). clear Hbad2. rename Hbad2' into Hbad2.
        assert (forall v2, (v2 < j2)%nat -> good2 v1 v2) as Hgood2.
        { intros v2 Hv2x. specialize (Hbef2 v2 Hv2x). destruct (bool_decide_reflect (good2 v1 v2)); [done|discriminate]. }
        clear Hbef2. apply bind_UB.
        apply (iter_ret_ub (fun v2 idx s' => idx = hole (unravel B2 (Z.of_nat v2)) /\
          TN (nV ∪ h9) s' (prog VU ws (v1 * n2 + v2)) /\ rpos s' = rpos s)) with (j := j2); [done| | |].
        { split_and!; [done| |done]. rewrite Nat.add_0_r. exact HTV. }
        { clear dependent s'. clear dependent s10. intros v2 idx s' Hv2' (-> & HT & Hr). rewrite Z.add_0_l. assert (v2 < n2)%nat as Hv2n by lia. destruct (Hgood2 v2 Hv2') as [[w Hw] Hc2'].
          pose proof (tnew_base _ _ HT) as Hsub'. pose proof (tnew_wf _ _ HT) as Hwf'.
          assert (h9 ⊆ nV ∪ h9) as HsubV by (by apply map_union_subseteq_r).
          assert (holds (heap s') p2 T2) as H2'.
          { eapply holds_mono; [|exact H2]. etrans; [exact HsubF|]. by etrans. }
          assert (holds (heap s') vec L1) as HL1.
          { eapply owns_holds; [|exact HoV|]. 2:{ etrans; [apply map_union_subseteq_l|exact Hsub']. }
            done. }
          assert (v1 * n2 + v2 < length ws)%nat as Hvl by (rewrite Hlen'; apply pair_index_nat; lia).
          assert (unravel B2 (Z.of_nat v2) = unravel b2 (Z.of_nat v2 / n) ++ [Z.of_nat v2 mod n]) as Hu2
            by (subst B2; by rewrite unravel_snoc by (done || lia)).
          set (e := unravel b2 (Z.of_nat v2 / n)) in *. set (j := Z.of_nat v2 mod n) in *.
          pose proof (unravel_in_box b2 (Z.of_nat v2 / n) Hpb2') as Hboxe. fold e in Hboxe.
          assert (0 <= j < n) as Hj by (subst j; apply Z.mod_pos_bound; lia).
          rewrite Hu2, hole_snoc.
          destruct (line_rule p2 T2 b2 k [n] e [j] HUndef E s' Hwf' HAl HHk H2' D2 Hp2 Hboxe
            ltac:(by apply in_box_1)) as (s11 & vec2 & Hrun2 & HW).
          eapply wp_step; [exact Hrun2|]. cbv beta match. rewrite bool_decide_eq_true_2 by done. cbn [negb].
          set (L2 := line T2 b2 k [n] e [j]) in *.
          pose proof (created_holds _ _ _ _ _ _ HW) as HhW.
          pose proof (holds_mono _ _ _ _ (created_sub _ _ _ _ _ _ HW) HL1) as HL1'.
          assert (inner t k (fun q => at_ L1 [q]) (fun q => at_ L2 [q])
              = Some (at_ T3 (unravel b1 (Z.of_nat v1) ++ e ++ [j]))) as Hinv.
          { rewrite (Hin _ _ _ w Hbox1 Hboxe Hj Hw), <-Hw. apply inner_ext. intros y Hy. split.
            - apply line_at; [done|done|by constructor|done].
            - apply line_at; [done|done|by apply in_box_1|done]. }
          pose proof (vv_dot_rule vec vec2 L1 L2 _ k HUndef E s11
            (created_wf _ _ _ _ _ _ Hwf' HW) HL1' HhW Hty eq_refl eq_refl ltac:(lia) Hinv) as Hvv.
          apply makes_or_nomem_alloc in Hvv as (s12 & res & Hrun3 & HR); [|done].
          eapply wp_step; [exact Hrun3|]. cbv beta match. rewrite bool_decide_eq_true_2 by done. cbn [negb].
          destruct (store_result HHk _ _ _ _ _ _ _ _ _ (v1 * n2 + v2) HT ltac:(rewrite prog_length; lia) HW HR)
            as (rx & s13 & s14 & s15 & Hd & Hm & Hde & Hde2 & HT' & Hr').
          eapply wp_step; [exact Hd|].
          pose proof (pair_index (Z.of_nat v1) (Z.of_nat v2) (prodZ b1) (prodZ B2) _ ltac:(lia) ltac:(lia) ltac:(reflexivity)) as Hpi.
          pose proof (scale_le _ (Z.of_nat (tsz t)) _ _ ltac:(lia) Hpi (proj2 Hby3)) as Hsc.
          eapply wp_step; [apply ck64_ok; unfold INT64_MIN; clear -Hpi Hby3 Hsz; subst t; nia|].
          eapply wp_step; [apply ck64_ok; unfold INT64_MIN; subst t; lia|].
          replace (Z.of_nat v1 * prodZ B2 + Z.of_nat v2) with (Z.of_nat (v1 * n2 + v2)) by lia.
          eapply wp_step; [exact Hm|].
          eapply wp_step.
          { rewrite <-hole_snoc, <-Hu2. by apply advance_hole. }
          eapply wp_step; [exact Hde|].
          eapply wp_step; [exact Hde2|].
          eapply wp_step; [apply check_ok; lia|].
          apply wp_ret. eexists. split; [done|]. split_and!.
          + fold B2. do 2 f_equal. lia.
          + rewrite prog_step in HT'; [rewrite Nat.add_succ_r; exact HT'|].
            pose proof (at_lookup T3 (v1 * n2 + v2) HT3 Hvl) as Hat. rewrite D3 in Hat. fold B2 in Hat.
            rewrite unravel_app in Hat by done.
            replace (Z.of_nat (v1 * n2 + v2)) with (Z.of_nat v1 * prodZ B2 + Z.of_nat v2) in Hat by lia.
            rewrite unravel_add in Hat by done.
            rewrite Z.div_add_l, Z.div_small, Z.add_0_r, Hu2 in Hat by lia. rewrite Hat.
            destruct (lookup_lt_is_Some_2 ws _ Hvl) as [w' Hw']. fold ws. by rewrite Hw'.
          + congruence. }
        { clear dependent s'. clear dependent s10. set (v2 := j2). intros idx s' (-> & HT & Hr). rewrite Z.add_0_l. assert (v2 < n2)%nat as Hv2n by lia. assert (~ good2 v1 v2) as Hbad2' by exact Hbad2. unfold good2 in Hbad2'.
          pose proof (tnew_base _ _ HT) as Hsub'. pose proof (tnew_wf _ _ HT) as Hwf'.
          assert (h9 ⊆ nV ∪ h9) as HsubV by (by apply map_union_subseteq_r).
          assert (holds (heap s') p2 T2) as H2'.
          { eapply holds_mono; [|exact H2]. etrans; [exact HsubF|]. by etrans. }
          assert (holds (heap s') vec L1) as HL1.
          { eapply owns_holds; [|exact HoV|]. 2:{ etrans; [apply map_union_subseteq_l|exact Hsub']. }
            done. }
          assert (v1 * n2 + v2 < length ws)%nat as Hvl by (rewrite Hlen'; apply pair_index_nat; lia).
          assert (unravel B2 (Z.of_nat v2) = unravel b2 (Z.of_nat v2 / n) ++ [Z.of_nat v2 mod n]) as Hu2
            by (subst B2; by rewrite unravel_snoc by (done || lia)).
          set (e := unravel b2 (Z.of_nat v2 / n)) in *. set (j := Z.of_nat v2 mod n) in *.
          pose proof (unravel_in_box b2 (Z.of_nat v2 / n) Hpb2') as Hboxe. fold e in Hboxe.
          assert (0 <= j < n) as Hj by (subst j; apply Z.mod_pos_bound; lia).
          rewrite Hu2, hole_snoc.
          destruct (line_rule p2 T2 b2 k [n] e [j] HUndef E s' Hwf' HAl HHk H2' D2 Hp2 Hboxe
            ltac:(by apply in_box_1)) as (s11 & vec2 & Hrun2 & HW).
          eapply ub_step; [exact Hrun2|]. cbv beta match. rewrite bool_decide_eq_true_2 by done. cbn [negb].
          set (L2 := line T2 b2 k [n] e [j]) in *.
          pose proof (created_holds _ _ _ _ _ _ HW) as HhW.
          pose proof (holds_mono _ _ _ _ (created_sub _ _ _ _ _ _ HW) HL1) as HL1'.
          assert (inner t k (fun q => at_ L1 [q]) (fun q => at_ L2 [q])
              = inner t k (fun q => at_ T1 (unravel b1 (Z.of_nat v1) ++ [q])) (fun q => at_ T2 (e ++ [q; j]))) as Hinv.
          { apply inner_ext. intros y Hy. split.
            - apply line_at; [done|done|by constructor|done].
            - apply line_at; [done|done|by apply in_box_1|done]. }
          destruct (inner t k (fun q => at_ T1 (unravel b1 (Z.of_nat v1) ++ [q])) (fun q => at_ T2 (e ++ [q; j]))) as [w|] eqn:Hw.
          2:{ apply bind_UB. eapply (vv_dot_stuck vec vec2 L1 L2 k);
                [by eapply created_wf|done|done|done|done|done|done|done|done|exact Hinv]. }
          pose proof (vv_dot_rule vec vec2 L1 L2 _ k HUndef E s11
            (created_wf _ _ _ _ _ _ Hwf' HW) HL1' HhW Hty eq_refl eq_refl ltac:(lia) Hinv) as Hvv.
          apply makes_or_nomem_alloc in Hvv as (s12 & res & Hrun3 & HR); [|done].
          eapply ub_step; [exact Hrun3|]. cbv beta match. rewrite bool_decide_eq_true_2 by done. cbn [negb].
          destruct (store_result HHk _ _ _ _ _ _ _ _ _ (v1 * n2 + v2) HT ltac:(rewrite prog_length; lia) HW HR)
            as (rx & s13 & s14 & s15 & Hd & Hm & Hde & Hde2 & HT' & Hr').
          eapply ub_step; [exact Hd|].
          pose proof (pair_index (Z.of_nat v1) (Z.of_nat v2) (prodZ b1) (prodZ B2) _ ltac:(lia) ltac:(lia) ltac:(reflexivity)) as Hpi.
          pose proof (scale_le _ (Z.of_nat (tsz t)) _ _ ltac:(lia) Hpi (proj2 Hby3)) as Hsc.
          eapply ub_step; [apply ck64_ok; unfold INT64_MIN; clear -Hpi Hby3 Hsz; subst t; nia|].
          eapply ub_step; [apply ck64_ok; unfold INT64_MIN; subst t; lia|].
          replace (Z.of_nat v1 * prodZ B2 + Z.of_nat v2) with (Z.of_nat (v1 * n2 + v2)) by lia.
          eapply ub_step; [exact Hm|].
          eapply ub_step.
          { rewrite <-hole_snoc, <-Hu2. by apply advance_hole. }
          eapply ub_step; [exact Hde|].
          eapply ub_step; [exact Hde2|].
          apply bind_UB. apply check_fails.
          destruct (decide (Z.of_nat v2 < INT_MAX)) as [Hlt|]; [|lia]. exfalso. apply Hbad2'. split; [eauto|done]. }
Qed.
End dot.

(** ** Both outcomes *)
Lemma tab_default t dev dims (F : list Z -> option val) : fits (tsz t) dims ->
  exists T, valid T /\ a_type T = t /\ a_dev T = dev /\ a_dims T = dims /\
    forall c w, in_box dims c -> F c = Some w -> at_ T c = w.
Proof.
  intros Hf. exists (AT t dev dims (tab dims (fun c => default VU (F c)))).
  split_and!; [by apply tab_valid|done..|]. intros c w Hc Hw. rewrite at_tab by done. by rewrite Hw.
Qed.

Section every.
Context (p1 p2 : nat) (T1 T2 : atensor) (o : hval) (E : env) (s : st).
Context (Hwf : wf s) (HAl : alloc_all E) (HHk : hooks_ok E)
  (H1 : holds (heap s) p1 T1) (H2 : holds (heap s) p2 T2)
  (Hty : a_type T2 = a_type T1)
  (Hc1 : dev_type (a_dev T1) = 0) (Hc2 : dev_type (a_dev T2) = 0)
  (Hp1 : Forall (fun d => 0 < d <= INT_MAX) (a_dims T1)) (Hp2 : Forall (fun d => 0 < d <= INT_MAX) (a_dims T2)).
Let t := a_type T1.

Lemma dot_tv_every b k :
  b <> [] -> a_dims T1 = b ++ [k] -> a_dims T2 = [k] -> fits (tsz t) b ->
  let A := fun c q => at_ T1 (c ++ [q]) in
  let B := fun q => at_ T2 [q] in
  (contract_vec_ok t b k A B -> exists T,
     makes (aitisa_dot (HPtr p1) (HPtr p2) o) E s T /\ a_type T = t /\ a_dev T = a_dev T1 /\ a_dims T = b /\
     forall c, in_box b c -> inner t k (fun q => A c q) B = Some (at_ T c)) /\
  (~ contract_vec_ok t b k A B -> aitisa_dot (HPtr p1) (HPtr p2) o E s = UB UB_overflow).
Proof using All.
  intros Hb D1 D2 Hf A B.
  assert (aitisa_dot (HPtr p1) (HPtr p2) o E s = tensor_vector_dot (HPtr p1) (HPtr p2) o E s) as Hu.
  { rewrite (dot_unfold p1 p2 T1 T2) by done. rewrite D1, D2.
    assert (0 < Z.of_nat (length b)) by (destruct b; cbn in *; [done|lia]).
    rewrite app_length. cbn [length].
    replace ((Z.of_nat (length b + 1) =? 1) && (Z.of_nat 1 =? 1)) with false by lia.
    replace ((Z.of_nat (length b + 1) =? 2) && (Z.of_nat 1 =? 2)) with false by lia.
    replace ((Z.of_nat (length b + 1) =? 0) || (Z.of_nat 1 =? 0)) with false by lia. done. }
  destruct (tab_default t (a_dev T1) b (fun c => inner t k (fun q => A c q) B) Hf) as (T & V & X1 & X2 & X3 & X4).
  split.
  - intros (Hm1 & Hm2 & Hin).
    assert (forall c, in_box b c -> inner t k (fun q => A c q) B = Some (at_ T c)) as HT.
    { intros c Hc. destruct (Hin c Hc) as [w Hw]. rewrite Hw. f_equal. symmetry. by apply X4. }
    exists T. split_and!; [|done..]. unfold makes, makes_k. rewrite Hu.
    apply (dot_tv_core p1 p2 T1 T2 T o E s Hwf HAl HHk H1 H2 Hty Hp1 Hp2 V X1 X2 b k); try done; by rewrite X3.
  - intros Hno. rewrite Hu.
    by apply (dot_tv_stuck p1 p2 T1 T2 T o E s Hwf HAl HHk H1 H2 Hty Hc1 Hc2 Hp1 Hp2 V X1 X2 b k).
Qed.

Lemma dot_tt_every b1 b2 k n :
  (2 <= length b1)%nat -> (1 <= length b2)%nat ->
  a_dims T1 = b1 ++ [k] -> a_dims T2 = b2 ++ [k; n] -> fits (tsz t) (b1 ++ b2 ++ [n]) ->
  let A := fun c q => at_ T1 (c ++ [q]) in
  let B := fun e q j => at_ T2 (e ++ [q; j]) in
  (contract_ok t b1 b2 n k A B -> exists T,
     makes (aitisa_dot (HPtr p1) (HPtr p2) o) E s T /\ a_type T = t /\ a_dev T = a_dev T1 /\ a_dims T = b1 ++ b2 ++ [n] /\
     forall c e j, in_box b1 c -> in_box b2 e -> 0 <= j < n ->
       inner t k (fun q => A c q) (fun q => B e q j) = Some (at_ T (c ++ e ++ [j]))) /\
  (~ contract_ok t b1 b2 n k A B -> aitisa_dot (HPtr p1) (HPtr p2) o E s = UB UB_overflow).
Proof using All.
  intros Hl1 Hl2 D1 D2 Hf A B.
  assert (aitisa_dot (HPtr p1) (HPtr p2) o E s = multidim_dot (HPtr p1) (HPtr p2) o E s) as Hu.
  { rewrite (dot_unfold p1 p2 T1 T2) by done. rewrite D1, D2, !app_length. cbn [length].
    replace ((Z.of_nat (length b1 + 1) =? 1) && (Z.of_nat (length b2 + 2) =? 1)) with false by lia.
    replace ((Z.of_nat (length b1 + 1) =? 2) && (Z.of_nat (length b2 + 2) =? 2)) with false by lia.
    replace ((Z.of_nat (length b1 + 1) =? 0) || (Z.of_nat (length b2 + 2) =? 0)) with false by lia.
    replace (Z.of_nat (length b2 + 2) =? 1) with false by lia.
    replace ((2 <? Z.of_nat (length b1 + 1)) && (2 <? Z.of_nat (length b2 + 2))) with true by lia. done. }
  destruct (tab_default t (a_dev T1) (b1 ++ b2 ++ [n])
    (fun x => inner t k (fun q => A (take (length b1) x) q) (fun q => B (butlast1 (drop (length b1) x)) q (ith_last 1 x))) Hf)
    as (T & V & X1 & X2 & X3 & X4).
  assert (forall c e j w, in_box b1 c -> in_box b2 e -> 0 <= j < n ->
     inner t k (fun q => A c q) (fun q => B e q j) = Some w -> at_ T (c ++ e ++ [j]) = w) as X4'.
  { intros c e j w Hc He Hj Hw. pose proof (Forall2_length _ _ _ Hc) as Hlc. apply X4.
    - apply Forall2_app; [done|]. apply Forall2_app; [done|]. by apply in_box_1.
    - rewrite take_app_alt, drop_app_alt, butlast1_app by done. rewrite app_assoc, ith_last_11. exact Hw. }
  split.
  - intros (Hm1 & Hm2 & Hin).
    assert (forall c e j, in_box b1 c -> in_box b2 e -> 0 <= j < n ->
       inner t k (fun q => A c q) (fun q => B e q j) = Some (at_ T (c ++ e ++ [j]))) as HT.
    { intros c e j Hc He Hj. destruct (Hin c e j Hc He Hj) as [w Hw]. rewrite Hw. f_equal. symmetry. by apply X4'. }
    exists T. split_and!; [|done..]. unfold makes, makes_k. rewrite Hu.
    by apply (dot_tt_core p1 p2 T1 T2 T o E s Hwf HAl HHk H1 H2 Hty Hp1 Hp2 V X1 X2 b1 b2 k n).
  - intros Hno. rewrite Hu.
    by apply (dot_tt_stuck p1 p2 T1 T2 T o E s Hwf HAl HHk H1 H2 Hty Hc1 Hc2 Hp1 Hp2 V X1 X2 b1 b2 k n).
Qed.
End every.
