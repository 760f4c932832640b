(** * ProofDot4: aitisa_dot of a tensor with a vector, and of two tensors *)
From stdpp Require Import gmap list.
From Coq Require Import ZArith Lia Floats.SpecFloat.
From Coq Require Import ZifyBool ZifyNat.
From Verif Require Import Base Mem Spec ModelCore ModelBasic ModelMath Logic ProofCore ProofCore2 ProofCore3 ProofIndex
  ProofKernel ProofKernel2 ProofBasic ProofSlice ProofFrame ProofMatmul ProofMatmul2 ProofMatmul3 ProofDot ProofDot3.
Open Scope Z_scope.
Ltac Zify.zify_post_hook ::= Z.div_mod_to_equations.

Lemma inner_ext t k f g f' g' : (forall q, 0 <= q < k -> f q = f' q /\ g q = g' q) ->
  inner t k f g = inner t k f' g'.
Proof.
  intros H. rewrite !inner_psum. assert (Z.to_nat k <= Z.to_nat k)%nat as Hk by lia. revert Hk.
  generalize (Z.to_nat k) at 1 3 4. intros n. induction n as [|n IH]; intros Hn; [done|].
  rewrite !psum_S, IH by lia. destruct (H (Z.of_nat n)) as [-> ->]; [lia|done].
Qed.

Lemma prog_length z ws c : (c <= length ws)%nat -> length (prog z ws c) = length ws.
Proof. intros H. unfold prog. rewrite app_length, take_length, replicate_length. lia. Qed.

Lemma unravel_0 dims : Forall (fun d => 0 < d) dims -> unravel dims 0 = replicate (length dims) 0.
Proof.
  intros H. induction H as [|d ds Hd Hds IH]; [done|]. cbn.
  rewrite IH, Zdiv_0_l, Zmod_0_l. done.
Qed.

Lemma line_size_set b1 d b2 x : x = d ->
  <[length b1 := x]> (replicate (length (b1 ++ d :: b2)) 0) = line_size b1 d b2.
Proof.
  intros ->. rewrite replicate_line. unfold line_size.
  replace (length b1) with (length (replicate (length b1) 0%Z) + 0)%nat at 1 by (rewrite replicate_length; lia).
  by rewrite insert_app_r.
Qed.

Section dot.
Context (p1 p2 : nat) (T1 T2 T3 : atensor) (o : hval) (E : env) (s : st).
Context (Hwf : wf s) (HAl : alloc_all E) (HHk : hooks_ok E)
  (H1 : holds (heap s) p1 T1) (H2 : holds (heap s) p2 T2)
  (Hty : a_type T2 = a_type T1)
  (Hp1 : Forall (fun d => 0 < d <= INT_MAX) (a_dims T1)) (Hp2 : Forall (fun d => 0 < d <= INT_MAX) (a_dims T2))
  (HT3 : valid T3) (Ht3 : a_type T3 = a_type T1) (Hd3 : a_dev T3 = a_dev T1).
Let t := a_type T1.

Lemma dot_tv_core b k :
  (prodZ (a_dims T3) - 1) * Z.of_nat (tsz t) <= INT_MAX -> prodZ (a_dims T3) <= INT_MAX ->
  a_dims T1 = b ++ [k] -> a_dims T2 = [k] -> a_dims T3 = b ->
  (forall c, in_box b c ->
     inner t k (fun q => at_ T1 (c ++ [q])) (fun q => at_ T2 [q]) = Some (at_ T3 c)) ->
  makes (tensor_vector_dot (HPtr p1) (HPtr p2) o) E s T3.
Proof using All.
  intros Hmax Hbm D1 D2 D3 Hin. apply (makes_or_nomem_alloc _ _ _ o); [done|]. apply Qmakes_elim.
  unfold tensor_vector_dot.
  open_holds H1 Hv1 Hx1. open_holds H2 Hv2 Hx2. rewrite Hty in *.
  pose proof (valid_fits _ HvT) as Hf1. pose proof (fits_len _ _ Hf1) as Hn1.
  pose proof Hp1 as Hp. rewrite D1 in Hp. apply Forall_app in Hp as [Hpb Hk]. apply Forall_cons in Hk as [Hk _].
  pose proof (pos_of _ Hpb) as Hpb'. pose proof (prodZ_pos _ Hpb') as Hpp.
  rewrite D1 in Hv1, Hf1, Hn1. rewrite D2 in Hv2.
  assert (Z.of_nat (length (b ++ [k])) = Z.of_nat (length b) + 1) as Hnd by (rewrite app_length; cbn; lia).
  eapply wp_step; [by eapply tensor_ndim_ok|].
  eapply wp_step; [by eapply tensor_dims_ok|].
  eapply wp_step; [by eapply tensor_dims_ok|].
  replace (Z.of_nat (length (b ++ [k])) - 1) with (Z.of_nat (length b)) by lia.
  eapply wp_step; [apply aget_nat; by rewrite list_lookup_middle|].
  eapply wp_step; [by apply (aget_nat [k] 0 k)|]. rewrite Z.eqb_refl. cbn [negb]. cbv zeta.
  pose proof (frame_nil (tag := e_alloc E) (base := heap s)) as HF.
  assert (INT_MAX <= PTRDIFF_MAX) as HIP by done. assert (8 * INT_MAX <= PTRDIFF_MAX) as HIP8 by done.
  eapply wp_scr0; [done|lia|done|exact HF|]. clear HF. intros pp s1 Hwf1 HF1 Hr1 Hct1 Hsub1.
  cbn [is_null].
  apply wp_bind. eapply wp_intro.
  { eapply (for64_pure (fun i => take i b) E 0 _ (length b)); [done|lia|].
    intros i Hi. destruct (lookup_lt_is_Some_2 b i) as [d Hd]; [lia|].
    erewrite bind_done by (rewrite Z.add_0_l; apply aget_nat; by apply lookup_app_l_Some).
    by rewrite (take_S_r _ _ _ Hd). }
  rewrite take_ge by lia.
  pose proof (view_mono _ _ _ _ _ _ _ _ Hsub1 Hv1) as Hv1'.
  eapply wp_step; [by eapply tensor_dtype_ok|].
  eapply wp_step; [by eapply tensor_device_ok|].
  apply wp_bind. eapply create_t_rule; [done| | |].
  { rewrite <-D3, <-Ht3. apply valid_fits, HT3. }
  2:{ intros s' Hn. done. }
  intros s2 q pd pm ps px Ht Hr2. cbv beta match. rewrite bool_decide_eq_true_2 by done. cbn [negb].
  eapply (wp_scr_free [] pp []); [done|exact Ht|exact HF1|]. intros h3 s3 HT3' HF3 Hr3. cbn [app] in HF3.
  eapply wp_scr; [done| |exact HT3'|exact HF3|]; [lia|]. intros q1 h4 s4 HT4 HF4 Hr4 _.
  eapply wp_scr; [done| |exact HT4|exact HF4|]; [lia|]. intros q2 h5 s5 HT5 HF5 Hr5 _.
  eapply wp_scr; [done| |exact HT5|exact HF5|]; [lia|]. intros q3 h6 s6 HT6 HF6 Hr6 _.
  cbn [is_null orb]. clear HT3' HF3 HT4 HF4 HT5 HF5 HF1 Ht.
  rewrite Nat2Z.id.
  eapply wp_step; [apply aset_nat; rewrite replicate_length, app_length; cbn; lia|].
  rewrite line_size_set by (apply to_int_id; llia).
  eapply wp_step.
  { apply size_to_dim_ok.
    - eapply fits_prefixes; [|exact Hf1]. destruct (a_type T1); cbn; lia.
    - rewrite app_length. lia.
    - lia. }
  rewrite take_app.
  eapply wp_step; [by eapply tensor_data_ok, tnew_view|].
  eapply wp_step; [by eapply tensor_dtype_ok, tnew_view|].
  cbn [dtype_of d_size].
  pose proof (valid_len_nat _ HT3) as Hlen. rewrite D3 in Hlen.
  set (ws := a_vals T3) in *.
  set (TN := fun s' vs => tnew (e_alloc E) (ctr s1) h6 s' q pd pm ps px (dtype_of t) (a_dev T1) b (cells t vs)).
  assert (1 <= Z.of_nat (tsz t) <= 8) as Hsz by (subst t; destruct (a_type T1); cbn; lia).
  rewrite D3 in Hmax, Hbm.
  apply wp_bind. eapply wp_mono.
  { eapply (iter_ret_rule (fun v idx s' => idx = unravel b (Z.of_nat v) ++ [0] /\
      TN s' (prog VU ws v) /\ rpos s' = rpos s)).
    - split_and!.
      + rewrite unravel_0 by done. rewrite app_length, replicate_add. done.
      + rewrite prog_0, <-Hlen. exact HT6.
      + congruence.
    - intros v idx s' Hv (-> & HT & Hr). rewrite Z.add_0_l.
      pose proof (unravel_in_box b (Z.of_nat v) Hpb') as Hbox.
      assert (v < length ws)%nat as Hvl by lia.
      assert (0 <= Z.of_nat v * Z.of_nat (tsz t) <= INT_MAX) as Hoff.
      { assert (Z.of_nat v <= prodZ b - 1) as Hvb by lia. clear -Hvb Hmax Hsz. nia. }
      pose proof (tnew_base _ _ HT) as Hsub'. pose proof (frame_sub _ _ HF6) as HsubF.
      pose proof (tnew_wf _ _ HT) as Hwf'.
      assert (holds (heap s') p1 T1) as H1' by (eapply holds_mono; [|exact H1]; by etrans).
      assert (holds (heap s') p2 T2) as H2' by (eapply holds_mono; [|exact H2]; by etrans).
      destruct (line_rule p1 T1 b k [] (unravel b (Z.of_nat v)) [] HUndef E s' Hwf' HAl HHk H1' D1 Hp1 Hbox
        ltac:(by constructor)) as (s7 & vec & Hrun & HV).
      eapply wp_step; [exact Hrun|]. cbv beta match. rewrite bool_decide_eq_true_2 by done. cbn [negb].
      pose proof (created_holds _ _ _ _ _ _ HV) as HhV.
      pose proof (holds_mono _ _ _ _ (created_sub _ _ _ _ _ _ HV) H2') as H2''.
      assert (inner t k (fun q => at_ (line T1 b k [] (unravel b (Z.of_nat v)) []) [q]) (fun q => at_ T2 [q])
              = Some (at_ T3 (unravel b (Z.of_nat v)))) as Hinv.
      { rewrite <-Hin by done. apply inner_ext. intros y Hy. split; [|done]. apply line_at; [done|done|by constructor|done]. }
      pose proof (vv_dot_rule vec p2 (line T1 b k [] (unravel b (Z.of_nat v)) []) T2 _ k HUndef E s7
        (created_wf _ _ _ _ _ _ Hwf' HV) HhV H2'' Hty eq_refl D2 ltac:(lia) Hinv) as Hvv.
      apply makes_or_nomem_alloc in Hvv as (s8 & res & Hrun2 & HR); [|done].
      eapply wp_step; [exact Hrun2|]. cbv beta match. rewrite bool_decide_eq_true_2 by done. cbn [negb].
      destruct (store_result HHk _ _ _ _ _ _ _ _ _ v HT ltac:(rewrite prog_length; lia) HV HR)
        as (rx & s9 & s10 & s11 & Hd & Hm & Hde & Hde2 & HT' & Hr').
      eapply wp_step; [exact Hd|].
      eapply wp_step; [apply ck32_ok; subst t; unfold INT_MIN; lia|].
      eapply wp_step; [exact Hm|].
      eapply wp_step.
      { replace (length (b ++ [k]) - 1)%nat with (length b) by (rewrite app_length; cbn; lia).
        by apply advance_prefix. }
      eapply wp_step; [exact Hde|].
      eapply wp_step; [exact Hde2|].
      eapply wp_step; [apply check_ok; lia|].
      apply wp_ret. eexists. split; [done|]. split_and!.
      + f_equal. f_equal. lia.
      + rewrite prog_step in HT'; [exact HT'|].
        pose proof (at_lookup T3 v HT3 ltac:(done)) as Hat. rewrite D3 in Hat. rewrite Hat.
        destruct (lookup_lt_is_Some_2 ws v Hvl) as [w Hw]. fold ws. by rewrite Hw.
      + congruence. }
  intros c s7 (idx & -> & _ & HT7 & Hr7). cbv beta match.
  rewrite prog_full in HT7 by lia.
  eapply (wp_scr_free [q3; q2] q1 []); [done|exact HT7|exact HF6|]. intros h8 s8 HT8 HF8 Hr8. cbn [app] in HF8.
  eapply (wp_scr_free [q3] q2 []); [done|exact HT8|exact HF8|]. intros h9 s9 HT9 HF9 Hr9. cbn [app] in HF9.
  eapply (wp_scr_free [] q3 []); [done|exact HT9|exact HF9|]. intros h10 s10 HT10 HF10 Hr10. cbn [app] in HF10.
  apply frame_nil_inv in HF10 as ->. apply wp_ret. left. exists q. split; [done|].
  rewrite <-(at_eta T3), Ht3, Hd3, D3.
  eapply tnew_makes; [done| |eapply tnew_lo; [exact HT10|lia]|congruence].
  rewrite <-Ht3, <-Hd3, <-D3. subst ws. rewrite at_eta. done.
Qed.
End dot.
