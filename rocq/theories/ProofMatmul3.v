(** * ProofMatmul3: aitisa_matmul on batched operands *)
From stdpp Require Import gmap list.
From Coq Require Import ZArith Lia Floats.SpecFloat.
From Coq Require Import ZifyBool ZifyNat.
From Verif Require Import Base Mem Spec ModelCore ModelBasic ModelMath Logic ProofCore ProofCore2 ProofCore3
  ProofKernel ProofBasic ProofIndex ProofLayout ProofBroadcast ProofBasic2 ProofKernel2 ProofSlice ProofFrame ProofMatmul
  ProofMatmul2.
Open Scope Z_scope.

Ltac Zify.zify_post_hook ::= Z.div_mod_to_equations.

Lemma pos_of l : Forall (fun d => 0 < d <= INT_MAX) l -> Forall (fun d => 0 < d) l.
Proof. intros H. eapply Forall_impl; [exact H|]. intros x Hx; cbv beta in Hx; lia. Qed.

Lemma le2 a b M : 0 < a -> 0 < b -> a * b <= M -> a <= M /\ b <= M.
Proof. nia. Qed.
Lemma le3 z a b M : 1 <= z -> 0 < a -> 0 < b -> z * (a * b) <= M -> a <= M /\ b <= M.
Proof. intros Hz Ha Hb H. apply le2; [done|done|]. nia. Qed.
Lemma off_bound z r a b M : 1 <= z -> 0 <= r < a -> 0 < b -> z * (a * b) <= M -> r * b * z <= M.
Proof. intros Hz Hr Hb H. assert (r * b <= a * b) by nia. nia. Qed.

Section batched.
Context (p1 p2 : nat) (T1 T2 T3 : atensor) (o : hval) (E : env) (s : st).
Context (Hwf : wf s) (HAl : alloc_all E) (HHk : hooks_ok E)
  (H1 : holds (heap s) p1 T1) (H2 : holds (heap s) p2 T2)
  (Hty : a_type T2 = a_type T1)
  (Hc1 : dev_type (a_dev T1) = 0) (Hc2 : dev_type (a_dev T2) = 0)
  (Hp1 : Forall (fun d => 0 < d <= INT_MAX) (a_dims T1)) (Hp2 : Forall (fun d => 0 < d <= INT_MAX) (a_dims T2))
  (HT3 : valid T3) (Ht3 : a_type T3 = a_type T1) (Hd3 : a_dev T3 = a_dev T1)
  (Hmax : prodZ (a_dims T3) <= INT_MAX).
Let t := a_type T1.

Lemma matmul_tv_rule b1 m k :
  b1 <> [] -> a_dims T1 = b1 ++ [m; k] -> a_dims T2 = [k] -> a_dims T3 = b1 ++ [m] ->
  (forall c i, in_box b1 c -> 0 <= i < m ->
     inner t k (fun q => at_ T1 (c ++ [i; q])) (fun q => at_ T2 [q]) = Some (at_ T3 (c ++ [i]))) ->
  makes (aitisa_matmul (HPtr p1) (HPtr p2) o) E s T3.
Proof using All.
  intros Hb1 D1 D2 D3 Hin. apply (makes_or_nomem_alloc _ _ _ o); [done|]. apply Qmakes_elim. unfold aitisa_matmul.
  open_holds H1 Hv1 Hx1. open_holds H2 Hv2 Hx2. rewrite Hty in *.
  pose proof (valid_fits _ HvT) as Hf1. pose proof (fits_len _ _ Hf1) as Hn1.
  rewrite D1 in *. rewrite D2 in *.
  assert (0 < Z.of_nat (length b1)) as Hlb by (destruct b1; cbn in *; [done|lia]).
  assert (Z.of_nat (length (b1 ++ [m; k])) = Z.of_nat (length b1) + 2) as Hnd by (rewrite app_length; cbn; lia).
  eapply wp_step; [by eapply tensor_device_ok|].
  eapply wp_step; [by eapply tensor_device_ok|].
  unfold not_cpu. rewrite Hc1, Hc2. cbn [DEVICE_CPU negb orb Z.eqb].
  eapply wp_step; [by eapply tensor_ndim_ok|].
  eapply wp_step; [by eapply tensor_ndim_ok|]. 
  change (Z.of_nat (length [k]) =? 1) with true. change (Z.of_nat (length [k]) =? 2) with false.
  rewrite Hnd in *.
  replace (Z.of_nat (length b1) + 2 =? 1) with false by lia. replace (Z.of_nat (length b1) + 2 =? 2) with false by lia.
  replace (3 <=? Z.of_nat (length b1) + 2) with true by lia. cbn [andb].
  apply Forall_app in Hp1 as [Hpb Hpm]. inversion_clear Hpm as [|? ? Hm Hpk]. inversion_clear Hpk as [|? ? Hk _].
  unfold matmul_tv.
  assert (forall i d, (b1 ++ [m; k]) !! i = Some d -> forall s', heap s ⊆ heap s' -> 
    tensor_dim (HPtr p1) (Z.of_nat i) E s' = Done d s') as G1.
  { intros i d Hd s' Hs. eapply tensor_dim_ok; [by eapply view_mono|lia|]. by rewrite Nat2Z.id. }
  eapply wp_step.
  { replace (Z.of_nat (length b1) + 2 - 2) with (Z.of_nat (length b1)) by lia. apply G1; [|done].
    by rewrite list_lookup_middle. }
  eapply wp_step.
  { replace (Z.of_nat (length b1) + 2 - 1) with (Z.of_nat (length b1 + 1)) by lia. apply G1; [|done].
    rewrite lookup_app_r by lia. by replace (length b1 + 1 - length b1)%nat with 1%nat by lia. }
  eapply wp_step; [by eapply tensor_dim_ok|]. rewrite Z.eqb_refl. cbn [negb].
  pose proof (frame_nil (tag := e_alloc E) (base := heap s)) as HF.
  assert (INT_MAX <= PTRDIFF_MAX) as HIP by done. assert (8 * INT_MAX <= PTRDIFF_MAX) as HIP8 by done.
  eapply wp_scr0; [done|lia|done|exact HF|]. clear HF. intros pp s1 Hwf1 HF1 Hr1 Hct1 Hsub1.
  apply wp_bind. eapply wp_intro.
  { eapply (for64_pure (fun i => take i (b1 ++ [m])) E 0 _ (length b1 + 1)); [done|lia|].
    intros i Hi. destruct (lookup_lt_is_Some_2 (b1 ++ [m]) i) as [d Hd]; [rewrite app_length; cbn; lia|].
    erewrite bind_done.
    2:{ rewrite Z.add_0_l. apply G1; [|exact Hsub1].
        change [m; k] with ([m] ++ [k]). rewrite app_assoc. by apply lookup_app_l_Some. }
    erewrite bind_done by (eapply touch_frame0; [exact HF1|set_solver]).
    by rewrite (take_S_r _ _ _ Hd). }
  rewrite take_ge by (rewrite app_length; cbn; lia). rewrite <-D3.
  apply wp_bind. eapply zeros_rule.
  { done. } { eapply holds_mono; [exact Hsub1|exact H1]. }
  { rewrite <-Ht3. apply valid_fits, HT3. } { done. } { rewrite D3, app_length; cbn; lia. }
  2:{ intros s' Hn. done. }
  intros s2 q pd pm ps px Ht Hr2. cbv beta match. rewrite bool_decide_eq_true_2 by done. cbn [negb].
  pose proof (view_mono _ _ _ _ _ _ _ _ (tnew_base _ _ Ht) (view_mono _ _ _ _ _ _ _ _ Hsub1 Hv1)) as Hv1'.
  eapply wp_step; [by eapply tensor_dims_ok|].
  eapply wp_step.
  { replace (Z.of_nat (length b1) + 2 - 2) with (Z.of_nat (length b1)) by lia. apply size_to_dim_ok.
    - eapply fits_prefixes; [|exact Hf1]. destruct (a_type T1); cbn; lia.
    - rewrite app_length. lia.
    - lia. }
  rewrite take_app.
  pose proof (pos_of _ Hpb) as Hpb'. pose proof (prodZ_pos _ Hpb') as Hpp.
  pose proof (fits_bytes _ _ Hf1) as Hby. rewrite prodZ_app in Hby.
  assert (prodZ [m; k] = m * k) as Hmk by (rewrite !prodZ_cons, prodZ_nil; lia). rewrite Hmk in Hby.
  assert (1 <= Z.of_nat (tsz (a_type T1)) <= 8) as Hsz by (destruct (a_type T1); cbn; lia).
  rewrite D3, prodZ_snoc in Hmax.
  assert (prodZ b1 <= INT_MAX) as Hpi by nia.
  assert (0 <= m * k <= INT64_MAX) as Hmk64.
  { split; [nia|]. assert (m * k <= prodZ b1 * (m * k)) by nia. nia. }
  eapply wp_step; [apply ck64_ok; unfold INT64_MIN; lia|].
  eapply wp_step; [apply ck64_ok; unfold INT64_MIN, INT64_MAX; unfold INT_MAX in *; lia|].
  assert (length (a_vals T3) = Z.to_nat (prodZ b1) * (Z.to_nat m * 1))%nat as Hl.
  { rewrite <-(valid_len_nat _ HT3), D3, prodZ_snoc. nia. }
  rewrite <-(Z2Nat.id (prodZ b1)), <-(Z2Nat.id m), <-(Z2Nat.id k) at 1 by lia.
  change 1 with (Z.of_nat 1).
  eapply (batches_rule Hv1 Hv2 Hx1 Hx2 s2 (heap s1) [pp] (a_vals T3) _ _ _ _ _ _ _ _
    (fun b => b) (fun _ => 0%nat)
    (fun b i j y => at_ T1 (unravel b1 (Z.of_nat b) ++ [Z.of_nat i; y])) (fun b i j y => at_ T2 [y])).
  - done.
  - done.
  - rewrite <-(valid_len_nat _ HT3). exact Ht.
  - exact HF1.
  - exact Hl.
  - unfold INT64_MAX; unfold INT_MAX in *; nia.
  - lia.
  - lia.
  - lia.
  - done.
  - nia.
  - nia.
  - lia.
  - done.
  - intros b Hb. split; [|nia]. nia.
  - intros b i j y Hb Hi Hj Hy.
    pose proof (unravel_in_box b1 (Z.of_nat b) Hpb') as Hbox.
    pose proof (ravel_unravel b1 (Z.of_nat b) Hpb' ltac:(lia)) as Hru.
    split.
    + pose proof (at_mat_app T1 b1 _ m k i y HvT D1 Hbox Hi Hy) as Hat. rewrite Hru, Nat2Z.id in Hat.
      rewrite <-Hat. f_equal. nia.
    + assert (j = 0)%nat as -> by lia. rewrite <-(at_vec T2 k y HvT0 D2 Hy). f_equal. lia.
  - intros b i j Hb Hi Hj. assert (j = 0)%nat as -> by lia.
    pose proof (unravel_in_box b1 (Z.of_nat b) Hpb') as Hbox.
    pose proof (ravel_unravel b1 (Z.of_nat b) Hpb' ltac:(lia)) as Hru.
    pose proof (at_vec_app T3 b1 _ m i HT3 D3 Hbox Hi) as Hat. rewrite Hru, Nat2Z.id in Hat.
    replace (b * (Z.to_nat m * 1) + i * 1 + 0)%nat with (b * Z.to_nat m + i)%nat by lia.
    rewrite Hat, <-inner_psum. apply Hin; [done|lia].
  - intros h' s3 HT HF Hr3. cbv beta. rewrite bool_decide_eq_true_2 by done. cbn [negb].
    eapply (wp_scr_free [] pp []); [done|exact HT|exact HF|]. intros h4 s4 HT4 HF4 Hr4. cbn [app] in HF4.
    apply frame_nil_inv in HF4 as ->. apply wp_ret. left. exists q. split; [done|].
    rewrite <-(at_eta T3), Ht3, Hd3.
    eapply tnew_makes; [done| |eapply tnew_lo; [exact HT4|lia]|congruence].
    rewrite <-Ht3, <-Hd3, at_eta. done.
Qed.

Lemma matmul_vt_rule b2 k n :
  b2 <> [] -> a_dims T1 = [k] -> a_dims T2 = b2 ++ [k; n] -> a_dims T3 = b2 ++ [n] ->
  (forall c j, in_box b2 c -> 0 <= j < n ->
     inner t k (fun q => at_ T1 [q]) (fun q => at_ T2 (c ++ [q; j])) = Some (at_ T3 (c ++ [j]))) ->
  makes (aitisa_matmul (HPtr p1) (HPtr p2) o) E s T3.
Proof using All.
  intros Hb2 D1 D2 D3 Hin. apply (makes_or_nomem_alloc _ _ _ o); [done|]. apply Qmakes_elim. unfold aitisa_matmul.
  open_holds H1 Hv1 Hx1. open_holds H2 Hv2 Hx2. rewrite Hty in *.
  pose proof (valid_fits _ HvT0) as Hf2. rewrite Hty in Hf2. pose proof (fits_len _ _ Hf2) as Hn2.
  rewrite D1 in *. rewrite D2 in *.
  assert (0 < Z.of_nat (length b2)) as Hlb by (destruct b2; cbn in *; [done|lia]).
  assert (Z.of_nat (length (b2 ++ [k; n])) = Z.of_nat (length b2) + 2) as Hnd by (rewrite app_length; cbn; lia).
  eapply wp_step; [by eapply tensor_device_ok|].
  eapply wp_step; [by eapply tensor_device_ok|].
  unfold not_cpu. rewrite Hc1, Hc2. cbn [DEVICE_CPU negb orb Z.eqb].
  eapply wp_step; [by eapply tensor_ndim_ok|].
  eapply wp_step; [by eapply tensor_ndim_ok|]. 
  change (Z.of_nat (length [k]) =? 1) with true. change (Z.of_nat (length [k]) =? 2) with false.
  change (3 <=? Z.of_nat (length [k])) with false.
  rewrite Hnd in *.
  replace (Z.of_nat (length b2) + 2 =? 1) with false by lia. replace (Z.of_nat (length b2) + 2 =? 2) with false by lia.
  replace (3 <=? Z.of_nat (length b2) + 2) with true by lia. cbn [andb].
  apply Forall_app in Hp2 as [Hpb Hpm]. inversion_clear Hpm as [|? ? Hk Hpn]. inversion_clear Hpn as [|? ? Hn _].
  unfold matmul_vt. cbv zeta.
  assert (forall i d, (b2 ++ [k; n]) !! i = Some d -> forall s', heap s ⊆ heap s' -> 
    tensor_dim (HPtr p2) (Z.of_nat i) E s' = Done d s') as G2.
  { intros i d Hd s' Hs. eapply tensor_dim_ok; [by eapply view_mono|lia|]. by rewrite Nat2Z.id. }
  assert ((b2 ++ [k; n]) !! (length b2 + 1)%nat = Some n) as Gn.
  { rewrite lookup_app_r by lia. by replace (length b2 + 1 - length b2)%nat with 1%nat by lia. }
  replace (Z.of_nat (length b2) + 2 - 2) with (Z.of_nat (length b2)) by lia.
  replace (Z.of_nat (length b2) + 2 - 1) with (Z.of_nat (length b2 + 1)) by lia.
  eapply wp_step; [by eapply tensor_dim_ok|].
  eapply wp_step; [apply G2; [by rewrite list_lookup_middle|done]|].
  eapply wp_step; [by apply G2|]. rewrite Z.eqb_refl. cbn [negb].
  pose proof (frame_nil (tag := e_alloc E) (base := heap s)) as HF.
  assert (INT_MAX <= PTRDIFF_MAX) as HIP by done. assert (8 * INT_MAX <= PTRDIFF_MAX) as HIP8 by done.
  eapply wp_scr0; [done|lia|done|exact HF|]. clear HF. intros pp s1 Hwf1 HF1 Hr1 Hct1 Hsub1.
  apply wp_bind. eapply wp_intro.
  { eapply (for64_pure (fun i => take i b2) E 0 _ (length b2)); [done|lia|].
    intros i Hi. destruct (lookup_lt_is_Some_2 b2 i) as [d Hd]; [lia|].
    erewrite bind_done.
    2:{ rewrite Z.add_0_l. apply G2; [|exact Hsub1]. by apply lookup_app_l_Some. }
    erewrite bind_done by (eapply touch_frame0; [exact HF1|set_solver]).
    by rewrite (take_S_r _ _ _ Hd). }
  rewrite take_ge by lia.
  eapply wp_step; [by apply G2|]. 
  eapply wp_step; [eapply touch_frame0; [exact HF1|set_solver]|]. rewrite <-D3.
  apply wp_bind. eapply zeros_rule.
  { done. } { eapply holds_mono; [exact Hsub1|exact H1]. }
  { rewrite <-Ht3. apply valid_fits, HT3. } { done. } { rewrite D3, app_length; cbn; lia. }
  2:{ intros s' Hn'. done. }
  intros s2 q pd pm ps px Ht Hr2. cbv beta match. rewrite bool_decide_eq_true_2 by done. cbn [negb].
  pose proof (view_mono _ _ _ _ _ _ _ _ (tnew_base _ _ Ht) (view_mono _ _ _ _ _ _ _ _ Hsub1 Hv2)) as Hv2'.
  eapply wp_step; [by eapply tensor_dims_ok|].
  eapply wp_step.
  { apply size_to_dim_ok.
    - eapply fits_prefixes; [|exact Hf2]. destruct (a_type T1); cbn; lia.
    - rewrite app_length. lia.
    - lia. }
  rewrite take_app.
  pose proof (pos_of _ Hpb) as Hpb'. pose proof (prodZ_pos _ Hpb') as Hpp.
  pose proof (fits_bytes _ _ Hf2) as Hby. rewrite prodZ_app in Hby.
  assert (prodZ [k; n] = k * n) as Hmk by (rewrite !prodZ_cons, prodZ_nil; lia). rewrite Hmk in Hby.
  assert (1 <= Z.of_nat (tsz (a_type T1)) <= 8) as Hsz by (destruct (a_type T1); cbn; lia).
  rewrite D3, prodZ_snoc in Hmax.
  assert (prodZ b2 <= INT_MAX) as Hpi by nia.
  assert (0 <= k * n <= INT64_MAX) as Hmk64.
  { split; [nia|]. assert (k * n <= prodZ b2 * (k * n)) by nia. nia. }
  eapply wp_step; [apply ck64_ok; unfold INT64_MIN; lia|].
  eapply wp_step; [apply ck64_ok; unfold INT64_MIN, INT64_MAX; unfold INT_MAX in *; lia|].
  assert (length (a_vals T3) = Z.to_nat (prodZ b2) * (1 * Z.to_nat n))%nat as Hl.
  { rewrite <-(valid_len_nat _ HT3), D3, prodZ_snoc. nia. }
  rewrite <-(Z2Nat.id (prodZ b2)), <-(Z2Nat.id n), <-(Z2Nat.id k) at 1 by lia.
  change 1 with (Z.of_nat 1).
  eapply (batches_rule Hv1 Hv2 Hx1 Hx2 s2 (heap s1) [pp] (a_vals T3) _ _ _ _ _ _ _ _
    (fun b => 0%nat) (fun b => b)
    (fun b i j y => at_ T1 [y]) (fun b i j y => at_ T2 (unravel b2 (Z.of_nat b) ++ [y; Z.of_nat j]))).
  - done.
  - done.
  - rewrite <-(valid_len_nat _ HT3). exact Ht.
  - exact HF1.
  - exact Hl.
  - unfold INT64_MAX; unfold INT_MAX in *; nia.
  - lia.
  - done.
  - lia.
  - lia.
  - nia.
  - done.
  - lia.
  - done.
  - intros b Hb. split; [nia|]. nia.
  - intros b i j y Hb Hi Hj Hy.
    pose proof (unravel_in_box b2 (Z.of_nat b) Hpb') as Hbox.
    pose proof (ravel_unravel b2 (Z.of_nat b) Hpb' ltac:(lia)) as Hru.
    split.
    + assert (i = 0)%nat as -> by lia. by rewrite <-(at_vec T1 k y HvT D1 Hy).
    + pose proof (at_mat_app T2 b2 _ k n y j HvT0 D2 Hbox Hy Hj) as Hat. rewrite Hru, Nat2Z.id in Hat.
      rewrite <-Hat. f_equal. nia.
  - intros b i j Hb Hi Hj. assert (i = 0)%nat as -> by lia.
    pose proof (unravel_in_box b2 (Z.of_nat b) Hpb') as Hbox.
    pose proof (ravel_unravel b2 (Z.of_nat b) Hpb' ltac:(lia)) as Hru.
    pose proof (at_vec_app T3 b2 _ n j HT3 D3 Hbox Hj) as Hat. rewrite Hru, Nat2Z.id in Hat.
    replace (b * (1 * Z.to_nat n) + 0 * Z.to_nat n + j)%nat with (b * Z.to_nat n + j)%nat by lia.
    rewrite Hat, <-inner_psum. apply Hin; [done|lia].
  - intros h' s3 HT HF Hr3. cbv beta. rewrite bool_decide_eq_true_2 by done. cbn [negb].
    eapply (wp_scr_free [] pp []); [done|exact HT|exact HF|]. intros h4 s4 HT4 HF4 Hr4. cbn [app] in HF4.
    apply frame_nil_inv in HF4 as ->. apply wp_ret. left. exists q. split; [done|].
    rewrite <-(at_eta T3), Ht3, Hd3.
    eapply tnew_makes; [done| |eapply tnew_lo; [exact HT4|lia]|congruence].
    rewrite <-Ht3, <-Hd3, at_eta. done.
Qed.

Lemma matmul_tt_rule b1 b2 bd m k n :
  bd <> [] -> a_dims T1 = b1 ++ [m; k] -> a_dims T2 = b2 ++ [k; n] -> bcast b1 b2 = Some bd ->
  a_dims T3 = bd ++ [m; n] ->
  (forall c i j, in_box bd c -> 0 <= i < m -> 0 <= j < n ->
     inner t k (fun q => at_ T1 (bproj b1 c ++ [i; q])) (fun q => at_ T2 (bproj b2 c ++ [q; j]))
     = Some (at_ T3 (c ++ [i; j]))) ->
  makes (aitisa_matmul (HPtr p1) (HPtr p2) o) E s T3.
Proof using All.
  intros Hbd D1 D2 HB D3 Hin. apply (makes_or_nomem_alloc _ _ _ o); [done|]. apply Qmakes_elim. unfold aitisa_matmul.
  open_holds H1 Hv1 Hx1. open_holds H2 Hv2 Hx2. rewrite Hty in *.
  pose proof (valid_fits _ HvT) as Hf1. pose proof (fits_len _ _ Hf1) as Hn1.
  pose proof (valid_fits _ HvT0) as Hf2. rewrite Hty in Hf2. pose proof (fits_len _ _ Hf2) as Hn2.
  pose proof (valid_fits _ HT3) as Hf3. rewrite Ht3 in Hf3.
  rewrite D1 in *. rewrite D2 in *.
  (* the joint batch shape *)
  unfold bcast in HB. destruct (bcast_rev (rev b1) (rev b2)) as [rb|] eqn:HB'; [|done]. injection HB as <-.
  apply Forall_app in Hp1 as [Hpb1 Hpm]. inversion_clear Hpm as [|? ? Hm Hpk]. inversion_clear Hpk as [|? ? Hk _].
  apply Forall_app in Hp2 as [Hpb2 Hpn]. inversion_clear Hpn as [|? ? _ Hpn']. inversion_clear Hpn' as [|? ? Hn _].
  pose proof (pos_of _ Hpb1) as P1. pose proof (pos_of _ Hpb2) as P2.
  pose proof (List.Forall_rev P1) as R1. pose proof (List.Forall_rev P2) as R2.
  pose proof (craw_bcast _ _ R1 R2) as Hcraw. rewrite HB' in Hcraw.
  pose proof (craw_length _ _ _ Hcraw) as Hlr. rewrite !rev_length in Hlr.
  destruct (bcast_rev_compat _ _ _ HB') as [C1 C2].
  assert (Forall (fun d => 0 < d) rb) as Prb.
  { pose proof (valid_fits _ HT3) as [Hnn _]. rewrite D3 in Hnn. apply Forall_app in Hnn as [Hnn _].
    clear -HB' R1 R2. revert HB'. generalize dependent (rev b2). generalize dependent (rev b1).
    intros l Hl. revert rb. induction Hl as [|a l Ha Hl IH]; intros rb k Hk; cbn [bcast_rev].
    - by intros [= <-].
    - destruct Hk as [|b k Hb Hk]; [intros [= <-]; by constructor|].
      destruct (bdim a b) as [x|] eqn:Hx; [|done]. destruct (bcast_rev l k) as [r|] eqn:Hr; [|done].
      intros [= <-]. constructor; [|by eapply IH].
      unfold bdim in Hx. destruct (a =? b), (a =? 1), (b =? 1); naive_solver. }
  set (bd := rev rb) in *.
  assert (length bd = Nat.max (length b1) (length b2)) as Hlbd by (unfold bd; by rewrite rev_length).
  assert (Forall (fun d => 0 < d) bd) as Pbd by (by apply List.Forall_rev).
  assert (rev bd = rb) as Hrbd by apply rev_involutive.
  assert (0 < Z.of_nat (length bd)) as Hlb by (destruct bd; cbn in *; [done|lia]).
  assert (Z.of_nat (length (b1 ++ [m; k])) = Z.of_nat (length b1) + 2) as Hnd1 by (rewrite app_length; cbn; lia).
  assert (Z.of_nat (length (b2 ++ [k; n])) = Z.of_nat (length b2) + 2) as Hnd2 by (rewrite app_length; cbn; lia).
  eapply wp_step; [by eapply tensor_device_ok|].
  eapply wp_step; [by eapply tensor_device_ok|].
  unfold not_cpu. rewrite Hc1, Hc2. cbn [DEVICE_CPU negb orb Z.eqb].
  eapply wp_step; [by eapply tensor_ndim_ok|].
  eapply wp_step; [by eapply tensor_ndim_ok|]. 
  rewrite Hnd1, Hnd2 in *.
  replace (Z.of_nat (length b1) + 2 =? 1) with false by lia.
  replace (Z.of_nat (length b2) + 2 =? 1) with false by lia.
  rewrite !andb_false_r. cbn [andb].
  replace ((Z.of_nat (length b1) + 2 =? 2) && (Z.of_nat (length b2) + 2 =? 2)) with false by lia.
  replace ((3 <=? Z.of_nat (length b1) + 2) && (2 <=? Z.of_nat (length b2) + 2)
      || (2 <=? Z.of_nat (length b1) + 2) && (3 <=? Z.of_nat (length b2) + 2)) with true by lia.
  unfold matmul_tt. cbv zeta.
  replace (Z.of_nat (length b1) + 2 - 2) with (Z.of_nat (length b1)) by lia.
  replace (Z.of_nat (length b1) + 2 - 1) with (Z.of_nat (length b1 + 1)) by lia.
  replace (Z.of_nat (length b2) + 2 - 2) with (Z.of_nat (length b2)) by lia.
  replace (Z.of_nat (length b2) + 2 - 1) with (Z.of_nat (length b2 + 1)) by lia.
  replace (Z.max (Z.of_nat (length b1) + 2) (Z.of_nat (length b2) + 2)) with (Z.of_nat (length bd) + 2) by lia.
  replace (Z.of_nat (length bd) + 2 - 2) with (Z.of_nat (length bd)) by lia.
  replace (Z.of_nat (length bd) + 2 - 1) with (Z.of_nat (length bd + 1)) by lia.
  replace (Z.max (Z.of_nat (length b1)) 0) with (Z.of_nat (length b1)) by lia.
  replace (Z.max (Z.of_nat (length b2)) 0) with (Z.of_nat (length b2)) by lia.
  assert (forall (l : list Z) x y, (l ++ [x; y]) !! (length l + 1)%nat = Some y) as Gn.
  { intros l x' y'. rewrite lookup_app_r by lia. by replace (length l + 1 - length l)%nat with 1%nat by lia. }
  eapply wp_step; [eapply tensor_dim_ok; [done|lia|rewrite Nat2Z.id; by rewrite list_lookup_middle]|].
  eapply wp_step; [eapply tensor_dim_ok; [done|lia|rewrite Nat2Z.id; apply Gn]|].
  eapply wp_step; [eapply tensor_dim_ok; [done|lia|rewrite Nat2Z.id; by rewrite list_lookup_middle]|].
  eapply wp_step; [eapply tensor_dim_ok; [done|lia|rewrite Nat2Z.id; apply Gn]|].
  rewrite Z.eqb_refl. cbn [negb].
  pose proof (frame_nil (tag := e_alloc E) (base := heap s)) as HF.
  assert (INT_MAX <= PTRDIFF_MAX) as HIP by done. assert (8 * INT_MAX <= PTRDIFF_MAX) as HIP8 by done.
  eapply wp_scr0; [done|lia|done|exact HF|]. clear HF. intros pp s1 Hwf1 HF1 Hr1 Hct1 Hsub1.
  pose proof (view_mono _ _ _ _ _ _ _ _ Hsub1 Hv1) as Hv11. pose proof (view_mono _ _ _ _ _ _ _ _ Hsub1 Hv2) as Hv21.
  eapply wp_step; [by eapply tensor_dims_ok|].
  eapply wp_step; [by eapply tensor_dims_ok|].
  (* broadcasting the batch extents *)
  assert (aitisa_broadcast_array (b1 ++ [m; k]) (Z.of_nat (length b1)) (b2 ++ [k; n]) (Z.of_nat (length b2))
     (arr (HPtr pp) (Z.of_nat (length bd) + 2)) (Z.of_nat (length bd)) E s1
     = Done (SUCCESS, (Some <$> bd) ++ [None; None]) s1) as Hbc.
  { destruct (broadcast_craw b1 b2 (replicate (length bd) None) E s1) as [out' Hout];
      [rewrite replicate_length; lia|]. rewrite Hcraw, replicate_length in Hout.
    apply (broadcast_prefix _ [m; k] _ _ [k; n] _ _ [None; None]) in Hout.
    unfold arr. replace (Z.to_nat (Z.of_nat (length bd) + 2)) with (length bd + 2)%nat by lia.
    rewrite replicate_add. exact Hout. }
  eapply wp_step; [exact Hbc|]. cbv beta match. rewrite bool_decide_eq_true_2 by done. cbn [negb].
  eapply wp_step.
  { rewrite aset_Z by (rewrite app_length, fmap_length; cbn; lia). rewrite Nat2Z.id.
    rewrite insert_app_r_alt by (rewrite fmap_length; lia). rewrite fmap_length, Nat.sub_diag. reflexivity. }
  eapply wp_step.
  { rewrite aset_Z by (rewrite app_length, fmap_length; cbn; lia). rewrite Nat2Z.id.
    rewrite insert_app_r_alt by (rewrite fmap_length; lia). rewrite fmap_length.
    replace (length bd + 1 - length bd)%nat with 1%nat by lia. reflexivity. }
  cbn [list_insert insert list_alter].
  eapply wp_step.
  { change [Some m; Some n] with (Some <$> [m; n]). rewrite <-fmap_app. apply force_array_ok. }
  rewrite <-D3.
  apply wp_bind. eapply zeros_rule.
  { done. } { eapply holds_mono; [exact Hsub1|exact H1]. }
  { rewrite D3 in Hf3 |- *. exact Hf3. } { done. } { rewrite D3, app_length; cbn; lia. }
  2:{ intros s' Hn'. done. }
  intros s2 q pd pm ps px Ht Hr2. cbv beta match. rewrite bool_decide_eq_true_2 by done. cbn [negb].
  eapply wp_scr; [done|lia|exact Ht|exact HF1|]. clear Ht HF1. intros q1 h3 s3 Ht HF3 Hr3 Hs3.
  eapply wp_scr; [done|lia|exact Ht|exact HF3|]. clear Ht HF3. intros q2 h4 s4 Ht HF4 Hr4 Hs4.
  pose proof (prodZ_pos _ P1) as PP1. pose proof (prodZ_pos _ P2) as PP2. pose proof (prodZ_pos _ Pbd) as PPd.
  assert (1 <= Z.of_nat (tsz (a_type T1)) <= 8) as Hsz by (destruct (a_type T1); cbn; lia).
  assert (forall x y, prodZ [x; y] = x * y) as Hmk by (intros; rewrite !prodZ_cons, prodZ_nil; lia).
  pose proof (fits_bytes _ _ Hf1) as Hby1. rewrite prodZ_app, Hmk in Hby1.
  pose proof (fits_bytes _ _ Hf2) as Hby2. rewrite prodZ_app, Hmk in Hby2.
  rewrite D3, prodZ_app, Hmk in Hmax.
  assert (0 < m * k) as Hmk0 by nia. assert (0 < k * n) as Hkn0 by nia. assert (0 < m * n) as Hmn0 by nia.
  assert (prodZ bd <= INT_MAX /\ m * n <= INT_MAX) as [Hpi Hmni] by (by apply le2).
  assert (prodZ b1 <= INT64_MAX /\ m * k <= INT64_MAX) as [Hq1 Hmki].
  { apply (le3 (Z.of_nat (tsz (a_type T1)))); lia. }
  assert (prodZ b2 <= INT64_MAX /\ k * n <= INT64_MAX) as [Hq2 Hkni].
  { apply (le3 (Z.of_nat (tsz (a_type T1)))); lia. }
  eapply wp_step; [apply batch_strides_ok; [done|lia|lia]|].
  eapply wp_step; [apply batch_strides_ok; [done|lia|lia]|].
  eapply wp_step; [apply force_array_ok|].
  eapply wp_step; [apply force_array_ok|].
  eapply wp_step.
  { rewrite D3. apply size_to_dim_ok.
    - eapply fits_prefixes; [|rewrite D3 in Hf3; exact Hf3]. lia.
    - rewrite app_length. lia.
    - rewrite D3 in Hf3. by eapply fits_len. }
  rewrite take_app.
  eapply wp_step; [apply ck64_ok; unfold INT64_MIN; lia|].
  eapply wp_step; [apply ck64_ok; unfold INT64_MIN; lia|].
  eapply wp_step; [apply ck64_ok; unfold INT64_MIN, INT64_MAX; unfold INT_MAX in *; lia|].
  assert (length (a_vals T3) = Z.to_nat (prodZ bd) * (Z.to_nat m * Z.to_nat n))%nat as Hl.
  { rewrite <-(valid_len_nat _ HT3), D3, prodZ_app, Hmk. nia. }
  rewrite D3.
  (* offsets *)
  set (c_ := fun b : nat => unravel bd (Z.of_nat b)).
  assert (forall b, in_box bd (c_ b)) as Hcb by (intros b; by apply unravel_in_box).
  assert (forall b, in_box b1 (bproj b1 (c_ b))) as Hcb1.
  { intros b. apply (bproj_in_box b1 bd); [by rewrite Hrbd|done|done]. }
  assert (forall b, in_box b2 (bproj b2 (c_ b))) as Hcb2.
  { intros b. apply (bproj_in_box b2 bd); [by rewrite Hrbd|done|done]. }
  assert (forall l b, compat (rev l) rb -> off_rev (rev bd) (bs_rev (rev l) 1 (length bd)) (Z.of_nat b)
     = ravel l (bproj l (c_ b))) as Hoff.
  { intros l b HC. rewrite Hrbd. unfold bd at 1. rewrite rev_length. rewrite off_rev_ravel by done.
    rewrite rev_involutive. unfold c_, bd. lia. }
  rewrite <-(Z2Nat.id (prodZ bd)), <-(Z2Nat.id m), <-(Z2Nat.id k), <-(Z2Nat.id n) at 1 by lia.
  eapply (batches_rule Hv1 Hv2 Hx1 Hx2 s4 h4 [q2; q1; pp] (a_vals T3) _ _ _ _ _ _ _ _
    (fun b => Z.to_nat (ravel b1 (bproj b1 (c_ b)))) (fun b => Z.to_nat (ravel b2 (bproj b2 (c_ b))))
    (fun b i j y => at_ T1 (bproj b1 (c_ b) ++ [Z.of_nat i; y]))
    (fun b i j y => at_ T2 (bproj b2 (c_ b) ++ [y; Z.of_nat j]))).
  - done.
  - done.
  - rewrite <-(valid_len_nat _ HT3). exact Ht.
  - exact HF4.
  - exact Hl.
  - rewrite Hl. unfold INT64_MAX; unfold INT_MAX in *; nia.
  - lia.
  - lia.
  - lia.
  - lia.
  - nia.
  - lia.
  - lia.
  - intros b s' Hb. pose proof (ravel_bound _ _ (Hcb1 b)). pose proof (ravel_bound _ _ (Hcb2 b)).
    rewrite batch_offset_ok.
    + rewrite !Hoff by done. by rewrite !Z2Nat.id by lia.
    + done.
    + unfold INT64_MAX; unfold INT_MAX in *; lia.
    + done.
    + apply bs_rev_length.
    + apply bs_rev_length.
    + apply bs_rev_nonneg; [lia|done].
    + apply bs_rev_nonneg; [lia|done].
    + rewrite Hoff by done. lia.
    + rewrite Hoff by done. lia.
  - intros b Hb. pose proof (ravel_bound _ _ (Hcb1 b)). pose proof (ravel_bound _ _ (Hcb2 b)).
    rewrite !Z2Nat.id by lia. split.
    + apply (off_bound _ _ (prodZ b1)); [lia|lia|lia|lia].
    + apply (off_bound _ _ (prodZ b2)); [lia|lia|lia|lia].
  - intros b i j y Hb Hi Hj Hy. split.
    + rewrite <-(at_mat_app T1 b1 _ m k i y HvT D1 (Hcb1 b) Hi Hy). f_equal.
      rewrite Z2Nat.inj_mul by lia. lia.
    + rewrite <-(at_mat_app T2 b2 _ k n y j HvT0 D2 (Hcb2 b) Hy Hj). f_equal.
      rewrite Z2Nat.inj_mul by lia. lia.
  - intros b i j Hb Hi Hj.
    pose proof (ravel_unravel bd (Z.of_nat b) Pbd ltac:(lia)) as Hru.
    pose proof (at_mat_app T3 bd _ m n i j HT3 D3 (Hcb b) Hi Hj) as Hat. unfold c_ in Hat at 1.
    rewrite Hru, Nat2Z.id in Hat.
    rewrite Hat, <-inner_psum. apply Hin; [done|lia|lia].
  - intros h' s5 HT HF Hr5. cbv beta. rewrite bool_decide_eq_true_2 by done. cbn [negb].
    eapply (wp_scr_free [] q2 [q1; pp]); [done|exact HT|exact HF|]. intros h6 s6 HT6 HF6 Hr6. cbn [app] in HF6.
    eapply (wp_scr_free [] q1 [pp]); [done|exact HT6|exact HF6|]. intros h7 s7 HT7 HF7 Hr7. cbn [app] in HF7.
    eapply (wp_scr_free [] pp []); [done|exact HT7|exact HF7|]. intros h8 s8 HT8 HF8 Hr8. cbn [app] in HF8.
    apply frame_nil_inv in HF8 as ->. apply wp_ret. left. exists q. split; [done|].
    rewrite <-(at_eta T3), Ht3, Hd3.
    eapply tnew_makes; [done| |eapply tnew_lo; [exact HT8|lia]|congruence].
    rewrite <-Ht3, <-Hd3, at_eta. done.
Qed.
End batched.

Lemma matmul_batch_mismatch p1 p2 T1 T2 o E s b1 b2 m k n :
  wf s -> alloc_all E -> holds (heap s) p1 T1 -> holds (heap s) p2 T2 ->
  dev_type (a_dev T1) = 0 -> dev_type (a_dev T2) = 0 ->
  a_dims T1 = b1 ++ [m; k] -> a_dims T2 = b2 ++ [k; n] -> bcast b1 b2 = None ->
  exists s', aitisa_matmul (HPtr p1) (HPtr p2) o E s = Done (DIMENSIONS_MISMATCH, o) s' /\ keeps s s' /\
    exists b, frame (e_alloc E) [b] (heap s) (heap s').
Proof.
  intros Hwf HAl H1 H2 Hc1 Hc2 D1 D2 HB.
  cut (wp (aitisa_matmul (HPtr p1) (HPtr p2) o) E s
    (fun r s' => r = (DIMENSIONS_MISMATCH, o) /\ keeps s s' /\ exists b, frame (e_alloc E) [b] (heap s) (heap s'))).
  { intros H. apply wp_elim in H as (r & s' & Hm & -> & Hk & HF). eauto. }
  unfold aitisa_matmul.
  open_holds H1 Hv1 Hx1. open_holds H2 Hv2 Hx2.
  pose proof (valid_fits _ HvT) as Hf1. pose proof (fits_len _ _ Hf1) as Hn1.
  pose proof (valid_fits _ HvT0) as Hf2. pose proof (fits_len _ _ Hf2) as Hn2.
  rewrite D1 in *. rewrite D2 in *.
  pose proof (proj2 (craw_None_iff (rev b1) (rev b2))) as Hcraw.
  unfold bcast in HB. destruct (bcast_rev (rev b1) (rev b2)) as [rb|] eqn:HB'; [done|]. clear HB. specialize (Hcraw eq_refl).
  assert (b1 <> [] /\ b2 <> []) as [N1 N2].
  { split; intros ->; [done|]. by destruct (rev b1). }
  assert (0 < Z.of_nat (length b1)) as Hl1 by (destruct b1; cbn in *; [done|lia]).
  assert (0 < Z.of_nat (length b2)) as Hl2 by (destruct b2; cbn in *; [done|lia]).
  assert (Z.of_nat (length (b1 ++ [m; k])) = Z.of_nat (length b1) + 2) as Hnd1 by (rewrite app_length; cbn; lia).
  assert (Z.of_nat (length (b2 ++ [k; n])) = Z.of_nat (length b2) + 2) as Hnd2 by (rewrite app_length; cbn; lia).
  eapply wp_step; [by eapply tensor_device_ok|].
  eapply wp_step; [by eapply tensor_device_ok|].
  unfold not_cpu. rewrite Hc1, Hc2. cbn [DEVICE_CPU negb orb Z.eqb].
  eapply wp_step; [by eapply tensor_ndim_ok|].
  eapply wp_step; [by eapply tensor_ndim_ok|]. 
  rewrite Hnd1, Hnd2 in *.
  replace (Z.of_nat (length b1) + 2 =? 1) with false by lia.
  replace (Z.of_nat (length b2) + 2 =? 1) with false by lia.
  rewrite !andb_false_r. cbn [andb].
  replace ((Z.of_nat (length b1) + 2 =? 2) && (Z.of_nat (length b2) + 2 =? 2)) with false by lia.
  replace ((3 <=? Z.of_nat (length b1) + 2) && (2 <=? Z.of_nat (length b2) + 2)
      || (2 <=? Z.of_nat (length b1) + 2) && (3 <=? Z.of_nat (length b2) + 2)) with true by lia.
  unfold matmul_tt. cbv zeta.
  set (nb := Nat.max (length b1) (length b2)).
  replace (Z.of_nat (length b1) + 2 - 2) with (Z.of_nat (length b1)) by lia.
  replace (Z.of_nat (length b1) + 2 - 1) with (Z.of_nat (length b1 + 1)) by lia.
  replace (Z.of_nat (length b2) + 2 - 2) with (Z.of_nat (length b2)) by lia.
  replace (Z.of_nat (length b2) + 2 - 1) with (Z.of_nat (length b2 + 1)) by lia.
  replace (Z.max (Z.of_nat (length b1) + 2) (Z.of_nat (length b2) + 2)) with (Z.of_nat nb + 2) by lia.
  replace (Z.of_nat nb + 2 - 2) with (Z.of_nat nb) by lia.
  replace (Z.max (Z.of_nat (length b1)) 0) with (Z.of_nat (length b1)) by lia.
  replace (Z.max (Z.of_nat (length b2)) 0) with (Z.of_nat (length b2)) by lia.
  assert (forall (l : list Z) x y, (l ++ [x; y]) !! (length l + 1)%nat = Some y) as Gn.
  { intros l x' y'. rewrite lookup_app_r by lia. by replace (length l + 1 - length l)%nat with 1%nat by lia. }
  eapply wp_step; [eapply tensor_dim_ok; [done|lia|rewrite Nat2Z.id; by rewrite list_lookup_middle]|].
  eapply wp_step; [eapply tensor_dim_ok; [done|lia|rewrite Nat2Z.id; apply Gn]|].
  eapply wp_step; [eapply tensor_dim_ok; [done|lia|rewrite Nat2Z.id; by rewrite list_lookup_middle]|].
  eapply wp_step; [eapply tensor_dim_ok; [done|lia|rewrite Nat2Z.id; apply Gn]|].
  rewrite Z.eqb_refl. cbn [negb].
  pose proof (frame_nil (tag := e_alloc E) (base := heap s)) as HF.
  assert (8 * INT_MAX <= PTRDIFF_MAX) as HIP8 by done.
  eapply wp_scr0; [done|lia|done|exact HF|]. clear HF. intros pp s1 Hwf1 HF1 Hr1 Hct1 Hsub1.
  pose proof (view_mono _ _ _ _ _ _ _ _ Hsub1 Hv1) as Hv11. pose proof (view_mono _ _ _ _ _ _ _ _ Hsub1 Hv2) as Hv21.
  eapply wp_step; [by eapply tensor_dims_ok|].
  eapply wp_step; [by eapply tensor_dims_ok|].
  destruct (broadcast_craw b1 b2 (replicate nb None) E s1) as [out' Hout];
    [rewrite replicate_length; lia|]. rewrite Hcraw, replicate_length in Hout.
  apply (broadcast_prefix _ [m; k] _ _ [k; n] _ _ [None; None]) in Hout.
  eapply wp_step.
  { unfold arr. replace (Z.to_nat (Z.of_nat nb + 2)) with (nb + 2)%nat by lia.
    rewrite replicate_add. exact Hout. }
  cbv beta match. rewrite bool_decide_eq_false_2 by done. cbn [negb].
  apply wp_ret. split; [done|]. split; [|by exists pp]. split_and!; done.
Qed.

Lemma tab_choose t dev dims F :
  fits (tsz t) dims -> (forall c, in_box dims c -> is_Some (F c)) ->
  exists T3, valid T3 /\ a_type T3 = t /\ a_dev T3 = dev /\ a_dims T3 = dims /\
    forall c, in_box dims c -> F c = Some (at_ T3 c).
Proof.
  intros Hf HF. exists (AT t dev dims (tab dims (fun c => default VU (F c)))).
  split_and!; [by apply tab_valid|done..|].
  intros c Hc. rewrite at_tab by done. by destruct (HF c Hc) as [v ->].
Qed.

Lemma inner_defined t k f g :
  t ∈ [I8; U8; I16; U32; U64; F32; F64] ->
  (forall q, 0 <= q < k -> val_ok t (f q) /\ val_ok t (g q)) ->
  exists w, inner t k f g = Some w.
Proof. exact (inner_total t k f g). Qed.

Lemma matmul_mismatch' p1 p2 T1 T2 o E s k1 k2 :
  holds (heap s) p1 T1 -> holds (heap s) p2 T2 ->
  dev_type (a_dev T1) = 0 -> dev_type (a_dev T2) = 0 ->
  (exists b1, a_dims T1 = b1 ++ [k1]) ->
  (a_dims T2 = [k2] \/ exists b2 n, a_dims T2 = b2 ++ [k2; n]) -> k1 <> k2 ->
  refuses (aitisa_matmul (HPtr p1) (HPtr p2) o) E s o DIMENSIONS_MISMATCH.
Proof.
  intros H1 H2 Hc1 Hc2 [b1 D1] D2 Hk. eapply matmul_mismatch; try done.
  - rewrite D1. by destruct b1.
  - destruct D2 as [D2|(b2 & n & D2)]; rewrite D2; [done|]. by destruct b2.
  - rewrite D1. unfold k_of1. rewrite last_snoc. cbn [default].
    destruct D2 as [D2|(b2 & n & D2)]; rewrite D2; [done|].
    assert (k_of2 (b2 ++ [k2; n]) = k2) as ->; [|done].
    unfold k_of2. destruct b2 as [|x [|y b2]]; [done|done|]. cbn [app].
    replace (length (x :: y :: b2 ++ [k2; n]) - 2)%nat with (length (x :: y :: b2) + 0)%nat
      by (cbn [length]; rewrite app_length; cbn; lia).
    change (x :: y :: b2 ++ [k2; n]) with ((x :: y :: b2) ++ [k2; n]).
    by rewrite lookup_app_r, Nat.add_comm, Nat.add_sub by lia.
Qed.
