(** * ProofDot5: aitisa_dot of two tensors of rank 3 and above *)
From stdpp Require Import gmap list.
From Coq Require Import ZArith Lia Floats.SpecFloat.
From Coq Require Import ZifyBool ZifyNat.
From Verif Require Import Base Mem Spec ModelCore ModelBasic ModelMath Logic ProofCore ProofCore2 ProofCore3 ProofIndex
  ProofKernel ProofKernel2 ProofBasic ProofSlice ProofFrame ProofMatmul ProofMatmul2 ProofMatmul3 ProofDot ProofDot3 ProofDot4.
Open Scope Z_scope.
Ltac Zify.zify_post_hook ::= Z.div_mod_to_equations.

(** ** Filling an array from the left *)
Definition filled (N : nat) (l : list Z) : list (option Z) := (Some <$> l) ++ replicate (N - length l) None.
Lemma filled_length N l : (length l <= N)%nat -> length (filled N l) = N.
Proof. intros H. unfold filled. rewrite app_length, fmap_length, replicate_length. lia. Qed.
Lemma filled_set N l x : (length l < N)%nat -> <[length l := Some x]> (filled N l) = filled N (l ++ [x]).
Proof.
  intros H. unfold filled. rewrite fmap_app, app_length. cbn [length fmap list_fmap].
  replace (N - length l)%nat with (S (N - (length l + 1))) by lia. cbn [replicate].
  rewrite insert_app_r_alt by (rewrite fmap_length; lia). rewrite fmap_length, Nat.sub_diag. cbn.
  by rewrite <-app_assoc.
Qed.
Lemma filled_full l : filled (length l) l = Some <$> l.
Proof. unfold filled. rewrite Nat.sub_diag. apply app_nil_r. Qed.

(** ** A tensor put aside below the one being filled *)
Section push.
Context {E : env} {tag lo : nat} {base : gmap nat block} {p pd pm ps px : nat}
  {dt : dtype} {dev : device} {dims : list Z} {bytes bytes' : list mv}.

Lemma tnew_push s0 s1 q V : tnew tag lo base s0 p pd pm ps px dt dev dims bytes -> created E s0 s1 q V ->
  exists n, owns (e_alloc E) q V n /\ n ##ₘ base /\
    tnew tag lo (n ∪ base) s1 p pd pm ps px dt dev dims bytes.
Proof using Type.
  intros (Hnd & Hh & Hdj & Hlo & Hb) (HV & n & Ho & Hh1 & Hd1 & Hn & Hc & _).
  rewrite Hh in Hh1, Hd1. apply map_disjoint_union_r in Hd1 as [Hd1 Hd2].
  exists n. split; [done|]. split; [done|]. split_and!.
  - done.
  - rewrite Hh1, !map_union_assoc. f_equal. by apply map_union_comm.
  - apply map_disjoint_union_r. done.
  - intros b Hb'. specialize (Hlo b Hb'). lia.
  - intros b [x Hx]. apply lookup_union_Some_raw in Hx as [Hx|[_ Hx]].
    + apply Hn; eauto.
    + enough (b < ctr s0)%nat by lia. apply Hb; eauto.
Qed.

Lemma tnew_pop s q V n : hooks_ok E -> owns (e_alloc E) q V n -> n ##ₘ base ->
  tnew tag lo (n ∪ base) s p pd pm ps px dt dev dims bytes ->
  exists s', aitisa_destroy (HPtr q) E s = Done (SUCCESS, HNull) s' /\
    tnew tag lo base s' p pd pm ps px dt dev dims bytes /\ rpos s' = rpos s.
Proof using Type.
  intros HE Ho Hdj (Hnd & Hh & Hd & Hlo & Hb). apply map_disjoint_union_r in Hd as [Hd1 Hd2].
  set (new := tensor_map tag p pd pm ps px dt dev dims bytes) in *.
  eexists. split.
  - eapply destroy_owned; [exact Ho| | |by symmetry].
    + rewrite Hh. rewrite (map_union_assoc n new base), (map_union_comm n new) by done. by rewrite <-map_union_assoc.
    + apply map_disjoint_union_r. done.
  - split; [|done]. split_and!; [done|done|done|done|].
    intros b [x Hx]. cbn. apply Hb. rewrite lookup_union_r by (by eapply map_disjoint_Some_r). eauto.
Qed.
End push.

Lemma unravel_periodic dims P : Forall (fun d => 0 < d) dims -> P = prodZ dims -> unravel dims P = unravel dims 0.
Proof.
  intros H ->. rewrite <-(unravel_add dims 0 1 H). f_equal. lia.
Qed.

Lemma pair_index v1 v2 N1 N2 M : 0 <= v1 < N1 -> 0 <= v2 < N2 -> N1 * N2 <= M -> 0 <= v1 * N2 + v2 < M.
Proof. nia. Qed.
Lemma scale_le k sz P M : 1 <= sz -> 0 <= k < P -> sz * P <= M -> 0 <= k * sz <= M.
Proof. nia. Qed.
Lemma pair_index_nat v1 v2 N1 N2 : (v1 < N1)%nat -> (v2 < N2)%nat -> (v1 * N2 + v2 < N1 * N2)%nat.
Proof. nia. Qed.
Lemma quot_mul_l a b c : b <> 0 -> Z.quot (a * (b * (c * 1))) b = a * c.
Proof. intros H. replace (a * (b * (c * 1))) with (a * c * b) by lia. by apply Z.quot_mul. Qed.

Section dot.
Context (p1 p2 : nat) (T1 T2 T3 : atensor) (o : hval) (E : env) (s : st).
Context (Hwf : wf s) (HAl : alloc_all E) (HHk : hooks_ok E)
  (H1 : holds (heap s) p1 T1) (H2 : holds (heap s) p2 T2)
  (Hty : a_type T2 = a_type T1)
  (Hp1 : Forall (fun d => 0 < d <= INT_MAX) (a_dims T1)) (Hp2 : Forall (fun d => 0 < d <= INT_MAX) (a_dims T2))
  (HT3 : valid T3) (Ht3 : a_type T3 = a_type T1) (Hd3 : a_dev T3 = a_dev T1).
Let t := a_type T1.

Lemma dot_tt_core b1 b2 k n :
  prodZ b1 <= INT_MAX -> prodZ b2 * n <= INT_MAX ->
  a_dims T1 = b1 ++ [k] -> a_dims T2 = b2 ++ [k; n] -> a_dims T3 = b1 ++ b2 ++ [n] ->
  (forall c e j, in_box b1 c -> in_box b2 e -> 0 <= j < n ->
     inner t k (fun q => at_ T1 (c ++ [q])) (fun q => at_ T2 (e ++ [q; j])) = Some (at_ T3 (c ++ e ++ [j]))) ->
  makes (multidim_dot (HPtr p1) (HPtr p2) o) E s T3.
Proof using All.
  intros Hm1 Hm2 D1 D2 D3 Hin. apply (makes_or_nomem_alloc _ _ _ o); [done|]. apply Qmakes_elim.
  unfold multidim_dot.
  open_holds H1 Hv1 Hx1. open_holds H2 Hv2 Hx2. rewrite Hty in *.
  pose proof (valid_fits _ HvT) as Hf1. pose proof (fits_len _ _ Hf1) as Hn1.
  pose proof (valid_fits _ HvT0) as Hf2. rewrite Hty in Hf2. pose proof (fits_len _ _ Hf2) as Hn2.
  pose proof (valid_fits _ HT3) as Hf3. rewrite Ht3 in Hf3. pose proof (fits_len _ _ Hf3) as Hn3.
  pose proof (fits_bytes _ _ Hf3) as Hby3. pose proof (fits_bytes _ _ Hf2) as Hby2.
  pose proof Hp1 as Hp. rewrite D1 in Hp. apply Forall_app in Hp as [Hpb1 Hk]. apply Forall_cons in Hk as [Hk _].
  pose proof Hp2 as Hp. rewrite D2 in Hp. apply Forall_app in Hp as [Hpb2 Hn]. apply Forall_cons in Hn as [_ Hn].
  apply Forall_cons in Hn as [Hn _].
  pose proof (pos_of _ Hpb1) as Hpb1'. pose proof (prodZ_pos _ Hpb1') as Hpp1.
  pose proof (pos_of _ Hpb2) as Hpb2'. pose proof (prodZ_pos _ Hpb2') as Hpp2.
  rewrite D1 in Hv1, Hf1, Hn1. rewrite D2 in Hv2, Hf2, Hn2, Hby2.
  set (B2 := b2 ++ [n]) in *.
  assert (Forall (fun d => 0 < d) B2) as HB2 by (apply Forall_app; split; [done|repeat constructor; lia]).
  assert (prodZ B2 = prodZ b2 * n) as HpB2 by (subst B2; by rewrite prodZ_snoc).
  assert (Z.of_nat (length (b1 ++ [k])) = Z.of_nat (length b1) + 1) as Hnd1 by (rewrite app_length; cbn; lia).
  assert (Z.of_nat (length (b2 ++ [k; n])) = Z.of_nat (length b2) + 2) as Hnd2 by (rewrite app_length; cbn; lia).
  assert (length (b1 ++ B2) = length b1 + length b2 + 1)%nat as Hnd3 by (subst B2; rewrite !app_length; cbn; lia).
  rewrite D3 in Hn3.
  eapply wp_step; [by eapply tensor_ndim_ok|].
  eapply wp_step; [by eapply tensor_ndim_ok|].
  eapply wp_step; [by eapply tensor_dims_ok|].
  eapply wp_step; [by eapply tensor_dims_ok|].
  replace (Z.of_nat (length (b1 ++ [k])) - 1) with (Z.of_nat (length b1)) by lia.
  replace (Z.of_nat (length (b2 ++ [k; n])) - 2) with (Z.of_nat (length b2)) by lia.
  eapply wp_step; [apply aget_nat; by rewrite list_lookup_middle|].
  eapply wp_step; [apply aget_nat; by rewrite list_lookup_middle|]. rewrite Z.eqb_refl. cbn [negb]. cbv zeta.
  replace (Z.of_nat (length (b1 ++ [k])) + Z.of_nat (length (b2 ++ [k; n])) - 2)
    with (Z.of_nat (length (b1 ++ B2))) by lia.
  pose proof (frame_nil (tag := e_alloc E) (base := heap s)) as HF.
  assert (INT_MAX <= PTRDIFF_MAX) as HIP by done. assert (8 * INT_MAX <= PTRDIFF_MAX) as HIP8 by done.
  eapply wp_scr0; [done|lia|done|exact HF|]. clear HF. intros pp s1 Hwf1 HF1 Hr1 Hct1 Hsub1.
  cbn [is_null]. set (N := length (b1 ++ B2)) in *.
  apply wp_bind. eapply wp_intro.
  { eapply (for64_pure (fun i => filled N (take i b1)) E 0 _ (length b1)); [|lia|].
    { unfold filled. cbn. by rewrite Nat2Z.id, Nat.sub_0_r. }
    intros i Hi. destruct (lookup_lt_is_Some_2 b1 i) as [d Hd]; [lia|].
    erewrite bind_done by (rewrite Z.add_0_l; apply aget_nat; by apply lookup_app_l_Some).
    rewrite Z.add_0_l. erewrite aset_nat by (rewrite filled_length; rewrite ?take_length; lia).
    rewrite (take_S_r _ _ _ Hd), <-filled_set by (rewrite take_length; lia).
    rewrite take_length. do 3 f_equal. lia. }
  rewrite take_ge by lia.
  apply wp_bind. eapply wp_intro.
  { eapply (for64_pure (fun i => filled N (b1 ++ take i b2 ++ (if decide (length b2 + 2 <= i)%nat then [n] else [])))
      E 0 _ (length b2 + 2)).
    { rewrite decide_False by lia. by rewrite take_0, !app_nil_r. }
    { lia. }
    intros i Hi. rewrite Z.add_0_l.
    destruct (decide (i < length b2)%nat).
    - replace (Z.of_nat i <? Z.of_nat (length b2)) with true by lia.
      destruct (lookup_lt_is_Some_2 b2 i) as [d Hd]; [lia|].
      erewrite bind_done by (apply aget_nat; by apply lookup_app_l_Some).
      rewrite !decide_False by lia. rewrite !app_nil_r.
      erewrite aset_Z by (rewrite filled_length; rewrite ?app_length, ?take_length; cbn [length]; lia).
      rewrite (take_S_r _ _ _ Hd), app_assoc, <-filled_set by (rewrite app_length, take_length; lia).
      rewrite !app_length, take_length. cbn [length]. do 3 f_equal. lia.
    - replace (Z.of_nat i <? Z.of_nat (length b2)) with false by lia.
      rewrite (take_ge b2 i), (take_ge b2 (S i)) by lia.
      destruct (decide (i = length b2)) as [->|Hne].
      + replace (Z.of_nat (length b2) <? Z.of_nat (length b2)) with false by lia.
        rewrite !decide_False by lia. done.
      + assert (i = length b2 + 1)%nat as -> by lia.
        replace (Z.of_nat (length b2) <? Z.of_nat (length b2 + 1)) with true by lia.
        erewrite bind_done.
        2:{ apply aget_nat. rewrite lookup_app_r by lia. by replace (length b2 + 1 - length b2)%nat with 1%nat by lia. }
        rewrite decide_False, decide_True by lia. rewrite !app_nil_r.
        erewrite aset_Z by (rewrite filled_length; rewrite ?app_length; cbn [length]; lia).
        rewrite (app_assoc b1), <-filled_set by (rewrite app_length; lia).
        rewrite !app_length. cbn [length]. do 3 f_equal. lia. }
  rewrite decide_True, take_ge by lia. fold B2. subst N. rewrite filled_full.
  eapply wp_step; [apply force_array_ok|].
  pose proof (view_mono _ _ _ _ _ _ _ _ Hsub1 Hv1) as Hv1'.
  eapply wp_step; [by eapply tensor_dtype_ok|].
  eapply wp_step; [by eapply tensor_device_ok|].
  apply wp_bind. eapply create_t_rule; [done| | |].
  { rewrite <-D3. exact Hf3. }
  2:{ intros s' Hn'. done. }
  intros s2 q pd pm ps px Ht Hr2. cbv beta match. rewrite bool_decide_eq_true_2 by done. cbn [negb].
  eapply (wp_scr_free [] pp []); [done|exact Ht|exact HF1|]. intros h3 s3 HT3' HF3 Hr3. cbn [app] in HF3.
  eapply wp_scr; [done| |exact HT3'|exact HF3|]; [lia|]. intros q1 h4 s4 HT4 HF4 Hr4 _.
  eapply wp_scr; [done| |exact HT4|exact HF4|]; [lia|]. intros q2 h5 s5 HT5 HF5 Hr5 _.
  eapply wp_scr; [done| |exact HT5|exact HF5|]; [lia|]. intros q3 h6 s6 HT6 HF6 Hr6 _.
  clear HT3' HF3 HT4 HF4 HT5 HF5 HF1 Ht.
  eapply wp_scr; [done| |exact HT6|exact HF6|]; [lia|]. intros q4 h7 s7 HT7 HF7 Hr7 _.
  eapply wp_scr; [done| |exact HT7|exact HF7|]; [lia|]. intros q5 h8 s8 HT8 HF8 Hr8 _.
  eapply wp_scr; [done| |exact HT8|exact HF8|]; [lia|]. intros q6 h9 s9 HT9 HF9 Hr9 _.
  clear HT6 HF6 HT7 HF7 HT8 HF8.
  cbn [is_null orb]. rewrite !Nat2Z.id.
  eapply wp_step; [apply aset_nat; rewrite replicate_length, app_length; cbn; lia|].
  rewrite line_size_set by (apply to_int_id; llia).
  eapply wp_step; [apply aset_nat; rewrite replicate_length, app_length; cbn; lia|].
  rewrite line_size_set by (apply to_int_id; llia).
  eapply wp_step.
  { apply size_to_dim_ok.
    - eapply fits_prefixes; [|exact Hf1]. destruct (a_type T1); cbn; lia.
    - rewrite app_length. lia.
    - lia. }
  rewrite take_app.
  eapply wp_step.
  { apply size_of_dims_ok; [|done|lia]. eapply fits_prefixes; [|exact Hf2]. destruct (a_type T1); cbn; lia. }
  rewrite prodZ_app, !prodZ_cons, prodZ_nil.
  eapply wp_step.
  { apply div64_ok; [lia|]. rewrite quot_mul_l by lia. split; [|unfold INT64_MAX; unfold INT_MAX in *; lia].
    unfold INT64_MIN. enough (0 <= prodZ b2 * n) by lia. apply Z.mul_nonneg_nonneg; lia. }
  rewrite quot_mul_l by lia. rewrite <-HpB2 in *.
  eapply wp_step; [by eapply tensor_data_ok, tnew_view|].
  eapply wp_step; [by eapply tensor_dtype_ok, tnew_view|].
  cbn [dtype_of d_size].
  pose proof (valid_len_nat _ HT3) as Hlen. rewrite D3, prodZ_app in Hlen. fold B2 in Hlen.
  rewrite D3, prodZ_app in Hby3. fold B2 in Hby3.
  pose proof (prodZ_pos _ HB2) as HppB2.
  set (ws := a_vals T3) in *.
  set (n1 := Z.to_nat (prodZ b1)) in *. set (n2 := Z.to_nat (prodZ B2)) in *.
  assert (length ws = n1 * n2)%nat as Hlen' by (rewrite <-Hlen; subst n1 n2; by rewrite Z2Nat.inj_mul by lia).
  assert (1 <= Z.of_nat (tsz t) <= 8) as Hsz by (subst t; destruct (a_type T1); cbn; lia).
  set (TN := fun base s' vs => tnew (e_alloc E) (ctr s1) base s' q pd pm ps px (dtype_of t) (a_dev T1) (b1 ++ B2) (cells t vs)).
  pose proof (frame_sub _ _ HF9) as HsubF.
  apply wp_bind. eapply wp_mono.
  { eapply (iter_ret_rule (fun v1 idx s' => idx = (unravel b1 (Z.of_nat v1) ++ [0], hole (unravel B2 0)) /\
      TN h9 s' (prog VU ws (v1 * n2)) /\ rpos s' = rpos s)).
    - split_and!.
      + rewrite !unravel_0 by done. subst B2. rewrite !app_length, !replicate_add. cbn [length replicate].
        by rewrite hole_snoc.
      + rewrite Nat.mul_0_l, prog_0, <-Hlen, <-prodZ_app. exact HT9.
      + congruence.
    - intros v1 idx s' Hv (-> & HT & Hr). rewrite Z.add_0_l.
      pose proof (unravel_in_box b1 (Z.of_nat v1) Hpb1') as Hbox1.
      pose proof (tnew_base _ _ HT) as Hsub'. pose proof (tnew_wf _ _ HT) as Hwf'.
      assert (holds (heap s') p1 T1) as H1' by (eapply holds_mono; [|exact H1]; by etrans).
      destruct (line_rule p1 T1 b1 k [] (unravel b1 (Z.of_nat v1)) [] HUndef E s' Hwf' HAl HHk H1' D1 Hp1 Hbox1
        ltac:(by constructor)) as (s10 & vec & Hrun & HV).
      eapply wp_step; [exact Hrun|]. cbv beta match. rewrite bool_decide_eq_true_2 by done. cbn [negb].
      set (L1 := line T1 b1 k [] (unravel b1 (Z.of_nat v1)) []) in *.
      pose proof (proj1 HV) as HvL1.
      destruct (tnew_push _ _ _ _ HT HV) as (nV & HoV & HdV & HTV).
      assert (rpos s10 = rpos s) as Hr10.
      { destruct HV as (_ & ? & _ & _ & _ & _ & _ & Hr10). lia. }
      apply wp_bind. eapply wp_mono.
      { eapply (iter_ret_rule (fun v2 idx s' => idx = hole (unravel B2 (Z.of_nat v2)) /\
          TN (nV ∪ h9) s' (prog VU ws (v1 * n2 + v2)) /\ rpos s' = rpos s)).
        - split_and!; [done| |done]. rewrite Nat.add_0_r. exact HTV.
        - clear dependent s'. clear dependent s10. intros v2 idx s' Hv2' (-> & HT & Hr). rewrite Z.add_0_l.
          pose proof (tnew_base _ _ HT) as Hsub'. pose proof (tnew_wf _ _ HT) as Hwf'.
          assert (h9 ⊆ nV ∪ h9) as HsubV by (by apply map_union_subseteq_r).
          assert (holds (heap s') p2 T2) as H2'.
          { eapply holds_mono; [|exact H2]. etrans; [exact HsubF|]. by etrans. }
          assert (holds (heap s') vec L1) as HL1.
          { eapply owns_holds; [|exact HoV|]. 2:{ etrans; [apply map_union_subseteq_l|exact Hsub']. }
            done. }
          assert (v1 * n2 + v2 < length ws)%nat as Hvl by (rewrite Hlen'; by apply pair_index_nat).
          assert (unravel B2 (Z.of_nat v2) = unravel b2 (Z.of_nat v2 / n) ++ [Z.of_nat v2 mod n]) as Hu2
            by (subst B2; by rewrite unravel_snoc by (done || lia)).
          set (e := unravel b2 (Z.of_nat v2 / n)) in *. set (j := Z.of_nat v2 mod n) in *.
          pose proof (unravel_in_box b2 (Z.of_nat v2 / n) Hpb2') as Hboxe. fold e in Hboxe.
          assert (0 <= j < n) as Hj by (subst j; apply Z.mod_pos_bound; lia).
          rewrite Hu2, hole_snoc.
          destruct (line_rule p2 T2 b2 k [n] e [j] HUndef E s' Hwf' HAl HHk H2' D2 Hp2 Hboxe
            ltac:(by apply in_box_1)) as (s11 & vec2 & Hrun2 & HW).
          eapply wp_step; [exact Hrun2|]. cbv beta match. rewrite bool_decide_eq_true_2 by done. cbn [negb].
          set (L2 := line T2 b2 k [n] e [j]) in *.
          pose proof (created_holds _ _ _ _ _ _ HW) as HhW.
          pose proof (holds_mono _ _ _ _ (created_sub _ _ _ _ _ _ HW) HL1) as HL1'.
          assert (inner t k (fun q => at_ L1 [q]) (fun q => at_ L2 [q])
              = Some (at_ T3 (unravel b1 (Z.of_nat v1) ++ e ++ [j]))) as Hinv.
          { rewrite <-Hin by done. apply inner_ext. intros y Hy. split.
            - apply line_at; [done|done|by constructor|done].
            - apply line_at; [done|done|by apply in_box_1|done]. }
          pose proof (vv_dot_rule vec vec2 L1 L2 _ k HUndef E s11
            (created_wf _ _ _ _ _ _ Hwf' HW) HL1' HhW Hty eq_refl eq_refl ltac:(lia) Hinv) as Hvv.
          apply makes_or_nomem_alloc in Hvv as (s12 & res & Hrun3 & HR); [|done].
          eapply wp_step; [exact Hrun3|]. cbv beta match. rewrite bool_decide_eq_true_2 by done. cbn [negb].
          destruct (store_result HHk _ _ _ _ _ _ _ _ _ (v1 * n2 + v2) HT ltac:(rewrite prog_length; lia) HW HR)
            as (rx & s13 & s14 & s15 & Hd & Hm & Hde & Hde2 & HT' & Hr').
          eapply wp_step; [exact Hd|].
          pose proof (pair_index (Z.of_nat v1) (Z.of_nat v2) (prodZ b1) (prodZ B2) _ ltac:(lia) ltac:(lia) ltac:(reflexivity)) as Hpi.
          pose proof (scale_le _ (Z.of_nat (tsz t)) _ _ ltac:(lia) Hpi (proj2 Hby3)) as Hsc.
          eapply wp_step; [apply ck64_ok; unfold INT64_MIN; clear -Hpi Hby3 Hsz; subst t; nia|].
          eapply wp_step; [apply ck64_ok; unfold INT64_MIN; subst t; lia|].
          replace (Z.of_nat v1 * prodZ B2 + Z.of_nat v2) with (Z.of_nat (v1 * n2 + v2)) by lia.
          eapply wp_step; [exact Hm|].
          eapply wp_step.
          { rewrite <-hole_snoc, <-Hu2. by apply advance_hole. }
          eapply wp_step; [exact Hde|].
          eapply wp_step; [exact Hde2|].
          eapply wp_step; [apply check_ok; lia|].
          apply wp_ret. eexists. split; [done|]. split_and!.
          + fold B2. do 2 f_equal. lia.
          + rewrite prog_step in HT'; [rewrite Nat.add_succ_r; exact HT'|].
            pose proof (at_lookup T3 (v1 * n2 + v2) HT3 Hvl) as Hat. rewrite D3 in Hat. fold B2 in Hat.
            rewrite unravel_app in Hat by done.
            replace (Z.of_nat (v1 * n2 + v2)) with (Z.of_nat v1 * prodZ B2 + Z.of_nat v2) in Hat by lia.
            rewrite unravel_add in Hat by done.
            rewrite Z.div_add_l, Z.div_small, Z.add_0_r, Hu2 in Hat by lia. rewrite Hat.
            destruct (lookup_lt_is_Some_2 ws _ Hvl) as [w Hw]. fold ws. by rewrite Hw.
          + congruence. }
      intros c s11 (idx2 & -> & -> & HT11 & Hr11). cbv beta match.
      eapply wp_step.
      { replace (length (b1 ++ [k]) - 1)%nat with (length b1) by (rewrite app_length; cbn; lia).
        by apply advance_prefix. }
      destruct (tnew_pop _ _ _ _ HHk HoV HdV HT11) as (s12 & Hde & HT12 & Hr12).
      eapply wp_step; [exact Hde|].
      eapply wp_step; [apply check_ok; lia|].
      apply wp_ret. eexists. split; [done|]. split_and!.
      + f_equal; [f_equal; f_equal; lia|]. f_equal. apply unravel_periodic; [done|lia].
      + replace (S v1 * n2)%nat with (v1 * n2 + n2)%nat by lia. exact HT12.
      + congruence. }
  intros c s10 (idx & -> & _ & HT10 & Hr10). cbv beta match.
  rewrite prog_full in HT10 by lia. clear HT9.
  eapply (wp_scr_free [q6; q5; q4; q3; q2] q1 []); [done|exact HT10|exact HF9|]. intros h11 s11 HT11 HF11 Hr11. cbn [app] in HF11.
  clear HT10 HF9.
  eapply (wp_scr_free [q6; q5; q4] q3 [q2]); [done|exact HT11|exact HF11|]. intros h12 s12 HT12 HF12 Hr12. cbn [app] in HF12.
  clear HT11 HF11.
  eapply (wp_scr_free [q6] q5 [q4; q2]); [done|exact HT12|exact HF12|]. intros h13 s13 HT13 HF13 Hr13. cbn [app] in HF13.
  clear HT12 HF12.
  eapply (wp_scr_free [q6; q4] q2 []); [done|exact HT13|exact HF13|]. intros h14 s14 HT14 HF14 Hr14. cbn [app] in HF14.
  clear HT13 HF13.
  eapply (wp_scr_free [q6] q4 []); [done|exact HT14|exact HF14|]. intros h15 s15 HT15 HF15 Hr15. cbn [app] in HF15.
  eapply (wp_scr_free [] q6 []); [done|exact HT15|exact HF15|]. intros h16 s16 HT16 HF16 Hr16. cbn [app] in HF16.
  apply frame_nil_inv in HF16 as ->. apply wp_ret. left. exists q. split; [done|].
  rewrite <-(at_eta T3), Ht3, Hd3, D3.
  eapply tnew_makes; [done| |eapply tnew_lo; [exact HT16|lia]|congruence].
  rewrite <-Ht3, <-Hd3. fold B2. rewrite <-D3. subst ws. rewrite at_eta. done.
Qed.
End dot.
