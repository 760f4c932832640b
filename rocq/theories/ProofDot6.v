(** * ProofDot6: aitisa_dot on operands of rank 2 and above *)
From stdpp Require Import gmap list.
From Coq Require Import ZArith Lia Floats.SpecFloat.
From Coq Require Import ZifyBool ZifyNat.
From Verif Require Import Base Mem Spec ModelCore ModelBasic ModelMath Logic ProofCore ProofCore2 ProofCore3 ProofIndex
  ProofKernel ProofKernel2 ProofBasic ProofSlice ProofFrame ProofMatmul ProofDot ProofDot3 ProofDot4 ProofDot5.
Open Scope Z_scope.

Lemma dot_tv_rule p1 p2 T1 T2 T3 o E s b k :
  wf s -> alloc_all E -> hooks_ok E -> holds (heap s) p1 T1 -> holds (heap s) p2 T2 ->
  a_type T2 = a_type T1 -> dev_type (a_dev T1) = 0 -> dev_type (a_dev T2) = 0 ->
  Forall (fun d => 0 < d <= INT_MAX) (a_dims T1) ->
  valid T3 -> a_type T3 = a_type T1 -> a_dev T3 = a_dev T1 ->
  prodZ (a_dims T3) * Z.of_nat (tsz (a_type T3)) <= INT_MAX ->
  b <> [] -> a_dims T1 = b ++ [k] -> a_dims T2 = [k] -> a_dims T3 = b ->
  (forall c, in_box b c ->
     inner (a_type T1) k (fun q => at_ T1 (c ++ [q])) (fun q => at_ T2 [q]) = Some (at_ T3 c)) ->
  makes (aitisa_dot (HPtr p1) (HPtr p2) o) E s T3.
Proof.
  intros Hwf HA HE H1 H2 Hty Hc1 Hc2 Hp1 HT3 Ht3 Hd3 Hmax Hb D1 D2 D3 Hin.
  unfold makes, makes_k. rewrite (dot_unfold p1 p2 T1 T2) by done. rewrite D1, D2.
  assert (0 < Z.of_nat (length b)) by (destruct b; cbn in *; [done|lia]).
  rewrite app_length. cbn [length].
  replace ((Z.of_nat (length b + 1) =? 1) && (Z.of_nat 1 =? 1)) with false by lia.
  replace ((Z.of_nat (length b + 1) =? 2) && (Z.of_nat 1 =? 2)) with false by lia.
  replace ((Z.of_nat (length b + 1) =? 0) || (Z.of_nat 1 =? 0)) with false by lia.
  change (Z.of_nat 1 =? 1) with true. cbv beta match.
  assert (Forall (fun d => 0 < d <= INT_MAX) (a_dims T2)) as Hp2.
  { rewrite D2. rewrite D1 in Hp1. apply Forall_app in Hp1 as [_ Hp1]. done. }
  rewrite Ht3 in Hmax. assert (1 <= Z.of_nat (tsz (a_type T1))) as Hsz by (destruct (a_type T1); cbn; lia).
  assert (0 <= prodZ (a_dims T3)) as H0 by (apply prodZ_nonneg; apply (valid_fits _ HT3)).
  assert ((prodZ (a_dims T3) - 1) * Z.of_nat (tsz (a_type T1)) <= INT_MAX) as Hm1 by nia.
  assert (prodZ (a_dims T3) <= INT_MAX) as Hm2 by nia.
  exact (dot_tv_core p1 p2 T1 T2 T3 o E s Hwf HA HE H1 H2 Hty Hp1 Hp2 HT3 Ht3 Hd3 b k Hm1 Hm2 D1 D2 D3 Hin).
Qed.

Lemma dot_tt_rule p1 p2 T1 T2 T3 o E s b1 b2 k n :
  wf s -> alloc_all E -> hooks_ok E -> holds (heap s) p1 T1 -> holds (heap s) p2 T2 ->
  a_type T2 = a_type T1 -> dev_type (a_dev T1) = 0 -> dev_type (a_dev T2) = 0 ->
  Forall (fun d => 0 < d <= INT_MAX) (a_dims T1) -> Forall (fun d => 0 < d <= INT_MAX) (a_dims T2) ->
  valid T3 -> a_type T3 = a_type T1 -> a_dev T3 = a_dev T1 ->
  prodZ b1 <= INT_MAX -> prodZ b2 * n <= INT_MAX ->
  (2 <= length b1)%nat -> (1 <= length b2)%nat ->
  a_dims T1 = b1 ++ [k] -> a_dims T2 = b2 ++ [k; n] -> a_dims T3 = b1 ++ b2 ++ [n] ->
  (forall c e j, in_box b1 c -> in_box b2 e -> 0 <= j < n ->
     inner (a_type T1) k (fun q => at_ T1 (c ++ [q])) (fun q => at_ T2 (e ++ [q; j])) = Some (at_ T3 (c ++ e ++ [j]))) ->
  makes (aitisa_dot (HPtr p1) (HPtr p2) o) E s T3.
Proof.
  intros Hwf HA HE H1 H2 Hty Hc1 Hc2 Hp1 Hp2 HT3 Ht3 Hd3 Hm1 Hm2 Hl1 Hl2 D1 D2 D3 Hin.
  unfold makes, makes_k. rewrite (dot_unfold p1 p2 T1 T2) by done. rewrite D1, D2, !app_length. cbn [length].
  replace ((Z.of_nat (length b1 + 1) =? 1) && (Z.of_nat (length b2 + 2) =? 1)) with false by lia.
  replace ((Z.of_nat (length b1 + 1) =? 2) && (Z.of_nat (length b2 + 2) =? 2)) with false by lia.
  replace ((Z.of_nat (length b1 + 1) =? 0) || (Z.of_nat (length b2 + 2) =? 0)) with false by lia.
  replace (Z.of_nat (length b2 + 2) =? 1) with false by lia.
  replace ((2 <? Z.of_nat (length b1 + 1)) && (2 <? Z.of_nat (length b2 + 2))) with true by lia.
  exact (dot_tt_core p1 p2 T1 T2 T3 o E s Hwf HA HE H1 H2 Hty Hp1 Hp2 HT3 Ht3 Hd3 b1 b2 k n Hm1 Hm2 D1 D2 D3 Hin).
Qed.

(** Contracted extents that differ *)
Lemma dot_tv_mismatch p1 p2 T1 T2 o E s b k1 k2 :
  holds (heap s) p1 T1 -> holds (heap s) p2 T2 ->
  a_type T2 = a_type T1 -> dev_type (a_dev T1) = 0 -> dev_type (a_dev T2) = 0 ->
  b <> [] -> a_dims T1 = b ++ [k1] -> a_dims T2 = [k2] -> k1 <> k2 ->
  refuses (aitisa_dot (HPtr p1) (HPtr p2) o) E s o INVALID_ARGUMENT.
Proof.
  intros H1 H2 Hty Hc1 Hc2 Hb D1 D2 Hk.
  unfold refuses. rewrite (dot_unfold p1 p2 T1 T2) by done. rewrite D1, D2.
  assert (0 < Z.of_nat (length b)) by (destruct b; cbn in *; [done|lia]).
  rewrite app_length. cbn [length].
  replace ((Z.of_nat (length b + 1) =? 1) && (Z.of_nat 1 =? 1)) with false by lia.
  replace ((Z.of_nat (length b + 1) =? 2) && (Z.of_nat 1 =? 2)) with false by lia.
  replace ((Z.of_nat (length b + 1) =? 0) || (Z.of_nat 1 =? 0)) with false by lia.
  change (Z.of_nat 1 =? 1) with true. cbv beta match.
  open_holds H1 Hv1 Hx1. open_holds H2 Hv2 Hx2. rewrite D1 in Hv1. rewrite D2 in Hv2.
  unfold tensor_vector_dot.
  erewrite bind_done by (by eapply tensor_ndim_ok).
  erewrite bind_done by (by eapply tensor_dims_ok).
  erewrite bind_done by (by eapply tensor_dims_ok).
  erewrite bind_done.
  2:{ rewrite app_length. cbn [length]. replace (Z.of_nat (length b + 1) - 1) with (Z.of_nat (length b)) by lia.
      apply aget_nat. by rewrite list_lookup_middle. }
  erewrite bind_done by (by apply (aget_nat [k2] 0 k2)).
  replace (k1 =? k2) with false by lia. done.
Qed.
Lemma dot_tt_mismatch p1 p2 T1 T2 o E s b1 b2 k1 k2 n :
  holds (heap s) p1 T1 -> holds (heap s) p2 T2 ->
  a_type T2 = a_type T1 -> dev_type (a_dev T1) = 0 -> dev_type (a_dev T2) = 0 ->
  (2 <= length b1)%nat -> (1 <= length b2)%nat ->
  a_dims T1 = b1 ++ [k1] -> a_dims T2 = b2 ++ [k2; n] -> k1 <> k2 ->
  refuses (aitisa_dot (HPtr p1) (HPtr p2) o) E s o INVALID_ARGUMENT.
Proof.
  intros H1 H2 Hty Hc1 Hc2 Hl1 Hl2 D1 D2 Hk.
  unfold refuses. rewrite (dot_unfold p1 p2 T1 T2) by done. rewrite D1, D2, !app_length. cbn [length].
  replace ((Z.of_nat (length b1 + 1) =? 1) && (Z.of_nat (length b2 + 2) =? 1)) with false by lia.
  replace ((Z.of_nat (length b1 + 1) =? 2) && (Z.of_nat (length b2 + 2) =? 2)) with false by lia.
  replace ((Z.of_nat (length b1 + 1) =? 0) || (Z.of_nat (length b2 + 2) =? 0)) with false by lia.
  replace (Z.of_nat (length b2 + 2) =? 1) with false by lia.
  replace ((2 <? Z.of_nat (length b1 + 1)) && (2 <? Z.of_nat (length b2 + 2))) with true by lia.
  open_holds H1 Hv1 Hx1. open_holds H2 Hv2 Hx2. rewrite D1 in Hv1. rewrite D2 in Hv2.
  unfold multidim_dot.
  erewrite bind_done by (by eapply tensor_ndim_ok).
  erewrite bind_done by (by eapply tensor_ndim_ok).
  erewrite bind_done by (by eapply tensor_dims_ok).
  erewrite bind_done by (by eapply tensor_dims_ok).
  erewrite bind_done.
  2:{ rewrite app_length. cbn [length]. replace (Z.of_nat (length b1 + 1) - 1) with (Z.of_nat (length b1)) by lia.
      apply aget_nat. by rewrite list_lookup_middle. }
  erewrite bind_done.
  2:{ rewrite app_length. cbn [length]. replace (Z.of_nat (length b2 + 2) - 2) with (Z.of_nat (length b2)) by lia.
      apply aget_nat. by rewrite list_lookup_middle. }
  replace (k1 =? k2) with false by lia. done.
Qed.
