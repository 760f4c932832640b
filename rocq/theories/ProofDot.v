(** * ProofDot: inner products of vectors and scaling by a scalar *)
From stdpp Require Import gmap list.
From Coq Require Import ZArith Lia Floats.SpecFloat.
From Coq Require Import ZifyBool ZifyNat.
From Verif Require Import Base Mem Spec ModelCore ModelBasic ModelMath Logic ProofCore ProofCore2 ProofCore3 ProofIndex
  ProofKernel ProofKernel2 ProofBasic ProofMath ProofSlice ProofFrame ProofMatmul ProofMatmul2 ProofMatmul3.
Open Scope Z_scope.
Ltac Zify.zify_post_hook ::= Z.div_mod_to_equations.

(** ** Destroying an older tensor *)
Lemma destroy_older E s s1 s2 p T q U :
  hooks_ok E -> created E s s1 p T -> created E s1 s2 q U ->
  exists s3, aitisa_destroy (HPtr p) E s2 = Done (SUCCESS, HNull) s3 /\ created E s s3 q U /\ ctr s3 = ctr s2.
Proof.
  intros HE (HT & n1 & Ho1 & Hh1 & Hd1 & Hb1 & Hc1 & Hr1) (HU & n2 & Ho2 & Hh2 & Hd2 & Hb2 & Hc2 & Hr2).
  rewrite Hh1 in Hd2. apply map_disjoint_union_r in Hd2 as [Hd21 Hd2s].
  eexists. split.
  - eapply (destroy_created E (St (n2 ∪ heap s) (ctr s) (rpos s2)) s2 p T 0); [done|].
    split; [done|]. exists n1. cbn. split_and!; [done| | | |lia|lia].
    + rewrite Hh2, Hh1, !(assoc_L (∪)). f_equal. by apply map_union_comm.
    + apply map_disjoint_union_r. by split.
    + intros b Hb. specialize (Hb1 b Hb). lia.
  - cbn. split; [|done]. split; [done|]. exists n2. cbn. split_and!; [done|done|done| |lia|lia].
    intros b Hb. specialize (Hb2 b Hb). lia.
Qed.

Lemma created_upd E s s' p T b x y k :
  created_k E s s' p T k -> heap s !! b = Some y -> created_k E (upd s b x) (upd s' b x) p T k.
Proof.
  intros (HT & n & Ho & Hh & Hd & Hb & Hc & Hr) Hy. split; [done|]. exists n. cbn.
  assert (n !! b = None) as Hn by (by eapply map_disjoint_Some_r).
  split_and!; [done| | |done|done|done].
  - rewrite Hh. by apply insert_union_r.
  - by apply map_disjoint_insert_r.
Qed.

(** ** memcpy of one element *)
Lemma memcpy_elem d src E s tg tg' t vs ex w ex' (i : nat) off n :
  heap s !! src = Some (Blk tg' (CData (cells t [w] ++ ex'))) ->
  heap s !! d = Some (Blk tg (CData (cells t vs ++ ex))) ->
  (i < length vs)%nat -> off = Z.of_nat i * Z.of_nat (tsz t) -> n = Z.of_nat (tsz t) ->
  memcpy (HPtr d) off (HPtr src) 0 n E s
  = Done tt (upd s d (Blk tg (CData (cells t (<[i := w]> vs) ++ ex)))).
Proof.
  intros Hs Hd Hi Ho ->. unfold memcpy. pose proof (tsz_pos t). pose proof (tsz_range t).
  rewrite to_size_id by llia.
  replace (Z.of_nat (tsz t) =? 0) with false by lia.
  erewrite bind_done by (by eapply get_bytes_ok).
  erewrite bind_done by (apply check_ok; rewrite app_length, cells_length; cbn [length]; lia).
  change (Z.to_nat 0) with 0%nat. rewrite drop_0, Nat2Z.id.
  rewrite take_app_alt by (rewrite cells_length; cbn [length]; lia).
  replace (cells t [w]) with (encode t w) by (unfold cells; cbn; by rewrite app_nil_r).
  change (store (HPtr d) t off w E s = Done tt (upd s d (Blk tg (CData (cells t (<[i := w]> vs) ++ ex))))).
  by eapply store_cells.
Qed.

(** ** Vector times vector *)
Lemma vv_dot_rule p1 p2 T1 T2 w k o E s :
  wf s -> holds (heap s) p1 T1 -> holds (heap s) p2 T2 -> a_type T2 = a_type T1 ->
  a_dims T1 = [k] -> a_dims T2 = [k] -> k <= INT_MAX ->
  inner (a_type T1) k (fun q => at_ T1 [q]) (fun q => at_ T2 [q]) = Some w ->
  makes_or_nomem (vector_vector_dot (HPtr p1) (HPtr p2) o) E s o (AT (a_type T1) (a_dev T1) [1] [w]).
Proof.
  intros Hwf H1 H2 Hty D1 D2 Hk Hin. apply Qmakes_elim. unfold vector_vector_dot.
  open_holds H1 Hv1 Hx1. open_holds H2 Hv2 Hx2. rewrite Hty in *. rewrite D1 in Hv1. rewrite D2 in Hv2.
  eapply wp_step; [by eapply tensor_dim_ok|].
  eapply wp_step; [by eapply tensor_dim_ok|]. rewrite Z.eqb_refl. cbn [negb].
  assert (fits (tsz (a_type T1)) [1]) as Hfit.
  { split_and!; [repeat constructor; lia|done|]. destruct (a_type T1); done. }
  apply wp_bind. eapply zeros_rule; [done|exact H1|exact Hfit|done|done| |].
  2:{ intros s' Hn Hks. cbv beta match. rewrite bool_decide_eq_false_2 by done. apply wp_ret. right. done. }
  intros s' q pd pm ps px Ht Hr. cbv beta match. rewrite bool_decide_eq_true_2 by done. cbn [negb].
  pose proof (view_mono _ _ _ _ _ _ _ _ (tnew_base _ _ Ht) Hv1) as Hv1'.
  pose proof (view_mono _ _ _ _ _ _ _ _ (tnew_base _ _ Ht) Hv2) as Hv2'.
  eapply wp_step; [by eapply tensor_dtype_ok|].
  eapply wp_step; [by eapply tensor_data_ok|].
  eapply wp_step; [by eapply tensor_data_ok|].
  eapply wp_step; [by eapply tensor_size_ok|].
  eapply wp_step; [by eapply tensor_data_ok, tnew_view|].
  rewrite dispatch_all_t. apply wp_bind. apply wp_bind.
  assert (0 <= k) as Hk0.
  { pose proof (valid_fits _ (proj1 H1)) as [HF _]. rewrite D1 in HF. by inversion HF. }
  unfold dot_kernel.
  change (replicate (Z.to_nat (prodZ [1])) (zero_val (a_type T1))) with [zero_val (a_type T1)] in Ht.
  eapply wp_step.
  { change 0 with (Z.of_nat 0). eapply tnew_storei; [exact Ht|cbn; lia]. }
  eapply tnew_upd with (bytes' := cells (a_type T1) [zero_val (a_type T1)]) in Ht.
  assert (prodZ [k] = Z.of_nat (Z.to_nat k)) as -> by (unfold prodZ; cbn; lia).
  eapply wp_mono.
  { eapply (vv_kernel_ok Hx1 Hx2 _ w (Z.to_nat k) (fun q => at_ T1 [q]) (fun q => at_ T2 [q]));
      [exact Ht|lia| |exact Hin].
    intros i Hi. split; [by eapply (at_vec T1 k); [apply H1| |]|by eapply (at_vec T2 k); [apply H2| |]]. }
  intros [] s2 [Ht2 Hr2]. apply wp_ret. apply wp_ret. left. exists q. split; [done|].
  eapply tnew_makes; [done| |exact Ht2|cbn in Hr2; congruence].
  split; [done|]. done.
Qed.

Lemma dot_not_cpu p1 p2 T1 T2 o E s :
  holds (heap s) p1 T1 -> holds (heap s) p2 T2 ->
  dev_type (a_dev T1) <> 0 \/ dev_type (a_dev T2) <> 0 ->
  refuses (aitisa_dot (HPtr p1) (HPtr p2) o) E s o NOT_SUPPORTED.
Proof.
  intros H1 H2 Hd. unfold refuses, aitisa_dot. open_holds H1 Hv1 Hx1. open_holds H2 Hv2 Hx2.
  erewrite bind_done by (by eapply tensor_device_ok).
  erewrite bind_done by (by eapply tensor_device_ok).
  replace (not_cpu (a_dev T1) (a_dev T2)) with true; [done|]. unfold not_cpu, DEVICE_CPU. lia.
Qed.
Lemma dot_types p1 p2 T1 T2 o E s :
  holds (heap s) p1 T1 -> holds (heap s) p2 T2 ->
  dev_type (a_dev T1) = 0 -> dev_type (a_dev T2) = 0 -> a_type T1 <> a_type T2 ->
  refuses (aitisa_dot (HPtr p1) (HPtr p2) o) E s o NOT_SUPPORTED.
Proof.
  intros H1 H2 Hd1 Hd2 Ht. unfold refuses, aitisa_dot. open_holds H1 Hv1 Hx1. open_holds H2 Hv2 Hx2.
  erewrite bind_done by (by eapply tensor_device_ok).
  erewrite bind_done by (by eapply tensor_device_ok).
  unfold not_cpu. rewrite Hd1, Hd2. cbn [DEVICE_CPU negb orb Z.eqb].
  erewrite bind_done by (by eapply tensor_dtype_ok).
  erewrite bind_done by (by eapply tensor_dtype_ok).
  replace (d_code (dtype_of (a_type T1)) =? d_code (dtype_of (a_type T2))) with false; [done|].
  destruct (a_type T1), (a_type T2); done.
Qed.

Section dot.
Context (p1 p2 : nat) (T1 T2 : atensor) (o : hval) (E : env) (s : st).
Context (H1 : holds (heap s) p1 T1) (H2 : holds (heap s) p2 T2)
  (Hty : a_type T2 = a_type T1)
  (Hc1 : dev_type (a_dev T1) = 0) (Hc2 : dev_type (a_dev T2) = 0).
Let nd1 := Z.of_nat (length (a_dims T1)).
Let nd2 := Z.of_nat (length (a_dims T2)).

Lemma dot_unfold :
  aitisa_dot (HPtr p1) (HPtr p2) o E s =
  (if (nd1 =? 1) && (nd2 =? 1) then vector_vector_dot (HPtr p1) (HPtr p2) o
   else if (nd1 =? 2) && (nd2 =? 2) then aitisa_matmul (HPtr p1) (HPtr p2) o
   else if (nd1 =? 0) || (nd2 =? 0) then scalar_tensor_mul (HPtr p1) (HPtr p2) o
   else if nd2 =? 1 then tensor_vector_dot (HPtr p1) (HPtr p2) o
   else if (2 <? nd1) && (2 <? nd2) then multidim_dot (HPtr p1) (HPtr p2) o
   else ret (INVALID_ARGUMENT, o)) E s.
Proof using All.
  unfold aitisa_dot. open_holds H1 Hv1 Hx1. open_holds H2 Hv2 Hx2.
  erewrite bind_done by (by eapply tensor_device_ok).
  erewrite bind_done by (by eapply tensor_device_ok).
  unfold not_cpu. rewrite Hc1, Hc2. cbn [DEVICE_CPU negb orb Z.eqb].
  erewrite bind_done by (by eapply tensor_dtype_ok).
  erewrite bind_done by (by eapply tensor_dtype_ok). rewrite Hty, Z.eqb_refl. cbn [negb].
  erewrite bind_done by (by eapply tensor_ndim_ok).
  erewrite bind_done by (by eapply tensor_ndim_ok). done.
Qed.

Lemma dot_vv w k :
  wf s -> a_dims T1 = [k] -> a_dims T2 = [k] -> k <= INT_MAX ->
  inner (a_type T1) k (fun q => at_ T1 [q]) (fun q => at_ T2 [q]) = Some w ->
  makes_or_nomem (aitisa_dot (HPtr p1) (HPtr p2) o) E s o (AT (a_type T1) (a_dev T1) [1] [w]).
Proof using All.
  intros Hwf D1 D2 Hk Hin. pose proof (vv_dot_rule p1 p2 T1 T2 w k o E s Hwf H1 H2 Hty D1 D2 Hk Hin) as H.
  unfold makes_or_nomem, makes_or_nomem_k, makes_k in *. rewrite dot_unfold. subst nd1 nd2.
  rewrite D1, D2. exact H.
Qed.
Lemma dot_vv_mismatch k1 k2 :
  a_dims T1 = [k1] -> a_dims T2 = [k2] -> k1 <> k2 ->
  refuses (aitisa_dot (HPtr p1) (HPtr p2) o) E s o DIMENSIONS_MISMATCH.
Proof using All.
  intros D1 D2 Hk. unfold refuses. rewrite dot_unfold. subst nd1 nd2. rewrite D1, D2.
  change (vector_vector_dot (HPtr p1) (HPtr p2) o E s = Done (DIMENSIONS_MISMATCH, o) s).
  open_holds H1 Hv1 Hx1. open_holds H2 Hv2 Hx2. rewrite D1 in Hv1. rewrite D2 in Hv2.
  unfold vector_vector_dot.
  erewrite bind_done by (by eapply tensor_dim_ok).
  erewrite bind_done by (by eapply tensor_dim_ok).
  replace (k1 =? k2) with false by lia. done.
Qed.
Lemma dot_mm : length (a_dims T1) = 2%nat -> length (a_dims T2) = 2%nat ->
  aitisa_dot (HPtr p1) (HPtr p2) o E s = aitisa_matmul (HPtr p1) (HPtr p2) o E s.
Proof using All. intros D1 D2. rewrite dot_unfold. subst nd1 nd2. by rewrite D1, D2. Qed.
Lemma dot_invalid :
  (a_dims T1 <> [] /\ (length (a_dims T1) <= 2)%nat /\ (3 <= length (a_dims T2))%nat \/
   length (a_dims T1) <> 2%nat /\ a_dims T1 <> [] /\ length (a_dims T2) = 2%nat) ->
  refuses (aitisa_dot (HPtr p1) (HPtr p2) o) E s o INVALID_ARGUMENT.
Proof using All.
  intros D. unfold refuses. rewrite dot_unfold.
  assert (nd1 <> 0) as Hn1.
  { subst nd1. destruct (a_dims T1); [|cbn; lia]. destruct D as [(? & _)|(_ & ? & _)]; done. }
  replace ((nd1 =? 1) && (nd2 =? 1)) with false by (subst nd1 nd2; lia).
  replace ((nd1 =? 2) && (nd2 =? 2)) with false by (subst nd1 nd2; lia).
  replace ((nd1 =? 0) || (nd2 =? 0)) with false by (subst nd1 nd2; lia).
  replace (nd2 =? 1) with false by (subst nd1 nd2; lia).
  replace ((2 <? nd1) && (2 <? nd2)) with false by (subst nd1 nd2; lia). done.
Qed.
End dot.
