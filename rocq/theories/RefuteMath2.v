(** * RefuteMath2: products of operands of different types *)
From stdpp Require Import gmap list.
From Coq Require Import ZArith Lia Floats.SpecFloat.
From Verif Require Import Base Mem Spec ModelCore ModelBasic ModelMath Logic ProofCore ProofCore2 ProofCore3
  ProofKernel ProofBasic ProofMatmul Fixture.
Open Scope Z_scope.

Definition T_vi32 : atensor := AT I32 cpu [2] (VI <$> [3; 4]).
Definition T_vi64 : atensor := AT I64 cpu [2] (VI <$> [4294967297; 5]).
Definition T_vu8 : atensor := AT U8 cpu [2] (VI <$> [1; 2]).
Lemma T_vi32_valid : valid T_vi32. Proof. lit_valid. Qed.
Lemma T_vi64_valid : valid T_vi64. Proof. lit_valid. Qed.
Lemma T_vu8_valid : valid T_vu8. Proof. lit_valid. Qed.

Lemma matmul_type_ub : exists T1 T2 p1 p2 E s,
  wf s /\ alloc_all E /\ holds (heap s) p1 T1 /\ holds (heap s) p2 T2 /\
  a_type T1 <> a_type T2 /\ a_dims T1 = a_dims T2 /\
  aitisa_matmul (HPtr p1) (HPtr p2) HNull E s = UB UB_type.
Proof.
  exists T_vi32, T_vi64, 0%nat, 5%nat, E0, (fx [T_vi32; T_vi64]).
  split_and!; [apply fx_wf|done|exact (fx_holds [T_vi32; T_vi64] 0 T_vi32 eq_refl T_vi32_valid)|
    exact (fx_holds [T_vi32; T_vi64] 1 T_vi64 eq_refl T_vi64_valid)|done|done|].
  vm_compute. reflexivity.
Qed.
(** int32 times uint8: reads past the end of the uint8 buffer. *)
Lemma matmul_type_oob : exists T1 T2 p1 p2 E s,
  wf s /\ alloc_all E /\ holds (heap s) p1 T1 /\ holds (heap s) p2 T2 /\
  a_type T1 <> a_type T2 /\ a_dims T1 = a_dims T2 /\
  aitisa_matmul (HPtr p1) (HPtr p2) HNull E s = UB UB_oob.
Proof.
  exists T_vi32, T_vu8, 0%nat, 5%nat, E0, (fx [T_vi32; T_vu8]).
  split_and!; [apply fx_wf|done|exact (fx_holds [T_vi32; T_vu8] 0 T_vi32 eq_refl T_vi32_valid)|
    exact (fx_holds [T_vi32; T_vu8] 1 T_vu8 eq_refl T_vu8_valid)|done|done|].
  vm_compute. reflexivity.
Qed.

Lemma bind_ub {A B} (m : M A) (k : A -> M B) E s u : m E s = UB u -> bind m k E s = UB u.
Proof. intros H. unfold bind. by rewrite H. Qed.
Lemma for32_ub {S} lo hi (body : Z -> S -> M S) x E s u :
  lo < hi -> body lo x E s = UB u -> for32 lo hi body x E s = UB u.
Proof.
  intros H Hb. unfold for32. destruct (Z.to_nat (hi - lo)) as [|n] eqn:En; [lia|].
  cbn [iter]. apply bind_ub. by apply bind_ub.
Qed.

(** Reading an element of another type *)
Lemma load_wrong_type {E s b tg t t2 v vs ex} :
  heap s !! b = Some (Blk tg (CData (cells t2 (v :: vs) ++ ex))) -> v <> VU -> t <> t2 ->
  exists u, load (HPtr b) t 0 E s = UB u.
Proof.
  intros Hb Hv Ht. unfold load. erewrite bind_done by (by eapply get_bytes_ok).
  unfold check, bind. destruct (_ && _); [|by eexists].
  unfold opt.
  match goal with |- context [decode t ?bs] => replace (decode t bs) with (None : option val); [by eexists|] end.
  change (Z.to_nat 0) with 0%nat. rewrite drop_0. unfold cells. cbn [mbind list_bind].
  assert (exists k, tsz t2 = S k) as [k Hk] by (destruct t2; by eexists).
  assert (encode t2 v = MF t2 v 0 :: (MF t2 v <$> seq 1 k)) as ->.
  { destruct v; try done; unfold encode; by rewrite Hk. }
  assert (exists j, tsz t = S j) as [j Hj] by (destruct t; by eexists). rewrite Hj.
  cbn [app take]. unfold decode. rewrite bool_decide_eq_false_2; [done|].
  destruct v; try done; unfold encode; rewrite Hj; cbn; congruence.
Qed.

(** Vectors of equal positive length and different types: always undefined. *)
Lemma matmul_vv_types p1 p2 T1 T2 o E s k v2 vs2 :
  wf s -> alloc_all E -> holds (heap s) p1 T1 -> holds (heap s) p2 T2 ->
  dev_type (a_dev T1) = 0 -> dev_type (a_dev T2) = 0 ->
  a_dims T1 = [k] -> a_dims T2 = [k] -> a_type T1 <> a_type T2 ->
  a_vals T2 = v2 :: vs2 -> v2 <> VU ->
  exists u, aitisa_matmul (HPtr p1) (HPtr p2) o E s = UB u.
Proof.
  intros Hwf HA H1 H2 Hc1 Hc2 D1 D2 Hty Hvs2 Hv2. unfold aitisa_matmul.
  pose proof H1 as (HvT1 & x1 & tg1 & ex1 & Hv1 & Hx1).
  pose proof H2 as (HvT2 & x2 & tg2 & ex2 & Hv2' & Hx2).
  pose proof (valid_len _ HvT1) as L1. pose proof (valid_len _ HvT2) as L2. rewrite D1 in *. rewrite D2, Hvs2 in *.
  erewrite bind_done by (by eapply tensor_device_ok).
  erewrite bind_done by (by eapply tensor_device_ok).
  unfold not_cpu. rewrite Hc1, Hc2. cbn [DEVICE_CPU negb orb Z.eqb].
  erewrite bind_done by (by eapply tensor_ndim_ok).
  erewrite bind_done by (by eapply tensor_ndim_ok).
  change (Z.of_nat (length [k]) =? 1) with true. cbn [andb]. unfold matmul_vv.
  erewrite bind_done by (by eapply tensor_dim_ok).
  erewrite bind_done by (by eapply tensor_dim_ok). rewrite Z.eqb_refl. cbn [negb].
  assert (wp (zeros_like (HPtr p1) [1] 1 o) E s (fun r s' => exists q pd pm ps px, r = (SUCCESS, HPtr q) /\
     tnew (e_alloc E) (ctr s) (heap s) s' q pd pm ps px (dtype_of (a_type T1)) (a_dev T1) [1]
       (cells (a_type T1) [zero_val (a_type T1)]))) as Hz.
  { eapply zeros_rule; [done|exact H1| |done|done| |].
    - split_and!; [repeat constructor; lia|done|]. destruct (a_type T1); done.
    - intros s' q pd pm ps px Ht Hr. by exists q, pd, pm, ps, px.
    - intros s' Hn. done. }
  apply wp_elim in Hz as (r & s' & Hm & q & pd & pm & ps & px & -> & Ht).
  erewrite bind_done by exact Hm. cbv beta match. rewrite bool_decide_eq_true_2 by done. cbn [negb].
  pose proof (view_mono _ _ _ _ _ _ _ _ (tnew_base _ _ Ht) Hv1) as Hw1.
  pose proof (view_mono _ _ _ _ _ _ _ _ (tnew_base _ _ Ht) Hv2') as Hw2.
  erewrite bind_done by (by eapply tensor_dtype_ok).
  erewrite bind_done by (by eapply tensor_data_ok).
  erewrite bind_done by (by eapply tensor_data_ok).
  erewrite bind_done by (by eapply tensor_data_ok, tnew_view).
  unfold vv_template. rewrite dispatch_all_t. unfold vv_kernel.
  assert (prodZ [k] = k) as Hk by (unfold prodZ; cbn; lia). rewrite Hk in *. cbn [length] in L2.
  destruct (lookup_lt_is_Some_2 (a_vals T1) 0) as [v1 Hv1']; [lia|].
  destruct (load_wrong_type (E := E) (t := a_type T1) (tnew_lookup _ _ Ht Hx2) Hv2 Hty) as [u Hu].
  exists u. apply bind_ub, bind_ub, for32_ub; [lia|]. unfold mac.
  erewrite bind_done by (eapply (load_cells s' px (e_alloc E) (a_type T1) [zero_val (a_type T1)] [] 0);
    [rewrite app_nil_r; by eapply tnew_px|done|lia]).
  erewrite bind_done by (eapply (load_cells s' x1 tg1 (a_type T1) (a_vals T1) ex1 0); [by eapply tnew_lookup|done|lia]).
  replace (0 + 0 * Z.of_nat (tsz (a_type T1))) with 0 by lia. by apply bind_ub.
Qed.
