(** * ProofUnknown2: slicing, duplicating, dropout, convolution and pooling of tensors of unknown type *)
From stdpp Require Import gmap list.
From Coq Require Import ZArith Lia Floats.SpecFloat.
From Coq Require Import ZifyBool ZifyNat.
From Verif Require Import Base Mem Spec SpecReal SpecNN SpecUnknown ModelCore ModelBasic ModelMath ModelNN Logic
  ProofCore ProofCore2 ProofCore3 ProofKernel ProofKernel2 ProofBasic ProofLayout ProofIndex ProofSlice ProofFrame ProofMath ProofSqrt
  ProofSqueeze ProofNN ProofSoftmax ProofDropout ProofUnknown.
Open Scope Z_scope.

Ltac Zify.zify_post_hook ::= Z.div_mod_to_equations.

(** ** slice *)
Lemma slice_create_sized p dt dev dims order px bs ss ts o E s (Q : status * hval -> st -> Prop) :
  wf s -> alloc_all E -> hooks_ok E -> view (heap s) p dt dev dims order px -> sized dt dims ->
  slice_ok dims bs ss ts ->
  (forall s' q pd pm ps px',
     tnew (e_alloc E) (ctr s) (heap s) s' q pd pm ps px' dt dev
       (slice_dims ss ts) (replicate (Z.to_nat (d_size dt * prodZ (slice_dims ss ts))) MU) ->
     Q (SUCCESS, HPtr q) s') ->
  wp (slice_create_output (HPtr p) bs ss ts o) E s Q.
Proof.
  intros Hwf HA HE Hv [Hsz Hfit] Hok HQ. unfold slice_create_output.
  pose proof (fits_len _ _ Hfit) as Hlen.
  pose proof (slice_dims_fits _ _ _ _ _ Hok Hfit) as Hfit'.
  pose proof (slice_dims_le _ _ _ _ Hok) as [_ Hsl].
  eapply wp_step; [by eapply tensor_ndim_ok|].
  apply wp_scratch; [llia| |done]. cbn [is_null].
  set (s1 := st_alloc s _). assert (wf s1) as Hwf1 by (by apply wf_alloc).
  eapply wp_step; [by eapply slice_ext_loop|]. cbv beta match.
  apply wp_scratch; [llia| |done].
  set (s2 := st_alloc s1 _). assert (wf s2) as Hwf2 by (by apply wf_alloc).
  unfold arr. rewrite Nat2Z.id. rewrite (slice_dims_filter dims bs ss ts) at 1 by done.
  eapply wp_step.
  { apply slice_collect_loop; [|done]. unfold slice_ext. rewrite zip_with_length.
    pose proof (slice_ok_len _ _ _ _ Hok). lia. }
  cbv beta match. rewrite <-(slice_dims_filter dims bs ss ts) by done.
  assert (ctr s1 = S (ctr s)) as Hc1 by done.
  eapply wp_free; [done|unfold s2; cbn [st_alloc heap]; rewrite lookup_insert_ne by (rewrite Hc1; lia);
     apply st_alloc_lookup|done|].
  set (s3 := st_free s2 (ctr s)). assert (wf s3) as Hwf3 by (by apply wf_free).
  assert (heap s3 = <[ctr s1 := Blk (e_alloc E) (CRaw (8 * Z.of_nat (length (slice_dims ss ts))))]> (heap s)) as Hh3.
  { unfold s3, s2. cbn [st_free st_alloc heap]. rewrite delete_insert_ne by (rewrite Hc1; lia). f_equal.
    apply delete_insert. apply wf_fresh; [done|lia]. }
  assert (heap s !! ctr s1 = None) as Hf1 by (apply wf_fresh; [done|rewrite Hc1; lia]).
  assert (heap s ⊆ heap s3) as Hsub by (rewrite Hh3; by apply insert_subseteq).
  pose proof (view_mono _ _ _ _ _ _ _ _ Hsub Hv) as Hv3.
  eapply wp_step; [by eapply tensor_dtype_ok|].
  eapply wp_step; [by eapply tensor_device_ok|].
  eapply wp_step; [apply force_array_ok|].
  apply wp_bind. apply create_sized; [done|done| |done].
  intros s4 q pd pm ps px' Ht Hr. cbv beta match.
  assert (heap s3 !! ctr s1 = Some (Blk (e_alloc E) (CRaw (8 * Z.of_nat (length (slice_dims ss ts)))))) as Hl3
    by (rewrite Hh3; by rewrite lookup_insert).
  eapply wp_free; [done|by eapply tnew_lookup|done|].
  apply wp_ret. eapply HQ.
  eapply tnew_free in Ht; [|by eexists].
  rewrite Hh3 in Ht. rewrite delete_insert in Ht by done.
  eapply tnew_lo; [exact Ht|]. cbn. lia.
Qed.

Lemma slice_unknown_wp p dt dev dims order px bs ss ts o E s :
  wf s -> alloc_all E -> hooks_ok E -> view (heap s) p dt dev dims order px -> sized dt dims -> unknown dt ->
  dims <> [] -> slice_ok dims bs ss ts ->
  wp (aitisa_slice (HPtr p) bs ss ts o) E s (fun r s' => keeps s s' /\
    r.1 = NOT_SUPPORTED /\ exists q, r.2 = HPtr q /\ heap s !! q = None).
Proof.
  intros Hwf HA HE Hv Hs Hu Hne Hok. unfold aitisa_slice.
  eapply wp_step; [by eapply slice_check_ok|]. rewrite bool_decide_eq_true_2 by done. cbn [negb].
  apply wp_bind. eapply slice_create_sized; try done. intros s1 q pd pm ps px' Ht.
  cbv beta match. rewrite bool_decide_eq_true_2 by done. cbn [negb].
  pose proof (view_mono _ _ _ _ _ _ _ _ (tnew_base _ _ Ht) Hv) as Hv1.
  pose proof (wf_keeps_tnew Ht) as Hk1.
  unfold slice_template. apply wp_bind.
  pose proof (fits_len _ _ (proj2 Hs)) as Hlen.
  pose proof (slice_ok_len _ _ _ _ Hok) as (H1 & H2 & H3).
  eapply wp_step; [by eapply tensor_ndim_ok|].
  eapply wp_step; [by eapply tensor_dims_ok|].
  apply wp_scratch; [llia| |done]. set (s2 := st_alloc s1 _).
  apply wp_scratch; [llia| |done]. set (s3 := st_alloc s2 _).
  apply wp_scratch; [llia| |done]. set (s4 := st_alloc s3 _).
  cbn [is_null orb].
  assert (keeps s s4) as Hk4.
  { assert (wf s1) as W1 by apply Hk1. assert (wf s2) as W2 by (by apply wf_alloc).
    assert (wf s3) as W3 by (by apply wf_alloc).
    eapply keeps_trans; [exact Hk1|].
    eapply keeps_trans; [by apply keeps_alloc|]. eapply keeps_trans; by apply keeps_alloc. }
  eapply wp_step.
  { rewrite (for32_pure (fun k => (take k bs, take k (zip_with (fun b s => b + s - 1) bs ss)))
      _ _ _ (length dims)).
    - rewrite !take_ge by (rewrite ?zip_with_length; lia). reflexivity.
    - done.
    - lia.
    - done.
    - intros k Hk. rewrite Z.add_0_l.
      destruct (slice_ok_get _ _ _ _ k Hok Hk) as (d & b & sz & t & Hd & Hb & Hs' & Ht' & H).
      erewrite bind_done by (by apply aget_nat).
      erewrite bind_done by (by apply aget_nat).
      erewrite bind_done by (apply ck64_ok; llia).
      rewrite (take_S_r _ _ _ Hb).
      assert (zip_with (fun b s => b + s - 1) bs ss !! k = Some (b + sz - 1)) as Hz
        by (rewrite lookup_zip_with, Hb, Hs'; done).
      rewrite (take_S_r _ _ _ Hz). done. }
  cbv beta match. unfold arr at 1. rewrite Nat2Z.id.
  apply wp_assoc. apply wp_assoc.
  eapply wp_step.
  { rewrite bind_assoc. apply offs_loop; [done|destruct dims; [done|cbn; lia]|].
    intros k. eapply fits_drop; [by eapply sized_pos|apply Hs]. }
  eapply wp_step; [eapply tensor_dtype_ok, view_mono; [|exact Hv]; apply Hk4|].
  rewrite dispatch_all_unknown by done. apply wp_ret. apply wp_ret.
  split; [done|]. split; [done|]. exists q. split; [done|]. by eapply tnew_fresh.
Qed.

Lemma slice_unknown p dt dev dims order px bs ss ts o E s :
  wf s -> alloc_all E -> hooks_ok E -> view (heap s) p dt dev dims order px -> sized dt dims -> unknown dt ->
  dims <> [] -> slice_ok dims bs ss ts ->
  unsupported (aitisa_slice (HPtr p) bs ss ts o) E s o.
Proof.
  intros. apply unsup_intro. eapply wp_mono; [by eapply slice_unknown_wp|].
  intros r s' (Hk & Hn & Hq). split; [done|]. left. auto.
Qed.

(** ** duplicate and dropout *)
Lemma duplicate_unknown_wp p dt dev dims order px o E s :
  wf s -> alloc_all E -> hooks_ok E -> view (heap s) p dt dev dims order px -> sized dt dims -> unknown dt ->
  dims <> [] -> Forall (fun d => 0 < d <= INT_MAX) dims ->
  wp (aitisa_duplicate (HPtr p) o) E s (fun r s' => keeps s s' /\ r = (NOT_SUPPORTED, o)).
Proof.
  intros Hwf HA HE Hv Hs Hu Hne Hd. unfold aitisa_duplicate.
  pose proof (fits_len _ _ (proj2 Hs)) as Hlen.
  assert (to_int <$> dims = dims) as Hsz.
  { clear -Hd. induction Hd as [|d ds Hd H IH]; [done|]. cbn [fmap list_fmap].
    change (list_fmap Z Z to_int ds) with (to_int <$> ds). rewrite IH, to_int_id by llia. done. }
  eapply wp_step; [by eapply tensor_dims_ok|].
  eapply wp_step; [by eapply tensor_ndim_ok|]. cbv zeta.
  rewrite to_int_id by llia.
  apply wp_scratch; [llia| |done]. set (b1 := ctr s). set (x1 := Blk _ _). set (s1 := st_alloc s x1).
  apply wp_scratch; [llia| |done]. set (b2 := ctr s1). fold x1. set (s2 := st_alloc s1 x1).
  apply wp_scratch; [llia| |done]. set (b3 := ctr s2). fold x1. set (s3 := st_alloc s2 x1).
  cbn [is_null orb].
  assert (wf s1) as Hwf1 by (by apply wf_alloc).
  assert (wf s2) as Hwf2 by (by apply wf_alloc).
  assert (wf s3) as Hwf3 by (by apply wf_alloc).
  assert (keeps s s3) as Hk3.
  { eapply keeps_trans; [by apply keeps_alloc|]. eapply keeps_trans; by apply keeps_alloc. }
  eapply wp_step.
  { rewrite (for64_pure (fun k => (zeros k, take k dims, ones k)) _ _ _ (length dims)).
    - rewrite take_ge by lia. reflexivity.
    - done.
    - lia.
    - intros k Hk. rewrite Z.add_0_l.
      destruct (lookup_lt_is_Some_2 dims k) as [d Hdk]; [lia|].
      erewrite bind_done by (by apply aget_nat).
      rewrite (take_S_r _ _ _ Hdk). rewrite to_int_id.
      2:{ pose proof (Forall_lookup_1 _ _ _ _ Hd Hdk) as Hdd. cbn in Hdd. llia. }
      unfold zeros, ones. rewrite !replicate_S_end. done. }
  cbv beta match. apply wp_bind.
  eapply wp_mono.
  { eapply (slice_unknown_wp p dt dev dims order px); try done.
    - eapply view_mono; [apply Hk3|done].
    - by apply dup_ok. }
  intros [st' h] s4 (Hk4 & Hst & q & Hq & _). cbn in Hst, Hq. subst st' h. cbv beta match.
  rewrite bool_decide_eq_false_2 by done. cbv zeta.
  assert (b1 <> b2 /\ b1 <> b3 /\ b2 <> b3 /\ b2 = S b1 /\ b3 = S (S b1)) as (Hb12 & Hb13 & Hb23 & Hb2 & Hb3).
  { unfold b3, b2, b1, s2, s1. cbn. lia. }
  assert (heap s3 = <[b3:=x1]> (<[b2:=x1]> (<[b1:=x1]> (heap s)))) as Hh3 by done.
  assert (forall b, (b1 <= b)%nat -> heap s !! b = None) as Hfr.
  { intros b Hb. by apply wf_fresh. }
  pose proof (proj1 Hk4) as Hs4.
  eapply wp_free; [done|eapply lookup_weaken; [|exact Hs4]; rewrite Hh3; lkup; done|done|].
  eapply wp_free; [done|cbn [st_free heap]; rewrite lookup_delete_ne by done;
    eapply lookup_weaken; [|exact Hs4]; rewrite Hh3; lkup; done|done|].
  eapply wp_free; [done|cbn [st_free heap]; rewrite !lookup_delete_ne by done;
    eapply lookup_weaken; [|exact Hs4]; rewrite Hh3; lkup; done|done|].
  apply wp_ret. split; [|done].
  destruct Hk4 as (_ & W4 & C4). destruct Hk3 as (S3 & _ & C3).
  split_and!; cbn [st_free heap ctr].
  - apply map_subseteq_spec. intros b x Hb. rewrite !lookup_delete_ne.
    + eapply lookup_weaken; [|exact Hs4]. by eapply lookup_weaken.
    + intros <-. rewrite Hfr in Hb; [done|lia].
    + intros <-. rewrite Hfr in Hb; [done|lia].
    + intros <-. rewrite Hfr in Hb; [done|lia].
  - do 3 apply wf_free. done.
  - lia.
Qed.

Lemma duplicate_unknown p dt dev dims order px o E s :
  wf s -> alloc_all E -> hooks_ok E -> view (heap s) p dt dev dims order px -> sized dt dims -> unknown dt ->
  dims <> [] -> Forall (fun d => 0 < d <= INT_MAX) dims ->
  unsupported (aitisa_duplicate (HPtr p) o) E s o.
Proof.
  intros. apply unsup_intro. eapply wp_mono; [by eapply duplicate_unknown_wp|].
  intros r s' (Hk & ->). split; [done|]. left. auto.
Qed.

Lemma dropout_unknown p dt dev dims order px rate o E s :
  wf s -> alloc_all E -> hooks_ok E -> view (heap s) p dt dev dims order px -> sized dt dims -> unknown dt ->
  dims <> [] -> Forall (fun d => 0 < d <= INT_MAX) dims -> rate_ok rate ->
  unsupported (aitisa_dropout (HPtr p) rate o) E s o.
Proof.
  intros. apply unsup_intro. unfold aitisa_dropout. rewrite rate_accepted by done.
  apply wp_bind. eapply wp_mono; [by eapply duplicate_unknown_wp|].
  intros r s' (Hk & ->). cbv beta match. rewrite bool_decide_eq_false_2 by done. cbn [negb].
  apply wp_ret. split; [done|]. left. auto.
Qed.

(** ** convolution: every type but float *)
Lemma conv_refuses p dt dev dims order px f ss ps ls g o E s :
  view (heap s) p dt dev dims order px -> d_code dt <> code_of F32 ->
  (length dims = 4%nat -> aitisa_conv2d (HPtr p) f ss ps ls g o E s = Done (NOT_SUPPORTED, o) s) /\
  (length dims = 5%nat -> aitisa_conv3d (HPtr p) f ss ps ls g o E s = Done (NOT_SUPPORTED, o) s).
Proof.
  intros Hv Hd. unfold aitisa_conv2d, aitisa_conv3d, aitisa_conv.
  split; intros Hl; (erewrite bind_done by (by eapply tensor_ndim_ok)); rewrite Hl.
  - change (negb (Z.of_nat 4 =? 4)) with false. cbv match.
    erewrite bind_done by (by eapply tensor_dtype_ok). by rewrite (proj2 (Z.eqb_neq _ _) Hd).
  - change (negb (Z.of_nat 5 =? 5)) with false. cbv match.
    erewrite bind_done by (by eapply tensor_dtype_ok). by rewrite (proj2 (Z.eqb_neq _ _) Hd).
Qed.
Lemma conv_unknown p dt dev dims order px f ss ps ls g o E s :
  wf s -> view (heap s) p dt dev dims order px -> unknown dt ->
  (length dims = 4%nat -> unsupported (aitisa_conv2d (HPtr p) f ss ps ls g o) E s o) /\
  (length dims = 5%nat -> unsupported (aitisa_conv3d (HPtr p) f ss ps ls g o) E s o).
Proof.
  intros Hwf Hv Hu. assert (d_code dt <> code_of F32) as Hd by (intros Heq; apply Hu; rewrite Heq; cbn; lia).
  destruct (conv_refuses p dt dev dims order px f ss ps ls g o E s Hv Hd) as [H2 H3].
  split; intros Hl; eexists _, s; (split; [by auto|]); (split; [by split_and!|]); left; auto.
Qed.

(** ** full, and with it matmul and dot, index a table of functions by the code *)
Lemma full_unknown dt dev dims d o E s :
  wf s -> sized dt dims -> alloc_all E -> unknown dt ->
  aitisa_full dt dev dims (Z.of_nat (length dims)) d o E s = UB UB_oob.
Proof.
  intros Hwf Hs HE Hu. unfold aitisa_full.
  assert (wp (aitisa_create dt dev dims (Z.of_nat (length dims)) HNull 0 HUndef) E s (fun r s' =>
    exists p pd pm ps px, r = (SUCCESS, HPtr p) /\ tnew (e_alloc E) (ctr s) (heap s) s' p pd pm ps px dt dev dims
          (replicate (Z.to_nat (d_size dt * prodZ dims)) MU))) as Hw.
  { apply create_sized; [done|done| |done]. intros. eauto 10. }
  apply wp_elim in Hw as (r & s1 & Hc & p & pd & pm & ps & px & -> & Ht).
  erewrite bind_done by done. cbv beta match. rewrite bool_decide_eq_true_2 by done. cbn [negb].
  erewrite bind_done by (by eapply tensor_size_ok, tnew_view).
  unfold castto_in_place, type_table. rewrite unknown_none by done. done.
Qed.

Lemma matmul_unknown p1 p2 dt dt2 dev dev2 n order1 order2 px1 px2 o E s :
  wf s -> alloc_all E -> view (heap s) p1 dt dev [n] order1 px1 -> view (heap s) p2 dt2 dev2 [n] order2 px2 ->
  dev_type dev = 0 -> dev_type dev2 = 0 -> sized dt [1] -> unknown dt ->
  aitisa_matmul (HPtr p1) (HPtr p2) o E s = UB UB_oob.
Proof.
  intros Hwf HE Hv1 Hv2 D1 D2 Hs Hu. unfold aitisa_matmul.
  erewrite bind_done by (by eapply tensor_device_ok).
  erewrite bind_done by (by eapply tensor_device_ok).
  unfold not_cpu. rewrite D1, D2. cbn [negb orb DEVICE_CPU Z.eqb].
  erewrite bind_done by (by eapply tensor_ndim_ok).
  erewrite bind_done by (by eapply tensor_ndim_ok).
  change ((Z.of_nat (length [n]) =? 1) && (Z.of_nat (length [n]) =? 1)) with true. cbv match. unfold matmul_vv.
  assert (forall p dt dev order px, view (heap s) p dt dev [n] order px ->
    tensor_dim (HPtr p) 0 E s = Done n s) as Hdim.
  { intros p dt' dev' ord px Hv. by eapply (tensor_dim_ok Hv 0 n). }
  erewrite bind_done by (by eapply Hdim).
  erewrite bind_done by (by eapply Hdim).
  rewrite Z.eqb_refl. cbn [negb]. unfold zeros_like.
  apply bind_UB.
  erewrite bind_done by (by eapply tensor_dtype_ok).
  erewrite bind_done by (by eapply tensor_device_ok).
  apply (full_unknown dt dev [1]); done.
Qed.

Lemma create_sized_ok dt dev dims o E s :
  wf s -> sized dt dims -> alloc_all E ->
  exists s1 p pd pm ps px,
    aitisa_create dt dev dims (Z.of_nat (length dims)) HNull 0 o E s = Done (SUCCESS, HPtr p) s1 /\
    tnew (e_alloc E) (ctr s) (heap s) s1 p pd pm ps px dt dev dims
      (replicate (Z.to_nat (d_size dt * prodZ dims)) MU).
Proof.
  intros Hwf Hs HE.
  assert (wp (aitisa_create dt dev dims (Z.of_nat (length dims)) HNull 0 o) E s (fun r s' =>
    exists p pd pm ps px, r = (SUCCESS, HPtr p) /\ tnew (e_alloc E) (ctr s) (heap s) s' p pd pm ps px dt dev dims
          (replicate (Z.to_nat (d_size dt * prodZ dims)) MU))) as Hw.
  { apply create_sized; [done|done| |done]. intros. eauto 10. }
  apply wp_elim in Hw as (r & s1 & Hc & p & pd & pm & ps & px & -> & Ht). eauto 10.
Qed.

Lemma libc_done n c E s : exists r s', libc_malloc n c E s = Done r s'.
Proof. unfold libc_malloc, alloc_tag. case_match; eauto. Qed.

(** ** the arithmetic operations index their tables inside the loop *)
Lemma binary_unknown op p1 p2 dt1 dt2 dev1 dev2 dims order1 order2 px1 px2 o E s :
  wf s -> alloc_all E ->
  view (heap s) p1 dt1 dev1 dims order1 px1 -> view (heap s) p2 dt2 dev2 dims order2 px2 ->
  dev_type dev1 = 0 -> dev_type dev2 = 0 -> sized dt1 dims -> unknown dt1 -> d_code dt2 = d_code dt1 ->
  0 < prodZ dims ->
  aitisa_binary_op op (HPtr p1) (HPtr p2) o E s = UB UB_oob.
Proof.
  intros Hwf HA Hv1 Hv2 D1 D2 Hs Hu Hc Hpos. unfold aitisa_binary_op.
  erewrite bind_done by (by eapply tensor_device_ok).
  erewrite bind_done by (by eapply tensor_device_ok).
  unfold not_cpu. rewrite D1, D2. cbn [negb orb DEVICE_CPU Z.eqb].
  erewrite bind_done by (by eapply tensor_dtype_ok).
  erewrite bind_done by (by eapply tensor_dtype_ok).
  rewrite Hc, Z.eqb_refl. cbn [negb].
  erewrite bind_done by (by eapply tensor_ndim_ok).
  erewrite bind_done by (by eapply tensor_ndim_ok).
  rewrite Z.eqb_refl. cbn [negb].
  erewrite bind_done by (by eapply tensor_dims_ok).
  erewrite bind_done by (by eapply tensor_dims_ok).
  erewrite bind_done by (rewrite Nat2Z.id; apply dims_loop_same). cbv beta match.
  destruct (create_sized_ok dt1 dev1 dims o E s Hwf Hs HA) as (s1 & p & pd & pm & ps & px & Hcr & Ht).
  erewrite bind_done by (exact Hcr). cbv beta match. rewrite bool_decide_eq_true_2 by done. cbn [negb].
  pose proof (view_mono _ _ _ _ _ _ _ _ (tnew_base _ _ Ht) Hv1) as Hv11.
  pose proof (view_mono _ _ _ _ _ _ _ _ (tnew_base _ _ Ht) Hv2) as Hv21.
  erewrite bind_done by (by eapply tensor_size_ok).
  erewrite bind_done by (by eapply tensor_data_ok).
  erewrite bind_done by (by eapply tensor_data_ok).
  erewrite bind_done by (by eapply tensor_data_ok, tnew_view).
  destruct (libc_done (d_size dt1) CRaw E s1) as (a1 & s2 & H1). erewrite bind_done by exact H1.
  destruct (libc_done (d_size dt1) CRaw E s2) as (a2 & s3 & H2). erewrite bind_done by exact H2.
  destruct (libc_done (d_size dt1) CRaw E s3) as (a3 & s4 & H3). erewrite bind_done by exact H3.
  apply bind_UB. unfold for32.
  destruct (Z.to_nat (prodZ dims - 0)) as [|n] eqn:Hn; [lia|]. cbn [iter].
  apply bind_UB. apply bind_UB. apply bind_UB. unfold type_table. by rewrite unknown_none.
Qed.

(** ** reshape copies bytes whatever their type *)
Lemma reshape_any p dt dev dims0 order px tg bs dims o E s :
  wf s -> alloc_all E -> view (heap s) p dt dev dims0 order px ->
  heap s !! px = Some (Blk tg (CData bs)) -> d_size dt * prodZ dims0 <= Z.of_nat (length bs) ->
  sized dt dims -> prodZ dims = prodZ dims0 ->
  exists q px' tg' s', aitisa_reshape (HPtr p) dims (Z.of_nat (length dims)) o E s = Done (SUCCESS, HPtr q) s' /\
    view (heap s') q dt dev dims (rowmajor (length dims)) px' /\
    heap s' !! px' = Some (Blk tg' (CData (take (Z.to_nat (d_size dt * prodZ dims)) bs))).
Proof.
  intros Hwf HA Hv Hx Hb Hs Hp.
  pose proof (sized_bytes _ _ Hs) as Hsb. unfold aitisa_reshape.
  erewrite bind_done by (by eapply tensor_size_ok).
  erewrite bind_done.
  2:{ apply size_of_dims_ok; [eapply fits_prefixes; [by eapply sized_pos|apply Hs]|done|eapply fits_len, Hs]. }
  rewrite Hp, Z.eqb_refl. cbn [negb].
  erewrite bind_done by (by eapply tensor_device_ok).
  erewrite bind_done by (by eapply tensor_dtype_ok).
  destruct (create_sized_ok dt dev dims HUndef E s Hwf Hs HA) as (s1 & q & pd & pm & ps & px' & Hcr & Ht).
  erewrite bind_done by (exact Hcr). cbv beta match. rewrite bool_decide_eq_true_2 by done. cbn [negb].
  pose proof (view_mono _ _ _ _ _ _ _ _ (tnew_base _ _ Ht) Hv) as Hv1.
  erewrite bind_done by (by eapply tensor_data_ok).
  erewrite bind_done by (by eapply tensor_data_ok, tnew_view).
  erewrite bind_done by (apply ck64_ok; rewrite <-Hp; llia).
  erewrite bind_done.
  2:{ eapply memcpy_ok; [eapply tnew_lookup; [exact Ht|exact Hx]|by eapply tnew_px|done| | |].
    - rewrite <-Hp. llia.
    - rewrite <-Hp. lia.
    - rewrite replicate_length. lia. }
  eexists q, px', _, _. split; [reflexivity|].
  rewrite drop_0. rewrite (drop_ge (replicate _ _)) by (rewrite replicate_length; lia).
  rewrite app_nil_r.
  apply tnew_upd with (bytes' := take (Z.to_nat (prodZ dims0 * d_size dt)) bs) in Ht.
  rewrite (Z.mul_comm (d_size dt)).
  split; [by eapply tnew_view|]. by eapply tnew_px.
Qed.
