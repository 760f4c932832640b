(** * ProofDup: aitisa_duplicate on every tensor *)
From stdpp Require Import gmap list.
From Coq Require Import ZArith Lia.
From Coq Require Import ZifyBool ZifyNat.
From Verif Require Import Base Mem Spec SpecSlice ModelCore ModelBasic Logic ProofCore ProofCore2 ProofKernel
  ProofBasic ProofSqueeze ProofIndex ProofKernel2 ProofFloat ProofSlice ProofMath ProofExact ProofSlice2.
Open Scope Z_scope.
Ltac Zify.zify_post_hook ::= Z.div_mod_to_equations.

Lemma to_int_eq d : to_int d = int32 d.
Proof. reflexivity. Qed.
Lemma int32_range d : INT_MIN <= int32 d <= INT_MAX.
Proof. unfold int32, INT_MIN, INT_MAX. lia. Qed.
Lemma int32_le d : 0 < d -> int32 d <= d.
Proof. unfold int32. lia. Qed.

Section dup.
Context (p : nat) (T : atensor) (o : hval) (E : env) (s : st).
Context (Hwf : wf s) (HA : alloc_all E) (HE : hooks_ok E) (HT : holds (heap s) p T).
Let n := length (a_dims T).
Let sz := int32 <$> a_dims T.
Let x1 := Blk (e_alloc E) (CRaw (4 * Z.of_nat n)).
Let s3 := st_alloc (st_alloc (st_alloc s x1) x1) x1.

Definition after_slice (r : status * hval) : M (status * hval) :=
  let '(st, new) := r in
  raw_dealloc (HPtr (ctr s)) ;;; raw_dealloc (HPtr (S (ctr s))) ;;; raw_dealloc (HPtr (S (S (ctr s)))) ;;;
  ret (st, if bool_decide (st = SUCCESS) then new else o).
Lemma dup_enter : aitisa_duplicate (HPtr p) o E s = bind (aitisa_slice (HPtr p) (zeros n) sz (ones n) HUndef) after_slice E s3.
Proof using HA HT.
  unfold aitisa_duplicate.
  pose proof HT as (HvT & bx & tg & ex & Hv & Hx).
  pose proof (valid_fits _ HvT) as Hfit. pose proof (fits_len _ _ Hfit) as Hlen.
  erewrite bind_done by (by eapply tensor_dims_ok).
  erewrite bind_done by (by eapply tensor_ndim_ok). cbv zeta.
  rewrite to_int_id by llia. fold n in Hlen |- *.
  erewrite bind_done by (apply scratch_run; [done|llia]).
  erewrite bind_done by (apply scratch_run; [done|llia]).
  erewrite bind_done by (apply scratch_run; [done|llia]). fold x1. fold s3. cbn [is_null orb].
  erewrite bind_done.
  2:{ rewrite (for64_pure (fun k => (zeros k, take k sz, ones k)) _ _ _ n).
    - rewrite take_ge by (unfold sz; rewrite fmap_length; unfold n; lia). reflexivity.
    - done.
    - lia.
    - intros k Hk. rewrite Z.add_0_l.
      destruct (lookup_lt_is_Some_2 (a_dims T) k) as [d Hdk]; [done|].
      erewrite bind_done by (by apply aget_nat).
      assert (sz !! k = Some (to_int d)) as Hsk by (unfold sz; by rewrite list_lookup_fmap, Hdk, to_int_eq).
      rewrite (take_S_r _ _ _ Hsk).
      unfold zeros, ones. rewrite !replicate_S_end. done. }
  reflexivity.
Qed.
Lemma s3_wf : wf s3.
Proof using Hwf. by repeat apply wf_alloc. Qed.
Lemma s3_holds : holds (heap s3) p T.
Proof using Hwf HT.
  eapply holds_mono; [|exact HT]. etrans; [by apply st_alloc_sub|]. etrans; [apply st_alloc_sub; by apply wf_alloc|].
  apply st_alloc_sub. by repeat apply wf_alloc.
Qed.
Lemma dup_scalar : a_dims T = [] -> aitisa_duplicate (HPtr p) o E s = UB UB_oob.
Proof using All.
  intros Hd. rewrite dup_enter. apply bind_UB. eapply slice_scalar; [apply s3_wf|done|done|apply s3_holds|done].
Qed.
Lemma dup_too_big : a_dims T <> [] -> slice_ok (a_dims T) (zeros n) sz (ones n) -> INT_MAX < prodZ (slice_dims sz (ones n)) ->
  aitisa_duplicate (HPtr p) o E s = UB UB_overflow.
Proof using All.
  intros Hd Hok Hbig. rewrite dup_enter. apply bind_UB. by eapply slice_too_big; [apply s3_wf|done|done|apply s3_holds|done..].
Qed.
Lemma dup_reject : ~ slice_ok (a_dims T) (zeros n) sz (ones n) ->
  exists s', aitisa_duplicate (HPtr p) o E s = Done (INVALID_ARGUMENT, o) s' /\ heap s' = heap s.
Proof using All.
  intros Hno. rewrite dup_enter.
  erewrite bind_done.
  2:{ apply (slice_reject p T).
    - apply s3_holds.
    - apply replicate_length.
    - unfold sz. by rewrite fmap_length.
    - apply replicate_length.
    - apply Forall_replicate. llia.
    - apply Forall_replicate. llia.
    - unfold zeros, n, sz. generalize (a_dims T). intros l. induction l as [|d l IH]; cbn; constructor; [|exact IH].
      pose proof (int32_range d). lia.
    - done. }
  assert (wp (after_slice (INVALID_ARGUMENT, HUndef)) E s3 (fun r s' => r = (INVALID_ARGUMENT, o) /\ heap s' = heap s)) as Hw.
  2:{ apply wp_elim in Hw as (r & s' & Hr & -> & Hh). eauto. }
  unfold after_slice. rewrite bool_decide_eq_false_2 by done.
  set (b1 := ctr s). set (b2 := S b1). set (b3 := S b2).
  assert (b1 <> b2 /\ b1 <> b3 /\ b2 <> b3) as (Hb12 & Hb13 & Hb23) by lia.
  assert (heap s3 = <[b3:=x1]> (<[b2:=x1]> (<[b1:=x1]> (heap s)))) as Hh3 by done.
  assert (forall b, (b1 <= b)%nat -> heap s !! b = None) as Hfr.
  { intros b Hb. by apply wf_fresh. }
  eapply wp_free; [done|rewrite Hh3; lkup; done|done|].
  eapply wp_free; [done|cbn [st_free heap]; rewrite lookup_delete_ne by done; rewrite Hh3; lkup; done|done|].
  eapply wp_free; [done|cbn [st_free heap]; rewrite !lookup_delete_ne by done; rewrite Hh3; lkup; done|done|].
  apply wp_ret. split; [done|]. cbn [st_free heap]. rewrite Hh3.
  rewrite (delete_insert_ne _ b1 b3), (delete_insert_ne _ b1 b2) by done.
  rewrite (delete_insert (heap s) b1) by (apply Hfr; lia).
  rewrite (delete_insert_ne _ b2 b3) by done.
  rewrite (delete_insert (heap s) b2) by (apply Hfr; lia).
  rewrite (delete_insert (heap s) b3) by (apply Hfr; lia). done.
Qed.
End dup.

(** ** In terms of the specification *)
Definition fit (d : Z) : Prop := d <> 0 /\ 0 <= int32 d.
Lemma dup_slice_ok ds : Forall (fun d => 0 <= d) ds ->
  slice_ok ds (zeros (length ds)) (int32 <$> ds) (ones (length ds)) <-> Forall fit ds.
Proof.
  intros Hn. induction Hn as [|d ds Hd Hn IH]; [by split|]. cbn [slice_ok length zeros replicate ones fmap list_fmap].
  change (list_fmap Z Z int32 ds) with (int32 <$> ds). fold (zeros (length ds)) (ones (length ds)).
  rewrite IH, Forall_cons. pose proof (int32_range d). pose proof (int32_le d). unfold fit, INT_MAX in *. split.
  - intros [H1 H2]. split; [lia|done].
  - intros [H1 H2]. split; [lia|done].
Qed.
Lemma cdiv_1 z : cdiv z 1 = z.
Proof. unfold cdiv. rewrite Z.div_1_r. lia. Qed.
Lemma dup_slice_dims ds : slice_dims (int32 <$> ds) (ones (length ds)) = filter (fun k => k <> 0) (int32 <$> ds).
Proof.
  induction ds as [|d ds IH]; [done|]. cbn [slice_dims length ones replicate fmap list_fmap].
  change (list_fmap Z Z int32 ds) with (int32 <$> ds). fold (ones (length ds)). rewrite IH.
  destruct (Z.eqb_spec (int32 d) 0) as [->|H].
  - by rewrite filter_cons_False by (intros ?; done).
  - rewrite filter_cons_True by done. by rewrite cdiv_1.
Qed.
Lemma dup_slice_src ds : forall c, slice_src (zeros (length ds)) (int32 <$> ds) (ones (length ds)) c = spread ds c.
Proof.
  induction ds as [|d ds IH]; intros c; [done|]. cbn [slice_src length zeros ones replicate fmap list_fmap spread].
  change (list_fmap Z Z int32 ds) with (int32 <$> ds). fold (zeros (length ds)) (ones (length ds)).
  destruct (int32 d =? 0); [by rewrite IH|]. destruct c as [|i c]; [done|]. rewrite IH. f_equal. lia.
Qed.
Lemma dup_all p T o E s : wf s -> alloc_all E -> hooks_ok E -> holds (heap s) p T ->
  let kept := filter (fun k => k <> 0) (int32 <$> a_dims T) in
  (a_dims T = [] -> aitisa_duplicate (HPtr p) o E s = UB UB_oob) /\
  ((exists d, d ∈ a_dims T /\ (d = 0 \/ int32 d < 0)) ->
     exists s', aitisa_duplicate (HPtr p) o E s = Done (INVALID_ARGUMENT, o) s' /\ heap s' = heap s) /\
  (a_dims T <> [] -> (forall d, d ∈ a_dims T -> d <> 0 /\ 0 <= int32 d) -> prodZ kept <= INT_MAX ->
     makes (aitisa_duplicate (HPtr p) o) E s (AT (a_type T) (a_dev T) kept (tab kept (fun c => at_ T (spread (a_dims T) c))))) /\
  (a_dims T <> [] -> (forall d, d ∈ a_dims T -> d <> 0 /\ 0 <= int32 d) -> INT_MAX < prodZ kept ->
     aitisa_duplicate (HPtr p) o E s = UB UB_overflow).
Proof.
  intros Hwf HA HE HT kept.
  pose proof (proj1 (valid_fits _ (holds_valid _ _ _ HT))) as Hnn.
  pose proof (dup_slice_ok _ Hnn) as Hok. pose proof (dup_slice_dims (a_dims T)) as Hds.
  split_and!.
  - by apply dup_scalar.
  - intros (d & Hd & Hbad). apply (dup_reject p T o E s Hwf HA HE HT). rewrite Hok. intros Hf.
    eapply Forall_forall in Hf; [|exact Hd]. destruct Hf. lia.
  - intros Hne Hf Hmax. unfold kept in *. rewrite <-Hds in Hmax.
    pose proof (duplicate_gen p T o E s) as H. cbv zeta in H.
    assert (to_int <$> a_dims T = int32 <$> a_dims T) as Heq by (apply list_fmap_ext; intros; apply to_int_eq).
    rewrite Heq in H. specialize (H Hwf HA HE HT Hne).
    rewrite Hds in H, Hmax. replace (tab _ (fun c => at_ T (spread (a_dims T) c))) with
      (tab (filter (fun k => k <> 0) (int32 <$> a_dims T)) (fun c => at_ T (slice_src (zeros (length (a_dims T))) (int32 <$> a_dims T) (ones (length (a_dims T))) c))).
    + apply H; [|done]. apply Hok. by apply Forall_forall.
    + unfold tab. apply list_fmap_ext. intros i z _. by rewrite dup_slice_src.
  - intros Hne Hf Hbig. apply (dup_too_big p T); try done.
    + apply Hok. by apply Forall_forall.
    + by rewrite Hds.
Qed.
