(** * ProofSlice2: every request that aitisa_slice does not serve *)
From stdpp Require Import gmap list.
From Coq Require Import ZArith Lia.
From Coq Require Import ZifyBool ZifyNat.
From Verif Require Import Base Mem Spec SpecSlice ModelCore ModelBasic Logic ProofCore ProofCore2 ProofKernel
  ProofBasic ProofSqueeze ProofIndex ProofKernel2 ProofFloat ProofSlice ProofMath ProofExact.
Open Scope Z_scope.

(** ** The first axis that is not in order *)
Lemma slice_first p T bs ss ts o E s j d b z t :
  holds (heap s) p T ->
  a_dims T !! j = Some d -> bs !! j = Some b -> ss !! j = Some z -> ts !! j = Some t ->
  (forall i, (i < j)%nat -> exists d b z t, a_dims T !! i = Some d /\ bs !! i = Some b /\ ss !! i = Some z /\ ts !! i = Some t /\
     axis_fine d b z t) ->
  INT_MIN <= b -> ~ axis_fine d b z t ->
  aitisa_slice (HPtr p) bs ss ts o E s
  = if decide (0 <= z /\ INT_MAX < b + z) then UB UB_overflow else Done (INVALID_ARGUMENT, o) s.
Proof.
  intros (HvT & bx & tg & ex & Hv & Hx) Hd Hb Hz Ht Hbefore Hbi Hbad.
  unfold aitisa_slice, slice_check_parameters.
  assert (forall (m : M status) k, (m E s = if decide (0 <= z /\ INT_MAX < b + z) then UB UB_overflow else Done INVALID_ARGUMENT s) ->
    (forall s, k INVALID_ARGUMENT E s = Done (INVALID_ARGUMENT, o) s) ->
    bind m k E s = if decide (0 <= z /\ INT_MAX < b + z) then UB UB_overflow else Done (INVALID_ARGUMENT, o) s) as Hb0.
  { intros m k H1 H2. unfold bind. rewrite H1. by case_decide. }
  apply Hb0; [|done]. clear Hb0.
  erewrite bind_done by (by eapply tensor_ndim_ok).
  erewrite bind_done by (by eapply tensor_dims_ok).
  rewrite Nat2Z.id.
  set (body := fun (i : Z) (_ : unit) => _ : M (ctl unit status)).
  assert (forall i, (i < j)%nat -> body (0 + Z.of_nat i) tt E s = Done (Next tt) s) as Hstep.
  { intros i Hi. destruct (Hbefore i Hi) as (d' & b' & z' & t' & Hd' & Hb' & Hz' & Ht' & (F1 & F2 & F3 & F4 & F5)).
    unfold body. rewrite Z.add_0_l.
    erewrite bind_done by (by apply aget_nat). erewrite bind_done by (by apply aget_nat). erewrite bind_done by (by apply aget_nat).
    erewrite (bind_done _ _ _ _ false s).
    2:{ destruct (Z.ltb_spec z' 0); [lia|]. erewrite bind_done by (apply ck32_ok; llia). unfold ret. f_equal. lia. }
    erewrite bind_done by (by apply aget_nat). cbv zeta.
    by replace ((b' <? 0) || (d' <=? b') || false || (t' <? 1)) with false by lia. }
  assert (body (0 + Z.of_nat j) tt E s = if decide (0 <= z /\ INT_MAX < b + z) then UB UB_overflow else Done (Return INVALID_ARGUMENT) s) as Hlast.
  { unfold body. rewrite Z.add_0_l.
    erewrite bind_done by (by apply aget_nat). erewrite bind_done by (by apply aget_nat). erewrite bind_done by (by apply aget_nat).
    case_decide as Hc.
    - apply bind_UB. destruct (Z.ltb_spec z 0); [lia|]. apply bind_UB. unfold ck32.
      replace ((INT_MIN <=? b + z) && (b + z <=? INT_MAX)) with false by lia. done.
    - erewrite (bind_done _ _ _ _ ((z <? 0) || (d <? b + z)) s).
      2:{ destruct (Z.ltb_spec z 0); [done|]. erewrite bind_done by (apply ck32_ok; lia). done. }
      erewrite bind_done by (by apply aget_nat). cbv zeta. unfold axis_fine in Hbad.
      by replace ((b <? 0) || (d <=? b) || ((z <? 0) || (d <? b + z)) || (t <? 1)) with true by lia. }
  pose proof (lookup_lt_Some _ _ _ Hd) as Hj.
  case_decide as Hc.
  - apply bind_UB. clear -Hstep Hlast Hj. revert Hstep Hlast Hj. generalize (length (a_dims T)) 0. clear.
    induction j as [|j IH]; intros n i0 Hstep Hlast Hj; (destruct n as [|n]; [lia|]); cbn [iter_ret].
    + apply bind_UB. by rewrite Z.add_0_r in Hlast.
    + pose proof (Hstep O ltac:(lia)) as H0. rewrite Z.add_0_r in H0. erewrite bind_done by exact H0. cbv match.
      apply IH; [|by replace (i0 + 1 + Z.of_nat j) with (i0 + Z.of_nat (S j)) by lia|lia].
      intros i Hi. replace (i0 + 1 + Z.of_nat i) with (i0 + Z.of_nat (S i)) by lia. apply Hstep. lia.
  - rewrite (bind_done _ _ _ _ (Return INVALID_ARGUMENT) s); [done|].
    by apply (iter_ret_exit (fun _ => tt) INVALID_ARGUMENT _ _ _ j).
Qed.

(** ** More than INT_MAX elements *)
Lemma fill32_acc_stuck {E : env} {tag lo : nat} {base : gmap nat block} {s : st} {p pd pm ps px : nat}
  {t : tcode} {dev : device} {dims : list Z} {A : Type}
  (n : nat) (f : nat -> val) (g : nat -> A) {hi : Z} {body : Z -> A -> M A} {B : Type} {x0 : A} {k0 : A -> M B} :
  let T s' vs := tnew tag lo base s' p pd pm ps px (dtype_of t) dev dims (cells t vs) in
  T s (replicate n VU) -> x0 = g 0%nat -> hi = Z.of_nat n -> INT_MAX < Z.of_nat n ->
  (forall k vs s', (k < n)%nat -> length vs = n -> T s' vs -> rpos s' = rpos s ->
     body (Z.of_nat k) (g k) E s' = Done (g (S k)) (upd s' px (Blk tag (CData (cells t (<[k := f k]> vs)))))) ->
  bind (for32 0 hi body x0) k0 E s = UB UB_overflow.
Proof.
  intros T H1 -> -> Hn H3. apply bind_UB. unfold for32. assert (0 <= INT_MAX) as Hi by done.
  apply (iter_ub (fun k x s' => x = g k /\ rpos s' = rpos s /\ T s' ((f <$> seq 0 k) ++ replicate (n - k) VU))
    _ _ _ _ _ _ (Z.to_nat INT_MAX)); [lia| | |].
  - split_and!; [done|done|]. cbn. by rewrite Nat.sub_0_r.
  - intros k x s' Hk (-> & Hr & HT). rewrite Z.add_0_l.
    eapply wp_step; [apply H3; [lia| |exact HT|done]|].
    + apply fill_length. lia.
    + apply wp_check; [lia|]. apply wp_ret. split_and!; [done|done|]. rewrite fill_step by lia. by eapply tnew_upd.
  - intros x s' (-> & Hr & HT). rewrite Z.add_0_l.
    erewrite bind_done by (apply H3; [lia| |exact HT|done]; apply fill_length; lia).
    rewrite Z2Nat.id by done. by rewrite Z.ltb_irrefl.
Qed.
Lemma scratch_run n E s : alloc_all E -> 0 <= n <= PTRDIFF_MAX ->
  scratch n E s = Done (HPtr (ctr s)) (st_alloc s (Blk (e_alloc E) (CRaw n))).
Proof. intros HA Hn. unfold scratch. destruct (raw_alloc_cases n CRaw E s Hn) as [Ha|[Hna _]]; [exact Ha|]. done. Qed.

Lemma slice_template_stuck p T bs ss ts q pd pm ps px lo E s base :
  alloc_all E -> holds base p T -> (0 < length (a_dims T))%nat ->
  slice_ok (a_dims T) bs ss ts -> INT_MAX < prodZ (slice_dims ss ts) ->
  tnew (e_alloc E) lo base s q pd pm ps px (dtype_of (a_type T)) (a_dev T)
     (slice_dims ss ts) (cells (a_type T) (replicate (Z.to_nat (prodZ (slice_dims ss ts))) VU)) ->
  slice_template (HPtr p) bs ss ts (HPtr q) E s = UB UB_overflow.
Proof.
  intros HA HT Hpos Hok Hmax Hn. unfold slice_template.
  pose proof HT as (HvT & bx & tg & ex & Hv & Hx).
  pose proof (valid_fits _ HvT) as Hfit. pose proof (fits_len _ _ Hfit) as Hlen.
  pose proof (slice_ok_len _ _ _ _ Hok) as (H1 & H2 & H3).
  pose proof (fits_size _ _ (tsz_pos _) Hfit) as Hsize.
  pose proof (slice_dims_pos _ _ _ _ Hok) as Hsp. apply prodZ_pos in Hsp as Hspp.
  pose proof (view_mono _ _ _ _ _ _ _ _ (tnew_base _ _ Hn) Hv) as Hv0.
  erewrite bind_done by (by eapply tensor_ndim_ok).
  erewrite bind_done by (by eapply tensor_dims_ok).
  erewrite bind_done by (apply scratch_run; [done|llia]). set (b1 := ctr s). set (x1 := Blk _ _). set (s1 := st_alloc s x1).
  erewrite bind_done by (apply scratch_run; [done|llia]). set (b2 := ctr s1). fold x1. set (s2 := st_alloc s1 x1).
  erewrite bind_done by (apply scratch_run; [done|llia]). set (b3 := ctr s2). fold x1. set (s3 := st_alloc s2 x1).
  cbn [is_null orb].
  apply tnew_alloc with (x := x1) in Hn as Hn1. fold s1 b1 in Hn1.
  apply tnew_alloc with (x := x1) in Hn1 as Hn2. fold s2 b2 in Hn2.
  apply tnew_alloc with (x := x1) in Hn2 as Hn3. fold s3 b3 in Hn3.
  erewrite bind_done.
  2:{ rewrite (for32_pure (fun k => (take k bs, take k (zip_with (fun b s => b + s - 1) bs ss)))
      _ _ _ (length (a_dims T))).
    - rewrite !take_ge by (rewrite ?zip_with_length; lia). reflexivity.
    - done.
    - lia.
    - done.
    - intros k Hk. rewrite Z.add_0_l.
      destruct (slice_ok_get _ _ _ _ k Hok Hk) as (d & b & sz & t & Hd & Hb & Hs & Ht & H).
      erewrite bind_done by (by apply aget_nat).
      erewrite bind_done by (by apply aget_nat).
      erewrite bind_done by (apply ck64_ok; llia).
      rewrite (take_S_r _ _ _ Hb).
      assert (zip_with (fun b s => b + s - 1) bs ss !! k = Some (b + sz - 1)) as Hz
        by (rewrite lookup_zip_with, Hb, Hs; done).
      rewrite (take_S_r _ _ _ Hz). done. }
  cbv beta match. unfold arr at 1. rewrite Nat2Z.id.
  rewrite <-bind_assoc. rewrite <-bind_assoc. erewrite bind_done.
  2:{ rewrite bind_assoc. apply offs_loop; [done|done|]. intros k. by eapply fits_drop; [apply tsz_pos|]. }
  assert (b1 <> b2 /\ b1 <> b3 /\ b2 <> b3 /\ b2 = S b1 /\ b3 = S (S b1)) as (Hb12 & Hb13 & Hb23 & Hb2 & Hb3).
  { unfold b3, b2, b1, s2, s1. cbn. lia. }
  assert (forall b, (b1 <= b)%nat -> base !! b = None) as Hfr.
  { intros b Hb. destruct (base !! b) eqn:Hbb; [|done].
    destruct Hn as (_ & _ & _ & _ & Hlt). specialize (Hlt b ltac:(eauto)). unfold b1 in Hb. lia. }
  assert (base ⊆ <[b3:=x1]> (<[b2:=x1]> (<[b1:=x1]> base))) as Hsub.
  { etrans; [|apply insert_subseteq; lkup; apply Hfr; lia].
    etrans; [|apply insert_subseteq; lkup; apply Hfr; lia].
    apply insert_subseteq. apply Hfr. lia. }
  pose proof (view_mono _ _ _ _ _ _ _ _ Hsub Hv) as Hvb.
  pose proof (view_mono _ _ _ _ _ _ _ _ (tnew_base _ _ Hn3) Hvb) as Hv3.
  erewrite bind_done by (by eapply tensor_dtype_ok). rewrite dispatch_all_t.
  apply bind_UB. unfold slice_kernel.
  erewrite bind_done by (by eapply tensor_data_ok).
  erewrite bind_done by (by eapply tensor_data_ok, tnew_view).
  erewrite bind_done by (by eapply tensor_size_ok, tnew_view).
  eapply (fill32_acc_stuck (Z.to_nat (prodZ (slice_dims ss ts)))
    (fun k => at_ T (slice_pos bs ts (unravel (slice_es ss ts) (Z.of_nat k))))
    (fun k => slice_pos bs ts (unravel (slice_es ss ts) (Z.of_nat k))));
    [exact Hn3| |lia|lia|].
  - assert (length (slice_es ss ts) = length bs) as Hle.
    { unfold slice_es, slice_ext. rewrite fmap_length, zip_with_length. lia. }
    clear -Hle H1 H3. assert (length ts = length bs) as Ht by lia. clear H1 H3. revert Hle Ht.
    generalize (slice_es ss ts). revert ts.
    induction bs as [|b bs IH]; intros [|t ts] [|e es] Hl Ht; try done.
    cbn. rewrite Zdiv_0_l, Zmod_0_l. f_equal; [lia|]. apply IH; cbn in *; lia.
  - intros k vs s' Hk Hvs Ht' Hr'.
    assert (in_box (a_dims T) (slice_pos bs ts (unravel (slice_es ss ts) (Z.of_nat k)))) as Hbox.
    { eapply slice_pos_in_box; [done|]. apply unravel_in_box. apply slice_es_pos. }
    pose proof (ravel_bound _ _ Hbox) as Hrb.
    erewrite bind_done by (apply linear_loop; [done|done|done|done|lia]).
    assert (exists v, a_vals T !! Z.to_nat (ravel (a_dims T) (slice_pos bs ts (unravel (slice_es ss ts) (Z.of_nat k)))) = Some v) as [v Hvk].
    { apply lookup_lt_is_Some_2. pose proof (valid_len _ HvT). lia. }
    erewrite bind_done.
    2:{ rewrite <-(Z2Nat.id (ravel _ _)) by lia. eapply loadi_cells; [|exact Hvk].
        eapply tnew_lookup; [exact Ht'|]. by eapply lookup_weaken. }
    unfold at_. rewrite Hvk. cbn [default].
    erewrite bind_done by (eapply tnew_storei; [exact Ht'|lia]).
    rewrite slice_advance_ok by done.
    by replace (Z.of_nat (S k)) with (Z.of_nat k + 1) by lia.
Qed.

Lemma slice_too_big p T bs ss ts o E s :
  wf s -> alloc_all E -> hooks_ok E -> holds (heap s) p T ->
  a_dims T <> [] -> slice_ok (a_dims T) bs ss ts -> INT_MAX < prodZ (slice_dims ss ts) ->
  aitisa_slice (HPtr p) bs ss ts o E s = UB UB_overflow.
Proof.
  intros Hwf HA HE HT Hne Hok Hbig. unfold aitisa_slice.
  pose proof HT as (HvT & bx & tg & ex & Hv & Hx).
  erewrite bind_done by (by eapply slice_check_ok).
  rewrite bool_decide_eq_true_2 by done. cbn [negb].
  assert (wp (slice_create_output (HPtr p) bs ss ts o) E s (fun r s' => exists q pd pm ps px, r = (SUCCESS, HPtr q) /\
    tnew (e_alloc E) (ctr s) (heap s) s' q pd pm ps px (dtype_of (a_type T)) (a_dev T)
       (slice_dims ss ts) (cells (a_type T) (replicate (Z.to_nat (prodZ (slice_dims ss ts))) VU)))) as Hw.
  { eapply slice_create_rule; [done..|]. intros s1 q pd pm ps px Ht Hr. by exists q, pd, pm, ps, px. }
  apply wp_elim in Hw as (r & s1 & Hrun & q & pd & pm & ps & px & -> & Ht).
  erewrite bind_done by exact Hrun. cbv beta match. rewrite bool_decide_eq_true_2 by done. cbn [negb].
  apply bind_UB. eapply slice_template_stuck; [done|exact HT| |done|done|exact Ht].
  destruct (a_dims T); [done|cbn; lia].
Qed.

(** ** Scalars *)
Lemma for32_nil {S} (body : Z -> S -> M S) x : for32 0 0 body x = ret x.
Proof. reflexivity. Qed.
Lemma slice_scalar p T bs ss ts o E s :
  wf s -> alloc_all E -> hooks_ok E -> holds (heap s) p T -> a_dims T = [] ->
  aitisa_slice (HPtr p) bs ss ts o E s = UB UB_oob.
Proof.
  intros Hwf HA HE HT Hd.
  pose proof HT as (HvT & bx & tg & ex & Hv & Hx). rewrite Hd in Hv.
  unfold aitisa_slice.
  assert (slice_check_parameters (HPtr p) bs ss ts E s = Done SUCCESS s) as Hchk.
  { unfold slice_check_parameters. erewrite bind_done by (by eapply tensor_ndim_ok).
    erewrite bind_done by (by eapply tensor_dims_ok). reflexivity. }
  erewrite bind_done by exact Hchk.
  rewrite bool_decide_eq_true_2 by done. cbn [negb].
  assert (wp (slice_create_output (HPtr p) [] [] [] o) E s (fun r s' => exists q pd pm ps px, r = (SUCCESS, HPtr q) /\
    tnew (e_alloc E) (ctr s) (heap s) s' q pd pm ps px (dtype_of (a_type T)) (a_dev T)
       (slice_dims [] []) (cells (a_type T) (replicate (Z.to_nat (prodZ (slice_dims [] []))) VU)))) as Hw.
  { eapply slice_create_rule; [done..|by rewrite Hd|]. intros s1 q pd pm ps px Ht Hr. by exists q, pd, pm, ps, px. }
  assert (slice_create_output (HPtr p) bs ss ts o E s = slice_create_output (HPtr p) [] [] [] o E s) as Heq.
  { unfold slice_create_output.
    erewrite !(bind_done (tensor_ndim (HPtr p))) by (by eapply tensor_ndim_ok). cbn [length Z.of_nat]. rewrite !for32_nil. reflexivity. }
  apply wp_elim in Hw as (r & s1 & Hrun & q & pd & pm & ps & px & -> & Ht). rewrite <-Heq in Hrun.
  erewrite bind_done by exact Hrun. cbv beta match. rewrite bool_decide_eq_true_2 by done. cbn [negb].
  apply bind_UB. unfold slice_template.
  pose proof (view_mono _ _ _ _ _ _ _ _ (tnew_base _ _ Ht) Hv) as Hv1.
  erewrite bind_done by (by eapply tensor_ndim_ok).
  erewrite bind_done by (by eapply tensor_dims_ok). cbn [length Z.of_nat].
  erewrite bind_done by (apply scratch_run; [done|llia]).
  erewrite bind_done by (apply scratch_run; [done|llia]).
  erewrite bind_done by (apply scratch_run; [done|llia]).
  cbn [is_null orb]. rewrite for32_nil. erewrite bind_done by reflexivity. cbv beta match. apply bind_UB. reflexivity.
Qed.
