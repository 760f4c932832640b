(** * ProofSoftmax3: softmax of every tensor, defined or not *)
From stdpp Require Import gmap list.
From Coq Require Import ZArith Lia Floats.SpecFloat.
From Coq Require Import ZifyBool ZifyNat.
From Verif Require Import Base Mem Spec SpecReal SpecNN ModelCore ModelBasic ModelMath ModelNN Logic
  ProofCore ProofCore2 ProofCore3 ProofIndex ProofKernel ProofKernel2 ProofBasic ProofSlice ProofFrame ProofMatmul
  ProofExact ProofBatch ProofDot7 ProofSoftmax ProofSoftmax2.
Open Scope Z_scope.

Ltac Zify.zify_post_hook ::= Z.div_mod_to_equations.

Lemma softmax_output_done p T o E s :
  wf s -> alloc_all E -> holds (heap s) p T ->
  exists s' q pd pm ps px, softmax_create_output (HPtr p) o E s = Done (SUCCESS, HPtr q) s' /\
     tnew (e_alloc E) (ctr s) (heap s) s' q pd pm ps px (dtype_of (a_type T)) (a_dev T) (a_dims T)
       (cells (a_type T) (replicate (Z.to_nat (prodZ (a_dims T))) VU)).
Proof.
  intros Hwf HA HT. pose proof HT as (HvT & bx & tg & ex & Hv & Hx).
  destruct (create_done (a_type T) (a_dev T) (a_dims T) HUndef E s Hwf HA (valid_fits _ HvT))
    as (s' & q & pd & pm & ps & px & Hc & Ht & Hr).
  exists s', q, pd, pm, ps, px. split; [|done]. unfold softmax_create_output.
  erewrite bind_done by (by eapply tensor_dims_ok).
  erewrite bind_done by (by eapply tensor_ndim_ok).
  erewrite bind_done by (by eapply tensor_dtype_ok).
  erewrite bind_done by (by eapply tensor_device_ok). done.
Qed.

(** ** All elements as one lane *)
Lemma softmax_all_stuck p T o E s :
  wf s -> alloc_all E -> holds (heap s) p T -> init T ->
  softmax_lane (e_exp E) (a_type T) (a_vals T) = None ->
  aitisa_softmax (HPtr p) (-1) o E s = UB UB_fconv.
Proof.
  intros Hwf HAl HT Hin Hws. unfold aitisa_softmax.
  destruct (softmax_output_done p T o E s Hwf HAl HT) as (s1 & q & pd & pm & ps & px & Hc & Ht).
  pose proof HT as (HvT & bx & tg & ex & Hv & Hx).
  pose proof (valid_len _ HvT) as Hlen. pose proof (valid_fits _ HvT) as Hfit.
  pose proof (fits_bytes _ _ Hfit) as Hby. pose proof (tsz_pos (a_type T)) as Hsz.
  eapply ub_step; [by eapply tensor_ndim_ok|].
  replace ((-1 <? -1) || (Z.of_nat (length (a_dims T)) - 1 <? -1)) with false by lia.
  eapply ub_step; [exact Hc|]. cbv beta match. rewrite bool_decide_eq_true_2 by done. cbn [negb].
  change (-1 =? -1) with true. cbv match.
  pose proof (view_mono _ _ _ _ _ _ _ _ (tnew_base _ _ Ht) Hv) as Hv1.
  unfold softmax_with_all. apply bind_UB.
  eapply ub_step; [by eapply tensor_dtype_ok|]. rewrite dispatch_all_t.
  eapply ub_step; [by eapply tensor_data_ok|].
  eapply ub_step; [by eapply tensor_data_ok, tnew_view|].
  eapply ub_step; [by eapply tensor_size_ok|].
  eapply (softmax_both_stuck Hx s1 _ 0 1 (a_vals T)); [exact Ht|lia|lia| | | |exact Hin|exact Hws].
  - intros j Hj. rewrite replicate_length. lia.
  - llia || nia.
  - intros j x Hj. by replace (0 + j * 1)%nat with j by lia.
Qed.

Lemma softmax_all_exact p T o E s :
  wf s -> alloc_all E -> holds (heap s) p T -> init T ->
  match softmax_lane (e_exp E) (a_type T) (a_vals T) with
  | Some ws => makes (aitisa_softmax (HPtr p) (-1) o) E s (AT (a_type T) (a_dev T) (a_dims T) ws)
  | None => aitisa_softmax (HPtr p) (-1) o E s = UB UB_fconv
  end.
Proof.
  intros Hwf HA HT Hin. destruct (softmax_lane _ _ _) as [ws|] eqn:Hl.
  - by apply softmax_all_rule.
  - by eapply softmax_all_stuck.
Qed.

(** ** Lanes along an axis *)
Lemma lane_split T a d c1 c2 : a_dims T !! a = Some d -> length c1 = a ->
  forall j, lane T a (c1 ++ j :: c2) = (fun i => at_ T (c1 ++ Z.of_nat i :: c2)) <$> seq 0 (Z.to_nat d).
Proof.
  intros Ha Lc1 j. unfold lane. rewrite Ha. cbn [default]. apply list_fmap_ext. intros i x Hi.
  f_equal. rewrite insert_app_r_alt by lia. rewrite Lc1, Nat.sub_diag. done.
Qed.

Lemma softmax_axis_stuck p T a d c o E s :
  wf s -> alloc_all E -> holds (heap s) p T -> init T ->
  Forall (fun d => 0 < d) (a_dims T) -> 2 * prodZ (a_dims T) <= INT64_MAX ->
  a_dims T !! a = Some d ->
  in_box (a_dims T) c -> softmax_lane (e_exp E) (a_type T) (lane T a c) = None ->
  aitisa_softmax (HPtr p) (Z.of_nat a) o E s = UB UB_fconv.
Proof.
  intros Hwf HAl HT Hin Hpos Hmax Ha Hc Hcn.
  destruct (softmax_output_done p T o E s Hwf HAl HT) as (s1 & q & pd & pm & ps & px & Hcr & Ht).
  unfold aitisa_softmax.
  pose proof HT as (HvT & bx & tg & ex & Hv & Hx).
  pose proof (valid_len _ HvT) as Hlen. pose proof (valid_fits _ HvT) as Hfit.
  pose proof (fits_len _ _ Hfit) as Hndim.
  apply lookup_lt_Some in Ha as Hal.
  set (f := fun c => default VU (default [] (softmax_lane (e_exp E) (a_type T) (lane T a c)) !! Z.to_nat (default 0 (c !! a)))).
  set (ws := tab (a_dims T) f).
  assert (a_dims T = take a (a_dims T) ++ d :: drop (S a) (a_dims T)) as D.
  { by rewrite take_drop_middle. }
  set (b1 := take a (a_dims T)) in *. set (b2 := drop (S a) (a_dims T)) in *.
  assert (length b1 = a) as Lb1 by (unfold b1; rewrite take_length; lia).
  assert (drop (S a) (a_dims T) = b2) as Eb2 by done. clearbody b1 b2.
  pose proof Hpos as Hp. rewrite D in Hp. apply Forall_app in Hp as [Hp1 Hp2].
  apply Forall_cons in Hp2 as [Hd0 Hp2].
  pose proof (prodZ_pos _ Hp1) as P1. pose proof (prodZ_pos _ Hp2) as P2.
  (* the lane of index k, and the first bad one *)
  set (L := fun K : Z => (fun i => at_ T (unravel b1 (K / prodZ b2) ++ Z.of_nat i :: unravel b2 (K mod prodZ b2))) <$> seq 0 (Z.to_nat d)).
  destruct (first_index (fun k => match softmax_lane (e_exp E) (a_type T) (L (Z.of_nat k)) with None => true | Some _ => false end)
    (Z.to_nat (prodZ b1 * prodZ b2))) as [Hall|(K0 & HK0 & Hbad & Hbefore)].
  { exfalso. rewrite D in Hc. apply Forall2_app_inv_l in Hc as (c1 & c2' & Hc1 & Hc2 & ->).
    apply Forall2_cons_inv_l in Hc2 as (j & c2 & Hj & Hc2 & ->).
    pose proof (in_box_length _ _ Hc1) as Lc1.
    rewrite (lane_split T a d) in Hcn by (done || lia).
    pose proof (ravel_bound _ _ Hc1) as R1. pose proof (ravel_bound _ _ Hc2) as R2.
    specialize (Hall (Z.to_nat (ravel b1 c1 * prodZ b2 + ravel b2 c2)) ltac:(nia)). cbv beta in Hall.
    rewrite Z2Nat.id in Hall by nia. unfold L in Hall.
    rewrite Z.div_add_l, Z.div_small, Z.add_0_r in Hall by lia.
    rewrite (Z.add_comm (_ * _)), Z.mod_add, Z.mod_small in Hall by lia.
    rewrite !unravel_ravel in Hall by done. by rewrite Hcn in Hall. }
  cbv beta in Hbad.
  eapply ub_step; [by eapply tensor_ndim_ok|].
  replace ((Z.of_nat a <? -1) || (Z.of_nat (length (a_dims T)) - 1 <? Z.of_nat a)) with false by lia.
  eapply ub_step; [exact Hcr|]. cbv beta match. rewrite bool_decide_eq_true_2 by done. cbn [negb].
  replace (Z.of_nat a =? -1) with false by lia. cbv match.
  pose proof (view_mono _ _ _ _ _ _ _ _ (tnew_base _ _ Ht) Hv) as Hv1.
  unfold softmax_along_axis. apply bind_UB.
  eapply ub_step; [by eapply tensor_dims_ok|].
  eapply ub_step; [by eapply tensor_ndim_ok|].
  eapply ub_step.
  { rewrite D, <-Lb1. apply batch_loop; rewrite <-D; [done|llia]. }
  eapply ub_scr; [done|llia|exact Ht|apply frame_nil|]. intros c1 h1 s2 Ht2 HF2 Hr2 Hs2.
  eapply ub_scr; [done|llia|exact Ht2|exact HF2|]. intros c2 h2 s3 Ht3 HF3 Hr3 Hs3.
  cbn [is_null orb].
  eapply ub_step.
  { apply row_offsets_ok; [done|lia|]. intros k. by eapply (fits_drop (tsz_pos (a_type T))). }
  eapply ub_step.
  { apply aget_nat. by apply suffs_lookup. }
  rewrite Eb2.
  pose proof (frame_sub _ _ HF3) as Hsub3.
  assert (heap s ⊆ heap s3) as Hss by (etrans; [exact Hsub3|by eapply tnew_base]).
  pose proof (view_mono _ _ _ _ _ _ _ _ Hss Hv) as Hv3.
  eapply ub_step; [by eapply tensor_dtype_ok|]. rewrite dispatch_all_t.
  unfold softmax_axis_kernel.
  pose proof (lookup_weaken _ _ _ _ Hx Hsub3) as Hx3.
  apply bind_UB. apply bind_UB.
  eapply ub_step; [by eapply tensor_data_ok|].
  eapply ub_step; [by eapply tensor_data_ok, tnew_view|].
  apply bind_UB.
  assert (Z.of_nat (length ws) = prodZ (a_dims T)) as Lws.
  { unfold ws. rewrite tab_length. pose proof (prodZ_pos _ Hpos). lia. }
  assert (forall h l, 0 <= h < prodZ b1 -> 0 <= l < prodZ b2 -> L (h * prodZ b2 + l) =
    (fun i => at_ T (unravel b1 h ++ Z.of_nat i :: unravel b2 l)) <$> seq 0 (Z.to_nat d)) as HLhl.
  { intros h l Hh Hl. unfold L. rewrite Z.div_add_l, Z.div_small, Z.add_0_r by lia.
    rewrite (Z.add_comm (_ * _)), Z.mod_add, Z.mod_small by lia. done. }
  assert (forall h l j, 0 <= h < prodZ b1 -> 0 <= l < prodZ b2 -> 0 <= j < d ->
    in_box (a_dims T) (unravel b1 h ++ j :: unravel b2 l)) as HB.
  { intros h l j Hh Hl Hj. rewrite D. apply Forall2_app; [by apply unravel_in_box|]. constructor; [done|by apply unravel_in_box]. }
  assert (forall h l j, 0 <= h < prodZ b1 -> 0 <= l < prodZ b2 -> 0 <= j < d ->
    ravel (a_dims T) (unravel b1 h ++ j :: unravel b2 l) = (h * d + j) * prodZ b2 + l) as HR.
  { intros h l j Hh Hl Hj. rewrite D, ravel_app by (rewrite unravel_length; lia). cbn [ravel].
    rewrite !ravel_unravel by done. rewrite prodZ_cons. ring. }
  assert (forall h l j, 0 <= h < prodZ b1 -> 0 <= l < prodZ b2 -> 0 <= j < d ->
    a_vals T !! Z.to_nat ((h * d + j) * prodZ b2 + l) = L (h * prodZ b2 + l) !! Z.to_nat j) as HV.
  { intros h l j Hh Hl Hj. rewrite HLhl, <-HR by done.
    pose proof (ravel_bound _ _ (HB h l j Hh Hl Hj)) as Hrb.
    rewrite list_lookup_fmap, lookup_seq_lt by lia. cbn [fmap option_fmap option_map].
    rewrite Nat.add_0_l, Z2Nat.id by lia. unfold at_.
    destruct (lookup_lt_is_Some_2 (a_vals T) (Z.to_nat (ravel (a_dims T) (unravel b1 h ++ j :: unravel b2 l)))) as [v ->]; [lia|].
    done. }
  rewrite <-Lb1. rewrite D. rewrite D in Ht3.
  eapply (softmax_lanes_stuck b1 d b2 (ws := ws) Hx3 Hd0 Hp1 Hp2) with (K0 := K0);
    [by rewrite <-D|by rewrite <-D|done| | | |done|done].
  - intros h l Hh Hl HK. exists (L (h * prodZ b2 + l)).
    specialize (Hbefore (Z.to_nat (h * prodZ b2 + l)) ltac:(nia)). cbv beta in Hbefore.
    rewrite Z2Nat.id in Hbefore by nia.
    destruct (softmax_lane (e_exp E) (a_type T) (L (h * prodZ b2 + l))) as [ys|] eqn:Hys; [|done].
    exists ys. split; [done|]. split; [rewrite HLhl, fmap_length, seq_length by done; lia|].
    intros j Hj. split; [by apply HV|].
    pose proof (HB h l j Hh Hl Hj) as Hbox. pose proof (ravel_bound _ _ Hbox) as Hrb.
    rewrite HR in Hrb by done. rewrite <-HR by done.
    assert (length ys = Z.to_nat d) as Ly.
    { unfold softmax_lane in Hys. destruct (mapM _ (L _)) as [es|] eqn:M1; [|done]. cbn in Hys.
      destruct (mapM _ es) as [ds|] eqn:M2; [|done]. cbn in Hys.
      apply mapM_length in M1, M2, Hys. rewrite HLhl, fmap_length, seq_length in M1 by done. lia. }
    assert (f (unravel b1 h ++ j :: unravel b2 l) = default VU (ys !! Z.to_nat j)) as Hf.
    { unfold f. rewrite (lane_split T a d) by (done || (rewrite unravel_length; lia)).
      rewrite <-HLhl, Hys by done. cbn [default]. rewrite list_lookup_middle by (rewrite unravel_length; lia). done. }
    assert (at_ (AT (a_type T) (a_dev T) (a_dims T) ws) (unravel b1 h ++ j :: unravel b2 l) = default VU (ys !! Z.to_nat j)) as Hat.
    { unfold ws. by rewrite at_tab. }
    unfold at_ in Hat. cbn [a_vals a_dims] in Hat.
    destruct (lookup_lt_is_Some_2 ys (Z.to_nat j)) as [y Hy]; [lia|]. rewrite Hy in Hat |- *.
    destruct (lookup_lt_is_Some_2 ws (Z.to_nat (ravel (a_dims T) (unravel b1 h ++ j :: unravel b2 l)))) as [w Hw];
      [rewrite HR by done; lia|].
    rewrite Hw in Hat |- *. cbn in Hat. by f_equal.
  - intros h l Hh Hl HK. exists (L (h * prodZ b2 + l)). split.
    { rewrite HK. revert Hbad. by destruct (softmax_lane _ _ (L (Z.of_nat K0))). }
    split; [|split; [rewrite HLhl, fmap_length, seq_length by done; lia|by intros; apply HV]].
    rewrite HLhl, <-(lane_split T a d (unravel b1 h) (unravel b2 l) Ha ltac:(rewrite unravel_length; lia) 0) by done.
    apply (lane_init T a _ d); [done|done|done|]. apply HB; lia || done.
  - replace (imap _ ws) with (replicate (Z.to_nat (prodZ (b1 ++ d :: b2))) VU); [exact Ht3|].
    rewrite <-D. replace (Z.to_nat (prodZ (a_dims T))) with (length ws) by lia.
    rewrite <-(const_fmap (fun _ => VU)) by done. rewrite <-imap_const. apply imap_ext.
    intros i w Hw. cbv beta. replace (_ <? _) with false; [done|].
    symmetry. apply Z.ltb_ge. unfold lane_of.
    pose proof (Z.mod_pos_bound (Z.of_nat i) (prodZ b2) ltac:(lia)).
    assert (0 <= Z.of_nat i / (d * prodZ b2)) by (apply Z.div_pos; nia). nia.
Qed.

Lemma softmax_axis_defined p T a d o E s :
  wf s -> alloc_all E -> hooks_ok E -> holds (heap s) p T -> init T ->
  Forall (fun d => 0 < d) (a_dims T) -> 2 * prodZ (a_dims T) <= INT64_MAX ->
  a_dims T !! a = Some d ->
  (forall c, in_box (a_dims T) c -> softmax_lane (e_exp E) (a_type T) (lane T a c) <> None) ->
  exists T3,
    a_type T3 = a_type T /\ a_dev T3 = a_dev T /\ a_dims T3 = a_dims T /\
    (forall c j, in_box (a_dims T) c -> c !! a = Some j ->
     exists ys, softmax_lane (e_exp E) (a_type T) (lane T a c) = Some ys /\
       ys !! Z.to_nat j = Some (at_ T3 c)) /\
  makes (aitisa_softmax (HPtr p) (Z.of_nat a) o) E s T3.
Proof.
  intros Hwf HA HE HT Hin Hpos Hmax Ha Hall. pose proof HT as [HvT _].
  set (f := fun c => default VU (default [] (softmax_lane (e_exp E) (a_type T) (lane T a c)) !! Z.to_nat (default 0 (c !! a)))).
  exists (AT (a_type T) (a_dev T) (a_dims T) (tab (a_dims T) f)).
  assert (forall c j, in_box (a_dims T) c -> c !! a = Some j ->
     exists ys, softmax_lane (e_exp E) (a_type T) (lane T a c) = Some ys /\
       ys !! Z.to_nat j = Some (at_ (AT (a_type T) (a_dev T) (a_dims T) (tab (a_dims T) f)) c)) as Hspec.
  { intros c j Hc Hj. specialize (Hall c Hc).
    destruct (softmax_lane (e_exp E) (a_type T) (lane T a c)) as [ys|] eqn:Hys; [|done].
    exists ys. split; [done|]. rewrite at_tab by done. unfold f. rewrite Hys, Hj. cbn [default].
    assert (length ys = Z.to_nat d) as Ly.
    { unfold softmax_lane in Hys. destruct (mapM _ (lane _ _ _)) as [es|] eqn:M1; [|done]. cbn in Hys.
      destruct (mapM _ es) as [ds|] eqn:M2; [|done]. cbn in Hys.
      apply mapM_length in M1, M2, Hys. rewrite (lane_length T a c d Ha) in M1. lia. }
    pose proof (Forall2_lookup_lr _ _ _ _ _ _ Hc Ha Hj) as Hjd. cbv beta in Hjd.
    destruct (lookup_lt_is_Some_2 ys (Z.to_nat j)) as [y Hy]; [lia|]. unfold default, from_option, id. by rewrite Hy. }
  split_and!; [done..|]. eapply softmax_axis_rule; try done. apply tab_valid. apply HvT.
Qed.
