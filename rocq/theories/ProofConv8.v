(** * ProofConv8: convolutions with two negative numbers of positions *)
From stdpp Require Import gmap list.
From Coq Require Import ZArith Lia Floats.SpecFloat.
From Coq Require Import ZifyBool ZifyNat.
From Verif Require Import Base Mem Spec SpecNN SpecConv ModelCore ModelBasic ModelMath ModelNN Logic
  ProofCore ProofCore2 ProofCore3 ProofIndex ProofLayout ProofKernel ProofKernel2 ProofBasic ProofBasic2 ProofSlice
  ProofFrame ProofMatmul ProofDot4 ProofSoftmax ProofFloat5 ProofWindow ProofPool ProofPool2 ProofConvWin ProofConv ProofConv2
  ProofConv3 ProofConv6.
Open Scope Z_scope.

(** ** Extents of any sign *)
Definition amax (l : list Z) : Z := prodZ (Z.max 1 <$> (Z.abs <$> l)).
Lemma amax_pos l : 0 < amax l.
Proof. apply prodZ_max_pos. Qed.
Lemma amax_abs l : Z.abs (prodZ l) <= amax l.
Proof.
  induction l as [|d l IH]; [unfold amax; rewrite prodZ_nil; done|]. unfold amax in *. cbn [fmap list_fmap]. rewrite !prodZ_cons, Z.abs_mul.
  apply Z.mul_le_mono_nonneg; lia.
Qed.
Lemma amax_app l k : amax (l ++ k) = amax l * amax k.
Proof. unfold amax. by rewrite !fmap_app, prodZ_app. Qed.
Lemma amax_take l k : amax (take k l) <= amax l.
Proof.
  rewrite <-(take_drop k l) at 2. rewrite amax_app. pose proof (amax_pos (take k l)). pose proof (amax_pos (drop k l)). nia.
Qed.
Lemma amax_drop l k : amax (drop k l) <= amax l.
Proof.
  rewrite <-(take_drop k l) at 2. rewrite amax_app. pose proof (amax_pos (take k l)). pose proof (amax_pos (drop k l)). nia.
Qed.
Lemma amax_cons d l : amax l <= amax (d :: l).
Proof. apply (amax_drop (d :: l) 1). Qed.
Lemma prodZ_drop_S l k d : l !! k = Some d -> prodZ (drop k l) = d * prodZ (drop (S k) l).
Proof. intros H. by rewrite (drop_S _ _ _ H), prodZ_cons. Qed.
Lemma prodZ_nonzero l : prodZ l <> 0 -> Forall (fun d => d <> 0) l.
Proof.
  induction l as [|d l IH]; [constructor|]. rewrite prodZ_cons. intros H. constructor; [lia|]. apply IH. lia.
Qed.
Lemma prodZ_drop_nonzero l k : prodZ l <> 0 -> prodZ (drop k l) <> 0.
Proof. rewrite <-(take_drop k l) at 1. rewrite prodZ_app. lia. Qed.

Section any.
Context {E : env} {s : st} {p : nat} {dt : dtype} {dev : device} {dims : list Z} {px : nat}
  (Hv : view (heap s) p dt dev dims (rowmajor (length dims)) px) (Hb : amax dims <= INT64_MAX)
  (Hlen : Z.of_nat (length dims) <= INT_MAX).

Lemma rowmajor_lookup n k : (k < n)%nat -> rowmajor n !! k = Some (Z.of_nat n - 1 - Z.of_nat k).
Proof using Type. intros H. unfold rowmajor. rewrite list_lookup_fmap, lookup_seq_lt by done. done. Qed.

Lemma strides_any buf : length buf = length dims ->
  exists r, aitisa_get_all_strides (HPtr p) buf E s = Done r s.
Proof using Hv Hb Hlen.
  intros Hl.
  assert (wp (aitisa_get_all_strides (HPtr p) buf) E s (fun _ s' => s' = s)) as Hw.
  2:{ apply wp_elim in Hw as (r & s' & Hr & ->). eauto. }
  unfold aitisa_get_all_strides.
  eapply wp_step; [by eapply tensor_ndim_ok|].
  eapply wp_step; [by eapply tensor_dims_ok|].
  eapply wp_step; [by eapply tensor_min2maj_ok|].
  apply wp_bind. eapply wp_mono.
  - apply (for32_rule (fun j r s' => s' = s /\ length r.1 = length dims /\
      r.2 = prodZ (drop (length dims - j) dims)) _ _ _ (length dims)).
    + lia.
    + done.
    + cbn. split_and!; [done|done|]. by rewrite Nat.sub_0_r, drop_all.
    + intros j [cs dv] s' Hj (-> & Hlc & Hdv). cbn [fst snd] in *. subst dv. rewrite Z.add_0_l.
      destruct (lookup_lt_is_Some_2 dims (length dims - S j)) as [d Hd]; [lia|].
      pose proof (prodZ_drop_S _ _ _ Hd) as Hp. replace (S (length dims - S j)) with (length dims - j)%nat in Hp by lia.
      eapply wp_step; [apply aget_nat; by apply rowmajor_lookup|].
      eapply wp_step; [apply aset_Z; lia|].
      eapply wp_step; [apply aget_Z; [lia|]; by replace (Z.to_nat (Z.of_nat (length dims) - 1 - Z.of_nat j)) with (length dims - S j)%nat by lia|].
      eapply wp_step.
      { apply ck64_ok. rewrite Z.mul_comm, <-Hp. pose proof (amax_abs (drop (length dims - S j) dims)).
        pose proof (amax_drop dims (length dims - S j)). llia. }
      apply wp_ret. cbn [fst snd]. split_and!; [done|by rewrite insert_length|lia].
  - intros [r1 r2] s' (-> & _). by apply wp_ret.
Qed.

Lemma first_coords : 0 < prodZ dims ->
  aitisa_linidx_to_coords (HPtr p) 0 (replicate (length dims) 0) E s = Done (replicate (length dims) 0) s.
Proof using Hv Hb Hlen.
  intros Hpos. unfold aitisa_linidx_to_coords.
  erewrite bind_done by (by eapply tensor_size_ok).
  erewrite bind_done by (by eapply tensor_ndim_ok).
  erewrite bind_done by (by eapply tensor_dims_ok).
  erewrite bind_done by (by apply assert_ok).
  erewrite bind_done by (apply assert_ok; lia).
  rewrite Nat2Z.id.
  erewrite bind_done.
  2:{ apply (iter_down_pure (fun k => (replicate (length dims) 0, prodZ (drop k dims)))); [by rewrite drop_all|].
      intros k Hk. destruct (lookup_lt_is_Some_2 dims k Hk) as [d Hd].
      pose proof (prodZ_drop_S _ _ _ Hd) as Hp.
      pose proof (prodZ_drop_nonzero dims k ltac:(lia)). pose proof (prodZ_drop_nonzero dims (S k) ltac:(lia)).
      assert (d <> 0) by lia.
      erewrite bind_done by (by apply aget_nat).
      erewrite bind_done.
      2:{ apply div64_ok; [done|]. rewrite Z.quot_0_l by done. llia. }
      rewrite Z.quot_0_l by done.
      erewrite bind_done.
      2:{ apply rem64_ok; [done|]. rewrite Z.quot_0_l by done. llia. }
      rewrite Z.rem_0_l by done.
      erewrite bind_done.
      2:{ apply aset_nat. by rewrite replicate_length. }
      erewrite bind_done.
      2:{ apply ck64_ok. rewrite Z.mul_comm, <-Hp. pose proof (amax_abs (drop k dims)). pose proof (amax_drop dims k). llia. }
      unfold ret. rewrite insert_replicate. f_equal. f_equal. lia. }
  done.
Qed.
End any.

Lemma size_from_dim_any nb nc sd n E s : amax sd <= INT64_MAX -> Z.of_nat (length sd) + 2 <= INT_MAX ->
  n = Z.of_nat (length sd) + 2 ->
  size_from_dim 2 (nb :: nc :: sd) n E s = Done (prodZ sd) s.
Proof.
  intros Hmax Hlen ->. unfold size_from_dim. rewrite to_int_id by llia.
  rewrite (for64_pure (fun k => prodZ (take k sd)) _ _ _ (length sd)).
  - by rewrite take_ge by lia.
  - by rewrite take_0, prodZ_nil.
  - lia.
  - intros k Hk. destruct (lookup_lt_is_Some_2 sd k Hk) as [d Hd].
    erewrite bind_done.
    2:{ apply aget_Z; [lia|]. replace (Z.to_nat (2 + Z.of_nat k)) with (S (S k)) by lia. exact Hd. }
    rewrite (prodZ_take_S _ _ _ Hd). apply ck64_ok. rewrite <-(prodZ_take_S _ _ _ Hd).
    pose proof (amax_abs (take (S k) sd)). pose proof (amax_take sd (S k)). llia.
Qed.

Lemma for64_first_abort {A} lo hi (body : Z -> A -> M A) a E s : lo < hi -> body lo a E s = Abort ->
  for64 lo hi body a E s = Abort.
Proof.
  intros H Hb. unfold for64. destruct (Z.to_nat (hi - lo)) as [|n] eqn:Hn; [lia|]. cbn. by apply bind_abort.
Qed.

(** ** Larger steps *)
(** Parameters for which the window at position 0 is admitted, whatever the steps were *)
Fixpoint wide (ks ls : list Z) : list Z :=
  match ks, ls with k :: ks, l :: ls => l * (k - 1) + 1 :: wide ks ls | _, _ => [] end.
Lemma sane_wide sd ks ss ps ls : sane sd ks ss ps ls -> Forall (fun d => 0 < d) sd -> cv_ok sd ks (wide ks ls) ps ls.
Proof.
  revert ks ss ps ls. induction sd as [|d sd IH]; intros [|k ks] [|s ss] [|p ps] [|l ls]; try done.
  intros [(H1 & H2 & H3 & H4 & H5 & H6 & H7) H] Hd. apply Forall_cons in Hd as [Hd Hds]. cbn. split; [|by eapply IH].
  assert (0 <= l * (k - 1)) by nia. split; [|lia]. unfold sane1. lia.
Qed.
Lemma wide_length ks ls : length ls = length ks -> length (wide ks ls) = length ks.
Proof. revert ls. induction ks as [|k ks IH]; intros [|l ls]; try done. cbn. intros H. f_equal. apply IH. lia. Qed.
Lemma heads_zero ps ss n : length ps = n -> length ss = n -> heads ps ss (replicate n 0) = Z.opp <$> ps.
Proof.
  unfold heads. revert ss n. induction ps as [|p ps IH]; intros [|s ss] [|n]; try done. cbn. intros H1 H2. f_equal; [lia|].
  apply IH; lia.
Qed.
Lemma zeros_in_box l : Forall (fun d => 0 < d) l -> in_box l (replicate (length l) 0).
Proof. induction 1 as [|d l Hd Hl IH]; [constructor|]. cbn. constructor; [lia|done]. Qed.
Lemma negative_not_in_box l : (exists d, d ∈ l /\ d < 0) -> forall x, ~ in_box l x.
Proof.
  intros (d & Hd & Hn) x Hx. apply elem_of_list_lookup in Hd as (i & Hi).
  destruct (Forall2_lookup_l _ _ _ _ _ Hx Hi) as (c & _ & Hc). lia.
Qed.
Lemma first_base sd ks ss ps ls E s : sane sd ks ss ps ls ->
  for64 0 (Z.of_nat (length sd)) (fun d base =>
      let* x := aget (0 :: 0 :: replicate (length sd) 0) (2 + d) in
      let* s := aget ss d in
      let* m := ck64 (x * s) in
      let* p := aget ps d in
      let* y := ck64 (m - p) in
      aset base (2 + d) y) (replicate (Z.to_nat (Z.of_nat (length sd) + 2)) 0) E s
  = Done (0 :: 0 :: (Z.opp <$> ps)) s.
Proof.
  intros Hok. destruct (sane_length _ _ _ _ _ Hok) as (L1 & L2 & L3 & L4).
  replace (Z.to_nat (Z.of_nat (length sd) + 2)) with (S (S (length sd))) by lia. cbn [replicate].
  rewrite (for64_pure (fun k => 0 :: 0 :: take k (Z.opp <$> ps) ++ replicate (length sd - k) 0) _ _ _ (length sd)).
  - rewrite Nat.sub_diag, take_ge by (rewrite fmap_length; lia). cbn. by rewrite app_nil_r.
  - by rewrite Nat.sub_0_r.
  - lia.
  - intros i Hi. rewrite Z.add_0_l.
    destruct (sane_get _ _ _ _ _ i Hok Hi) as (d & k & st & p & l & Hd & Hk & Hs & Hp & Hl & Hok1 & He).
    destruct Hok1 as (H1 & H2 & H3 & H4 & H5 & H6 & H7).
    erewrite bind_done by (apply aget2; apply lookup_replicate; split; [reflexivity|done]).
    erewrite bind_done by (by apply aget_nat).
    erewrite bind_done by (apply ck64_ok; rewrite Z.mul_0_l; llia).
    erewrite bind_done by (by apply aget_nat).
    erewrite bind_done by (apply ck64_ok; rewrite Z.mul_0_l; llia).
    rewrite aset2.
    2:{ rewrite app_length, take_length, fmap_length, replicate_length. lia. }
    f_equal. f_equal. f_equal.
    assert (length (take i (Z.opp <$> ps)) = i) as Lt by (rewrite take_length, fmap_length; lia).
    replace i with (length (take i (Z.opp <$> ps)) + 0)%nat at 1 by lia. rewrite insert_app_r.
    replace (length sd - i)%nat with (S (length sd - S i)) by lia. cbn [replicate].
    rewrite (take_S_r (Z.opp <$> ps) i (- p)) by (by apply opp_lookup).
    rewrite <-app_assoc. f_equal. 
Qed.

Lemma conv_two_negative p pf T F nb nc oc fc sd ks ss ps ls g o E s :
  wf s -> alloc_all E -> holds (heap s) p T -> holds (heap s) pf F ->
  a_type T = F32 -> a_type F = F32 -> a_dims T = nb :: nc :: sd -> a_dims F = oc :: fc :: ks ->
  nc <= fc -> 0 < nc -> 0 < nb -> 0 < oc ->
  (length sd <= 3)%nat -> sane sd ks ss ps ls -> Forall (fun d => 0 < d) sd -> init T -> init F ->
  4 * prodZ (Z.max 1 <$> (Z.abs <$> (nb :: oc :: cv_outs sd ks ss ps ls))) <= INT64_MAX ->
  0 < prodZ (cv_outs sd ks ss ps ls) -> (exists d, d ∈ cv_outs sd ks ss ps ls /\ d < 0) ->
  aitisa_conv (HPtr p) (HPtr pf) ss ps ls g o E s = Abort.
Proof.
  intros Hwf HE HT HF HtT HtF HdT HdF Hnc Hnc0 Hnb Hoc Hrank Hok Hsd HiT HiF Hmax Hpos Hneg.
  set (os := cv_outs sd ks ss ps ls) in *. fold (amax (nb :: oc :: os)) in Hmax.
  pose proof (holds_valid _ _ _ HT) as HvT. pose proof HvT as [HfitT _].
  pose proof (holds_valid _ _ _ HF) as HvF. pose proof HvF as [HfitF _].
  unfold init in HiT, HiF.
  destruct HT as (_ & bA & tgA & exA & HwT & HxT).
  destruct HF as (_ & bF & tgF & exF & HwF & HxF).
  rewrite HtT, HdT in *. rewrite HtF, HdF in *.
  pose proof (sane_outs_length _ _ _ _ _ Hok) as Lo. fold os in Lo.
  destruct (sane_length _ _ _ _ _ Hok) as (L1 & L2 & L3 & L4).
  pose proof (sane_ks_pos _ _ _ _ _ Hok) as Hkp.
  pose proof (amax_pos (nb :: oc :: os)) as Ham.
  pose proof (amax_drop (nb :: oc :: os) 2) as Ham2. change (drop 2 (nb :: oc :: os)) with os in Ham2.
  pose proof (amax_abs (nb :: oc :: os)) as Hab.
  assert (0 < prodZ (nb :: oc :: os)) as Hall by (rewrite !prodZ_cons; apply Z.mul_pos_pos; [done|]; by apply Z.mul_pos_pos).
  assert (prodZ ks <= INT64_MAX) as Hks.
  { rewrite <-(prodZ_max_pos_eq ks) by done. by eapply fits_space_any. }
  enough (run (X := unit) (inr HAbort) (aitisa_conv (HPtr p) (HPtr pf) ss ps ls g o) E s (fun _ _ _ => True)) by done.
  unfold aitisa_conv. eapply run_step; [by eapply tensor_dtype_ok|].
  change (d_code (dtype_of F32) =? code_of F32) with true. cbv iota.
  apply run_stop, stops_bind.
  enough (run (X := unit) (inr HAbort) (aitisa_conv_float (HPtr p) (HPtr pf) ss ps ls o) E s (fun _ _ _ => True)) by done.
  unfold aitisa_conv_float.
  eapply run_step; [by eapply tensor_ndim_ok|].
  eapply run_step; [by eapply tensor_dims_ok|].
  eapply run_step; [by eapply tensor_dims_ok|].
  assert (Z.of_nat (length (nb :: nc :: sd)) = Z.of_nat (length sd) + 2) as -> by (cbn [length]; lia).
  set (n := Z.of_nat (length sd) + 2).
  assert (0 <= 8 * n <= PTRDIFF_MAX) as Hsz by (unfold n; llia).
  eapply run_scr0; [done|done|done|apply frame_nil|]. intros c1 s1 W1 F1 R1 C1 S1.
  eapply run_scr0; [done|done|done|exact F1|]. intros c2 s2 W2 F2 R2 C2 S2.
  eapply run_scr0; [done|done|done|exact F2|]. intros c3 s3 W3 F3 R3 C3 S3.
  eapply run_scr0; [done|done|done|exact F3|]. intros c4 s4 W4 F4 R4 C4 S4.
  eapply run_scr0; [done|done|done|exact F4|]. intros c5 s5 W5 F5 R5 C5 S5.
  eapply run_scr0; [done|done|done|exact F5|]. intros c6 s6 W6 F6 R6 C6 S6.
  eapply run_scr0; [done|done|done|exact F6|]. intros c7 s7 W7 F7 R7 C7 S7.
  eapply run_scr0; [done|done|done|exact F7|]. intros c8 s8 W8 F8 R8 C8 S8.
  eapply run_step; [eapply touch_frame0; [exact F8|]; rewrite !elem_of_cons; tauto|].
  eapply run_step; [by apply conv_output_dims_sane|]. fold os.
  assert (heap s ⊆ heap s8) as S08 by (by eapply frame_sub).
  pose proof (view_mono _ _ _ _ _ _ _ _ S08 HwT) as HwT8.
  pose proof (view_mono _ _ _ _ _ _ _ _ S08 HwF) as HwF8.
  pose proof (lookup_weaken _ _ _ _ HxT S08) as HxT8.
  pose proof (lookup_weaken _ _ _ _ HxF S08) as HxF8.
  eapply run_step; [by eapply tensor_dtype_ok|].
  eapply run_step; [by eapply tensor_device_ok|].
  assert (exists s9 q pd pm pst px,
    aitisa_create (dtype_of F32) (a_dev T) (nb :: oc :: os) (Z.of_nat (length (nb :: oc :: os))) HNull 0 HUndef E s8
    = Done (SUCCESS, HPtr q) s9 /\
    tnew (e_alloc E) (ctr s8) (heap s8) s9 q pd pm pst px (dtype_of F32) (a_dev T) (nb :: oc :: os)
      (replicate (Z.to_nat (d_size (dtype_of F32) * prodZ (nb :: oc :: os))) MU)) as (s9 & q & pd & pm & pst & px & Hcr & Ht9).
  { assert (wp (aitisa_create (dtype_of F32) (a_dev T) (nb :: oc :: os) (Z.of_nat (length (nb :: oc :: os))) HNull 0 HUndef) E s8
      (fun r s9 => exists q pd pm pst px, r = (SUCCESS, HPtr q) /\
        tnew (e_alloc E) (ctr s8) (heap s8) s9 q pd pm pst px (dtype_of F32) (a_dev T) (nb :: oc :: os)
          (replicate (Z.to_nat (d_size (dtype_of F32) * prodZ (nb :: oc :: os))) MU))) as Hw.
    2:{ apply wp_elim in Hw as (r & s9 & Heq & q & pd & pm & pst & px & -> & Ht). by exists s9, q, pd, pm, pst, px. }
    apply create_rule.
    - done.
    - intros k. pose proof (amax_take (nb :: oc :: os) k). pose proof (amax_abs (take k (nb :: oc :: os))). llia.
    - cbn [length]. llia.
    - change (d_size (dtype_of F32)) with 4. lia.
    - intros s' q pd pm pst px Ht _. by exists q, pd, pm, pst, px.
    - intros s' Hn. by destruct Hn. }
  replace (Z.of_nat (length (nb :: oc :: os))) with n in Hcr by (unfold n; cbn [length]; lia).
  eapply run_step; [exact Hcr|].
  cbv beta match. rewrite bool_decide_eq_true_2 by done. cbn [negb].
  assert (forall c, c ∈ [c8; c7; c6; c5; c4; c3; c2; c1] -> touch (HPtr c) E s9 = Done tt s9) as Htouch.
  { intros c Hc. eapply touch_frame; [exact Ht9|exact F8|done]. }
  pose proof (view_mono _ _ _ _ _ _ _ _ (tnew_base _ _ Ht9) HwT8) as HwT9.
  pose proof (view_mono _ _ _ _ _ _ _ _ (tnew_base _ _ Ht9) HwF8) as HwF9.
  pose proof (lookup_weaken _ _ _ _ HxT8 (tnew_base _ _ Ht9)) as HxT9.
  pose proof (lookup_weaken _ _ _ _ HxF8 (tnew_base _ _ Ht9)) as HxF9.
  pose proof (tnew_view _ _ Ht9) as Hw9.
  assert (Z.of_nat (length (nb :: oc :: os)) <= INT_MAX) as Hlen by (cbn [length]; llia).
  eapply run_step; [apply Htouch; rewrite !elem_of_cons; tauto|].
  eapply run_step.
  { erewrite all_strides; [done|exact HwT9|apply (tsz_pos F32)|exact HfitT|apply rowmajor_layout|].
    unfold n. rewrite replicate_length. cbn [length]. lia. }
  eapply run_step; [apply Htouch; rewrite !elem_of_cons; tauto|].
  eapply run_step.
  { erewrite all_strides; [done|exact HwF9|apply tsz_pos|exact HfitF|apply rowmajor_layout|].
    unfold n. rewrite replicate_length. cbn [length]. lia. }
  eapply run_step; [apply Htouch; rewrite !elem_of_cons; tauto|].
  destruct (strides_any (E := E) Hw9 ltac:(lia) Hlen (replicate (Z.to_nat n) 0)) as (r0 & Hr0).
  { unfold n. rewrite replicate_length. cbn [length]. lia. }
  eapply run_step; [exact Hr0|].
  eapply run_step; [by eapply tensor_data_ok|].
  eapply run_step; [by eapply tensor_data_ok|].
  eapply run_step; [by eapply tensor_data_ok|].
  eapply run_step; [apply size_from_dim_any; [lia|llia|unfold n; lia]|].
  eapply run_step.
  { apply size_from_dim_ok; [done|done|llia|unfold n; lia]. }
  eapply run_step; [by eapply (tensor_dim_ok HwT9 0 nb)|].
  eapply run_step; [by eapply (tensor_dim_ok HwT9 1 nc)|].
  eapply run_step; [by eapply (tensor_dim_ok Hw9 1 oc)|].
  apply run_stop, stops_bind. cbn [stops].
  apply for64_first_abort; [done|]. apply for64_first_abort; [done|]. apply for64_first_abort; [done|].
  erewrite bind_done by (apply Htouch; rewrite !elem_of_cons; tauto).
  erewrite bind_done by (apply Htouch; rewrite !elem_of_cons; tauto).
  erewrite bind_done by (apply Htouch; rewrite !elem_of_cons; tauto).
  erewrite bind_done by (apply Htouch; rewrite !elem_of_cons; tauto).
  unfold conv_element.
  assert (Z.to_nat n = length (nb :: oc :: os)) as Hn by (unfold n; cbn [length]; lia).
  erewrite bind_done.
  2:{ rewrite Hn. by eapply first_coords; [exact Hw9|lia|done|done]. }
  cbn [length replicate]. rewrite Lo.
  erewrite bind_done by apply aset0. erewrite bind_done by apply aset1.
  replace (n - 2) with (Z.of_nat (length sd)) by (unfold n; lia).
  erewrite bind_done by (by eapply first_base). erewrite bind_done by apply aset0.
  apply bind_abort. apply for64_first_abort; [done|].
  erewrite bind_done by apply aset1.
  pose proof (sane_wide _ _ _ _ _ Hok Hsd) as Hwide.
  assert (heads ps (wide ks ls) (replicate (length sd) 0) = Z.opp <$> ps) as Hh.
  { apply heads_zero; [done|]. rewrite wide_length by lia. lia. }
  pose proof (cv_outs_length _ _ _ _ _ Hwide) as Lw.
  assert (in_box (cv_outs sd ks (wide ks ls) ps ls) (replicate (length sd) 0)) as Hbx.
  { rewrite <-Lw. apply zeros_in_box. by apply cv_outs_pos. }
  assert (exists w, mac_all F32 (zero_val F32) (conv_chan T F (wide ks ls) ps ls 0 0 0 (replicate (length sd) 0)) = Some w) as (w & Hw).
  { pose proof (conv_terms_forall (val_ok F32) (val_ok F32) T F nb nc oc fc sd ks (wide ks ls) ps ls 0 0 (replicate (length sd) 0)
      HvT HvF HdT HdF Hnc Hkp ltac:(lia) ltac:(lia) HiT HiF) as Hf.
    destruct (mac_all_ok F32 (zero_val F32) (conv_chan T F (wide ks ls) ps ls 0 0 0 (replicate (length sd) 0))) as (w & Hw & _).
    - unfold mac_total. set_solver.
    - apply zero_val_ok.
    - unfold conv_terms in Hf. apply Forall_forall. intros x Hx. rewrite Forall_forall in Hf. apply Hf.
      apply elem_of_list_bind. exists 0. split; [done|]. apply elem_of_seqZ. lia.
    - by exists w. }
  erewrite bind_done.
  2:{ rewrite <-Hh. replace n with (Z.of_nat (length sd) + 2) by done.
      eapply (conv_channel_ok (T := T) (F := F) Hwide HvT HvF HdT HdF HtT HtF Hnc (bA := bA) (bF := bF) (tgA := tgA) (tgF := tgF)
        (exA := exA) (exF := exF)); [|lia|lia|lia|exact Hbx|exact Hw].
      split_and!; done. }
  apply bind_abort.
  replace n with (Z.of_nat (length (0 :: 0 :: replicate (length sd) 0))) by (cbn [length]; rewrite replicate_length; unfold n; lia).
  eapply coords_to_offset_abort; [exact Hw9|]. apply negative_not_in_box.
  destruct Hneg as (d & Hd & Hlt). exists d. split; [|done]. by do 2 constructor 2.
Qed.
