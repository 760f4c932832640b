(** * ProofConv6: convolutions with a filter too large for the input *)
From stdpp Require Import gmap list.
From Coq Require Import ZArith Lia Floats.SpecFloat.
From Coq Require Import ZifyBool ZifyNat.
From Verif Require Import Base Mem Spec SpecNN SpecConv ModelCore ModelBasic ModelMath ModelNN Logic
  ProofCore ProofCore2 ProofCore3 ProofIndex ProofLayout ProofKernel ProofKernel2 ProofBasic ProofBasic2 ProofSlice
  ProofFrame ProofMatmul ProofDot4 ProofSoftmax ProofFloat5 ProofWindow ProofPool ProofPool2 ProofConvWin ProofConv ProofConv2 ProofExact SpecCreate ProofCreate.
Open Scope Z_scope.

Lemma sane_length ds ks ss ps ls : sane ds ks ss ps ls ->
  length ks = length ds /\ length ss = length ds /\ length ps = length ds /\ length ls = length ds.
Proof.
  revert ks ss ps ls. induction ds as [|d ds IH]; intros [|k ks] [|s ss] [|p ps] [|l ls]; try done.
  intros [_ H]. apply IH in H as (? & ? & ? & ?). cbn. split_and!; congruence.
Qed.
Lemma sane_outs_length ds ks ss ps ls : sane ds ks ss ps ls ->
  length (cv_outs ds ks ss ps ls) = length ds.
Proof.
  revert ks ss ps ls. induction ds as [|d ds IH]; intros [|k ks] [|s ss] [|p ps] [|l ls]; try done.
  intros [_ H]. cbn. f_equal. by apply IH.
Qed.
Lemma sane_get ds ks ss ps ls i : sane ds ks ss ps ls -> (i < length ds)%nat ->
  exists d k s p l, ds !! i = Some d /\ ks !! i = Some k /\ ss !! i = Some s /\ ps !! i = Some p /\
    ls !! i = Some l /\ sane1 d k s p l /\ cv_outs ds ks ss ps ls !! i = Some (cv_out d k s p l).
Proof.
  revert ks ss ps ls i. induction ds as [|d ds IH]; intros [|k ks] [|s ss] [|p ps] [|l ls] i; try done.
  { cbn. lia. }
  intros [H1 H] Hi. destruct i as [|i].
  - exists d, k, s, p, l. done.
  - apply (IH _ _ _ _ i H). cbn in Hi. lia.
Qed.
Lemma sane_ks_pos ds ks ss ps ls : sane ds ks ss ps ls -> Forall (fun d => 0 < d) ks.
Proof.
  revert ks ss ps ls. induction ds as [|d ds IH]; intros [|k ks] [|s ss] [|p ps] [|l ls]; try done.
  intros [(_ & H1 & _) H]. constructor; [lia|by eapply IH].
Qed.
Lemma conv_output_dims_sane sd ks ss ps ls nb nc oc fc n E s : sane sd ks ss ps ls ->
  n = Z.of_nat (length sd) + 2 ->
  conv_output_dims (nb :: nc :: sd) (oc :: fc :: ks) ss ps ls n E s
  = Done (nb :: oc :: cv_outs sd ks ss ps ls) s.
Proof.
  intros Hok ->. set (os := cv_outs sd ks ss ps ls).
  destruct (sane_length _ _ _ _ _ Hok) as (L1 & L2 & L3 & L4).
  pose proof (sane_outs_length _ _ _ _ _ Hok) as Lo. fold os in Lo.
  unfold conv_output_dims.
  erewrite bind_done by (by apply (aget_nat _ 0)).
  erewrite bind_done by (by apply (aget_nat _ 0)).
  rewrite (for64_pure (fun k => nb :: oc :: take k os) _ _ _ (length sd)).
  - by rewrite take_ge by lia.
  - by rewrite take_0.
  - lia.
  - intros i Hi.
    destruct (sane_get _ _ _ _ _ i Hok Hi) as (d & k & st & p & l & Hd & Hk & Hs & Hp & Hl & Hok1 & He).
    fold os in He.
    replace (2 + Z.of_nat i - 2) with (Z.of_nat i) by lia.
    destruct Hok1 as (H1 & H2 & H3 & H4 & H5 & H6 & H7).
    assert (0 <= l * (k - 1)) as Hkl by nia. assert (k - 1 <= l * (k - 1)) as Hk1 by nia.
    erewrite bind_done by (by apply aget_nat).
    erewrite bind_done by (by apply aget2).
    erewrite bind_done by (apply ck64_ok; llia).
    erewrite bind_done by (apply ck64_ok; llia).
    erewrite bind_done by (apply ck64_ok; llia).
    erewrite bind_done by (by apply aget2).
    erewrite bind_done by (by apply aget_nat).
    erewrite bind_done by (apply ck32_ok; llia).
    erewrite bind_done by (apply ck64_ok; llia).
    erewrite bind_done by (apply ck64_ok; llia).
    erewrite bind_done by (by apply aget_nat).
    assert (d + 2 * p - (l * (k - 1) + 1) = d + 2 * p - l * (k - 1) - 1) as Hz by ring. rewrite Hz.
    assert (- 2 ^ 60 <= Z.quot (d + 2 * p - l * (k - 1) - 1) st <= 2 ^ 60) as Hq.
    { assert (Z.abs (Z.quot (d + 2 * p - l * (k - 1) - 1) st) <= Z.abs (d + 2 * p - l * (k - 1) - 1)) as Ha.
      { rewrite <-Z.quot_abs by lia. rewrite (Z.abs_eq st) by lia. apply Z.quot_le_upper_bound; [lia|]. nia. }
      llia. }
    erewrite bind_done.
    2:{ apply div64_ok; [lia|]. llia. }
    erewrite bind_done by (apply ck64_ok; llia).
    unfold ret. fold (cv_out d k st p l). rewrite (take_S_r _ _ _ He). done.
Qed.

(** The partial products of extents with a zero among them stay below the bound. *)
Lemma size_from_dim_nonneg nb nc sd n E s :
  (forall k, 0 <= prodZ (take k sd) <= INT64_MAX) -> Z.of_nat (length sd) + 2 <= INT_MAX ->
  n = Z.of_nat (length sd) + 2 ->
  size_from_dim 2 (nb :: nc :: sd) n E s = Done (prodZ sd) s.
Proof.
  intros Hmax Hlen ->. unfold size_from_dim. rewrite to_int_id by llia.
  rewrite (for64_pure (fun k => prodZ (take k sd)) _ _ _ (length sd)).
  - by rewrite take_ge by lia.
  - by rewrite take_0, prodZ_nil.
  - lia.
  - intros k Hk. destruct (lookup_lt_is_Some_2 sd k Hk) as [d Hd].
    erewrite bind_done.
    2:{ apply aget_Z; [lia|]. replace (Z.to_nat (2 + Z.of_nat k)) with (S (S k)) by lia. exact Hd. }
    rewrite (prodZ_take_S _ _ _ Hd). apply ck64_ok. rewrite <-(prodZ_take_S _ _ _ Hd).
    pose proof (Hmax (S k)). llia.
Qed.
Lemma for64_none {A} (f : Z -> A -> M A) (a : A) lo hi E s : hi <= lo -> for64 lo hi f a E s = Done a s.
Proof. intros H. unfold for64. replace (Z.to_nat (hi - lo)) with 0%nat by lia. done. Qed.
Lemma fits_space_any t a b es : fits (tsz t) (a :: b :: es) -> prodZ (Z.max 1 <$> es) <= INT64_MAX.
Proof.
  intros Hf. destruct Hf as (_ & _ & Hf).
  pose proof (prodZ_max_drop (a :: b :: es) 2) as Hd. change (drop 2 (a :: b :: es)) with es in Hd.
  pose proof (prodZ_max_pos (a :: b :: es)). pose proof (tsz_pos t). nia.
Qed.

(** An axis without positions: the result is an empty tensor, whatever the filter holds. *)
Lemma conv_float_none p pf T F nb nc oc fc sd ks ss ps ls o E s :
  wf s -> alloc_all E -> hooks_ok E -> holds (heap s) p T -> holds (heap s) pf F ->
  a_type T = F32 -> a_dims T = nb :: nc :: sd -> a_dims F = oc :: fc :: ks ->
  (length sd <= 3)%nat -> sane sd ks ss ps ls ->
  fits (tsz F32) (nb :: oc :: cv_outs sd ks ss ps ls) -> 0 ∈ cv_outs sd ks ss ps ls ->
  makes_saying (e_garbage E 0) (aitisa_conv_float (HPtr p) (HPtr pf) ss ps ls o) E s
    (AT F32 (a_dev T) (nb :: oc :: cv_outs sd ks ss ps ls) []).
Proof.
  intros Hwf HE HH HT HF HtT HdT HdF Hrank Hok Hfit3 Hz.
  set (os := cv_outs sd ks ss ps ls) in *.
  pose proof (holds_valid _ _ _ HT) as HvT. pose proof HvT as [HfitT _].
  pose proof (holds_valid _ _ _ HF) as HvF. pose proof HvF as [HfitF _].
  destruct HT as (_ & bA & tgA & exA & HwT & HxT).
  destruct HF as (_ & bF & tgF & exF & HwF & HxF).
  rewrite HtT, HdT in *. rewrite HdF in *.
  pose proof (sane_outs_length _ _ _ _ _ Hok) as Lo. fold os in Lo.
  destruct (sane_length _ _ _ _ _ Hok) as (L1 & L2 & L3 & L4).
  assert (Forall (fun d => 0 <= d) (nb :: oc :: os)) as Hnn by apply Hfit3.
  apply Forall_cons in Hnn as [Hn0 Hnn]. apply Forall_cons in Hnn as [Hn1 Hn].
  assert (prodZ os = 0) as Hos.
  { apply elem_of_list_split in Hz as (l1 & l2 & ->). rewrite prodZ_app, prodZ_cons. lia. }
  assert (prodZ (nb :: oc :: os) = 0) as Hall by (rewrite !prodZ_cons, Hos; lia).
  pose proof (fits_space_any _ _ _ _ Hfit3) as HWmax.
  assert (prodZ ks <= INT64_MAX) as Hks.
  { rewrite <-(prodZ_max_pos_eq ks) by (by eapply sane_ks_pos). by eapply fits_space_any. }
  assert (wp (aitisa_conv_float (HPtr p) (HPtr pf) ss ps ls o) E s (fun r s' => exists q,
    r = (e_garbage E 0, HPtr q) /\ created E s s' q (AT F32 (a_dev T) (nb :: oc :: os) []))) as Hwp.
  2:{ apply wp_elim in Hwp as (r & s' & Heq & q & -> & Hc). by exists s', q. }
  unfold aitisa_conv_float.
  eapply wp_step; [by eapply tensor_ndim_ok|].
  eapply wp_step; [by eapply tensor_dims_ok|].
  eapply wp_step; [by eapply tensor_dims_ok|].
  assert (Z.of_nat (length (nb :: nc :: sd)) = Z.of_nat (length sd) + 2) as -> by (cbn [length]; lia).
  set (n := Z.of_nat (length sd) + 2).
  assert (0 <= 8 * n <= PTRDIFF_MAX) as Hsz by (unfold n; llia).
  eapply wp_scr0; [done|done|done|apply frame_nil|]. intros c1 s1 W1 F1 R1 C1 S1.
  eapply wp_scr0; [done|done|done|exact F1|]. intros c2 s2 W2 F2 R2 C2 S2.
  eapply wp_scr0; [done|done|done|exact F2|]. intros c3 s3 W3 F3 R3 C3 S3.
  eapply wp_scr0; [done|done|done|exact F3|]. intros c4 s4 W4 F4 R4 C4 S4.
  eapply wp_scr0; [done|done|done|exact F4|]. intros c5 s5 W5 F5 R5 C5 S5.
  eapply wp_scr0; [done|done|done|exact F5|]. intros c6 s6 W6 F6 R6 C6 S6.
  eapply wp_scr0; [done|done|done|exact F6|]. intros c7 s7 W7 F7 R7 C7 S7.
  eapply wp_scr0; [done|done|done|exact F7|]. intros c8 s8 W8 F8 R8 C8 S8.
  eapply wp_step; [eapply touch_frame0; [exact F8|]; rewrite !elem_of_cons; tauto|].
  eapply wp_step; [by apply conv_output_dims_sane|]. fold os.
  assert (heap s ⊆ heap s8) as S08 by (by eapply frame_sub).
  pose proof (view_mono _ _ _ _ _ _ _ _ S08 HwT) as HwT8.
  pose proof (view_mono _ _ _ _ _ _ _ _ S08 HwF) as HwF8.
  eapply wp_step; [by eapply tensor_dtype_ok|].
  eapply wp_step; [by eapply tensor_device_ok|].
  destruct (create_t_ok F32 (a_dev T) (nb :: oc :: os) HUndef E s8 W8 Hfit3 HE)
    as (s9 & q & pd & pm & pst & px & Hcr & Ht9 & R9).
  replace (Z.of_nat (length (nb :: oc :: os))) with n in Hcr by (unfold n; cbn [length]; lia).
  eapply wp_step; [exact Hcr|].
  cbv beta match. rewrite bool_decide_eq_true_2 by done. cbn [negb].
  assert (forall c, c ∈ [c8; c7; c6; c5; c4; c3; c2; c1] -> touch (HPtr c) E s9 = Done tt s9) as Htouch.
  { intros c Hc. eapply touch_frame; [exact Ht9|exact F8|done]. }
  pose proof (view_mono _ _ _ _ _ _ _ _ (tnew_base _ _ Ht9) HwT8) as HwT9.
  pose proof (view_mono _ _ _ _ _ _ _ _ (tnew_base _ _ Ht9) HwF8) as HwF9.
  pose proof (tnew_view _ _ Ht9) as Hw9.
  eapply wp_step; [apply Htouch; rewrite !elem_of_cons; tauto|].
  eapply wp_step.
  { erewrite all_strides; [done|exact HwT9|apply (tsz_pos F32)|exact HfitT|apply rowmajor_layout|].
    unfold n. rewrite replicate_length. cbn [length]. lia. }
  eapply wp_step; [apply Htouch; rewrite !elem_of_cons; tauto|].
  eapply wp_step.
  { erewrite all_strides; [done|exact HwF9|apply tsz_pos|exact HfitF|apply rowmajor_layout|].
    unfold n. rewrite replicate_length. cbn [length]. lia. }
  eapply wp_step; [apply Htouch; rewrite !elem_of_cons; tauto|].
  eapply wp_step.
  { erewrite all_strides; [done|exact Hw9|apply (tsz_pos F32)|exact Hfit3|apply rowmajor_layout|].
    unfold n. rewrite replicate_length. cbn [length]. lia. }
  eapply wp_step; [by eapply tensor_data_ok|].
  eapply wp_step; [by eapply tensor_data_ok|].
  eapply wp_step; [by eapply tensor_data_ok|].
  eapply wp_step.
  { apply size_from_dim_nonneg; [|llia|unfold n; lia]. intros k. split.
    - apply prodZ_nonneg. by apply Forall_take.
    - pose proof (prodZ_max_take os k). pose proof (prodZ_le_max (take k os) ltac:(by apply Forall_take)).
      etrans; [|exact HWmax]. lia. }
  eapply wp_step.
  { apply size_from_dim_ok; [by eapply sane_ks_pos|done|llia|unfold n; lia]. }
  eapply wp_step; [by eapply (tensor_dim_ok HwT9 0 nb)|].
  eapply wp_step; [by eapply (tensor_dim_ok HwT9 1 nc)|].
  eapply wp_step; [by eapply (tensor_dim_ok Hw9 1 oc)|].
  eapply wp_step.
  { erewrite (for64_pure (fun _ => tt) _ _ _ (Z.to_nat nb)); [reflexivity|done|lia|].
    intros k Hk. erewrite (for64_pure (fun _ => tt) _ _ _ (Z.to_nat oc)); [reflexivity|done|lia|].
    intros j Hj. apply for64_none. lia. }
  rewrite Hall in Ht9. cbn [Z.to_nat replicate] in Ht9.
  eapply (wp_scr_free [c8; c7; c6; c5; c4; c3; c2] c1 []); [done|exact Ht9|exact F8|]. intros h11 s11 Ht11 F11 R11.
  eapply (wp_scr_free [c8; c7; c6; c5; c4; c3] c2 []); [done|exact Ht11|exact F11|]. intros h12 s12 Ht12 F12 R12.
  eapply (wp_scr_free [c8; c7; c6; c5; c4] c3 []); [done|exact Ht12|exact F12|]. intros h13 s13 Ht13 F13 R13.
  eapply (wp_scr_free [c8; c7; c6; c5] c4 []); [done|exact Ht13|exact F13|]. intros h14 s14 Ht14 F14 R14.
  eapply (wp_scr_free [c8; c7] c6 [c5]); [done|exact Ht14|exact F14|]. intros h15 s15 Ht15 F15 R15.
  eapply (wp_scr_free [c8] c7 [c5]); [done|exact Ht15|exact F15|]. intros h16 s16 Ht16 F16 R16.
  eapply (wp_scr_free [] c8 [c5]); [done|exact Ht16|exact F16|]. intros h17 s17 Ht17 F17 R17.
  eapply (wp_scr_free [] c5 []); [done|exact Ht17|exact F17|]. intros h18 s18 Ht18 F18 R18.
  apply frame_nil_inv in F18 as ->.
  eapply wp_step; [done|].
  apply wp_ret. exists q. split; [done|].
  eapply tnew_makes; [done|done| |].
  - eapply tnew_lo; [exact Ht18|lia].
  - congruence.
Qed.
Lemma conv_none p pf T F nb nc oc fc sd ks ss ps ls g o E s :
  wf s -> alloc_all E -> hooks_ok E -> holds (heap s) p T -> holds (heap s) pf F ->
  a_type T = F32 -> a_dims T = nb :: nc :: sd -> a_dims F = oc :: fc :: ks ->
  (length sd <= 3)%nat -> sane sd ks ss ps ls ->
  fits (tsz F32) (nb :: oc :: cv_outs sd ks ss ps ls) -> 0 ∈ cv_outs sd ks ss ps ls ->
  makes_saying (conv_status E) (aitisa_conv (HPtr p) (HPtr pf) ss ps ls g o) E s
    (AT F32 (a_dev T) (nb :: oc :: cv_outs sd ks ss ps ls) []).
Proof. intros. eapply conv_float_conv; [done|done|]. by eapply conv_float_none. Qed.

(** A negative number of elements: refused for lack of memory, nothing released. *)
Lemma conv_refused p pf T F nb nc oc fc sd ks ss ps ls g o E s :
  wf s -> alloc_all E -> holds (heap s) p T -> holds (heap s) pf F ->
  a_type T = F32 -> a_dims T = nb :: nc :: sd -> a_dims F = oc :: fc :: ks ->
  (length sd <= 3)%nat -> sane sd ks ss ps ls ->
  countable 4 (nb :: oc :: cv_outs sd ks ss ps ls) -> prodZ (nb :: oc :: cv_outs sd ks ss ps ls) < 0 ->
  exists s', aitisa_conv (HPtr p) (HPtr pf) ss ps ls g o E s = Done (ALLOC_FAILED, o) s' /\ keeps s s' /\
    exists L, length L = 8%nat /\ NoDup L /\ Forall (fun c => heap s !! c = None /\ is_Some (heap s' !! c)) L.
Proof.
  intros Hwf HE HT HF HtT HdT HdF Hrank Hok Hcnt Hneg.
  set (os := cv_outs sd ks ss ps ls) in *.
  destruct HT as (_ & bA & tgA & exA & HwT & HxT).
  destruct HF as (_ & bF & tgF & exF & HwF & HxF).
  rewrite HtT, HdT in *. rewrite HdF in *.
  pose proof (sane_outs_length _ _ _ _ _ Hok) as Lo. fold os in Lo.
  assert (wp (aitisa_conv (HPtr p) (HPtr pf) ss ps ls g o) E s (fun r s' =>
    r = (ALLOC_FAILED, o) /\ keeps s s' /\
    exists L, length L = 8%nat /\ NoDup L /\ Forall (fun c => heap s !! c = None /\ is_Some (heap s' !! c)) L)) as Hwp.
  2:{ apply wp_elim in Hwp as (r & s' & Heq & -> & Hc). by exists s'. }
  unfold aitisa_conv. eapply wp_step; [by eapply tensor_dtype_ok|].
  change (d_code (dtype_of F32) =? code_of F32) with true. cbv iota.
  apply wp_bind. eapply wp_mono with (Q := fun r s' => r = (ALLOC_FAILED, o) /\ keeps s s' /\
    exists L, length L = 8%nat /\ NoDup L /\ Forall (fun c => heap s !! c = None /\ is_Some (heap s' !! c)) L).
  2:{ intros r s' (-> & Hk & HL). cbv beta match. by apply wp_ret. }
  unfold aitisa_conv_float.
  eapply wp_step; [by eapply tensor_ndim_ok|].
  eapply wp_step; [by eapply tensor_dims_ok|].
  eapply wp_step; [by eapply tensor_dims_ok|].
  assert (Z.of_nat (length (nb :: nc :: sd)) = Z.of_nat (length sd) + 2) as -> by (cbn [length]; lia).
  set (n := Z.of_nat (length sd) + 2).
  assert (0 <= 8 * n <= PTRDIFF_MAX) as Hsz by (unfold n; llia).
  eapply wp_scr0; [done|done|done|apply frame_nil|]. intros c1 s1 W1 F1 R1 C1 S1.
  eapply wp_scr0; [done|done|done|exact F1|]. intros c2 s2 W2 F2 R2 C2 S2.
  eapply wp_scr0; [done|done|done|exact F2|]. intros c3 s3 W3 F3 R3 C3 S3.
  eapply wp_scr0; [done|done|done|exact F3|]. intros c4 s4 W4 F4 R4 C4 S4.
  eapply wp_scr0; [done|done|done|exact F4|]. intros c5 s5 W5 F5 R5 C5 S5.
  eapply wp_scr0; [done|done|done|exact F5|]. intros c6 s6 W6 F6 R6 C6 S6.
  eapply wp_scr0; [done|done|done|exact F6|]. intros c7 s7 W7 F7 R7 C7 S7.
  eapply wp_scr0; [done|done|done|exact F7|]. intros c8 s8 W8 F8 R8 C8 S8.
  eapply wp_step; [eapply touch_frame0; [exact F8|]; rewrite !elem_of_cons; tauto|].
  eapply wp_step; [by apply conv_output_dims_sane|]. fold os.
  assert (heap s ⊆ heap s8) as S08 by (by eapply frame_sub).
  pose proof (view_mono _ _ _ _ _ _ _ _ S08 HwT) as HwT8.
  eapply wp_step; [by eapply tensor_dtype_ok|].
  eapply wp_step; [by eapply tensor_device_ok|].
  destruct (create_every (dtype_of F32) (a_dev T) (nb :: oc :: os) HUndef E s8 W8 HE) as (_ & Hcr & _).
  { cbn [length]. llia. }
  destruct Hcr as (s9 & Hcr & Hk9); [exact Hcnt|change (d_size (dtype_of F32)) with 4; lia|].
  replace (Z.of_nat (length (nb :: oc :: os))) with n in Hcr by (unfold n; cbn [length]; lia).
  eapply wp_step; [exact Hcr|]. cbv beta match. rewrite bool_decide_eq_false_2 by done. cbn [negb].
  apply wp_ret. split; [done|]. destruct Hk9 as (S9 & W9 & C9). split.
  { split; [by etrans|]. split; [done|]. lia. }
  exists [c8; c7; c6; c5; c4; c3; c2; c1]. destruct F8 as (m & Hm & Hdj & Hnd & Hd & _). split_and!; [done|done|].
  apply Forall_forall. intros c Hc. apply Hd in Hc as [x Hx]. split.
  - eapply map_disjoint_Some_l; [exact Hdj|exact Hx].
  - exists x. eapply lookup_weaken; [|exact S9]. rewrite Hm. by apply lookup_union_Some_l.
Qed.
