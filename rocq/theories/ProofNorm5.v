(** * ProofNorm5: src/nn/batch_norm.c, the whole function *)
From stdpp Require Import gmap list.
From Coq Require Import ZArith Lia Floats.SpecFloat.
From Coq Require Import ZifyBool ZifyNat.
From Verif Require Import Base Mem Spec SpecReal SpecNN SpecNorm ModelCore ModelBasic ModelMath ModelNN Logic
  ProofCore ProofCore2 ProofCore3 ProofIndex ProofKernel ProofKernel2 ProofBasic ProofSqueeze ProofSlice ProofFrame
  ProofMatmul ProofMath ProofCast ProofSqrt ProofDot3 ProofSoftmax ProofOwn ProofNorm ProofNorm2 ProofNorm3 ProofNorm4.
Open Scope Z_scope.

Ltac Zify.zify_post_hook ::= Z.div_mod_to_equations.

Section with_channel.
Context {E : env} {s : st} (HA : alloc_all E) (HE : hooks_ok E).
Context (nb ch : Z) (b1 b2 : list Z) (t : tcode) (dev : device) (f : list Z -> val).
Context (P1 : Forall (fun d => 0 < d) b1) (P2 : Forall (fun d => 0 < d) b2) (Hch : 0 < ch <= INT_MAX) (Hnb : 0 <= nb <= INT_MAX).
Context (M1 : Forall (fun d => d <= INT_MAX) b1) (M2 : Forall (fun d => d <= INT_MAX) b2).
Context (Hlane : prodZ (b1 ++ b2) <= INT_MAX).
Context (q pd pm ps px : nat) (axis : Z) (Hax : axis = Z.of_nat (S (length b1))).
Context (Hends : b1 = [] \/ b2 = []) (Hrank : (1 <= length (b1 ++ b2) <= 3)%nat).
Notation dims := (bn_dims nb ch b1 b2).
Notation pdims := (b1 ++ b2).
Notation N := (prodZ pdims).
Let Ov := over (E:=E) (s:=s) q pd pm ps px t dev dims.
Context (p : nat) (T : atensor) (HT : holds (heap s) p T).
Context (Tt : a_type T = t) (Vt : a_dev T = dev) (Ct : dev_type dev = 0) (Dt : a_dims T = dims).
Context (Sc Bi Me : atensor) (ds : Z -> val).
Context (Hf : forall a c i, 0 <= a < nb -> 0 <= c < ch -> 0 <= i < N ->
  bn_out t (ds c) (at_ Sc [c]) (at_ Bi [c]) (at_ Me [c]) (at_ T (co b1 b2 a c i)) = Some (f (co b1 b2 a c i))).
Notation arrays := (arrays Sc Bi Me t dev b1 b2 ds).

Lemma co_set0 a c a' : <[0%nat := a']> (co b1 b2 a c 0) = co b1 b2 a' c 0.
Proof using Type. clear. done. Qed.
Lemma co_setc a c c' : <[Z.to_nat axis := c']> (co b1 b2 a c 0) = co b1 b2 a c' 0.
Proof using Hax.
  clear -Hax. rewrite Hax, Nat2Z.id. unfold co. rewrite list_insert_cons_S.
  rewrite insert_app_r_alt by (rewrite unravel_length; lia). by rewrite unravel_length, Nat.sub_diag.
Qed.

Lemma with_channel_ok vs L s' ss bs ms dn xs xb xm xd :
  length ss = Z.to_nat ch -> length bs = Z.to_nat ch -> length ms = Z.to_nat ch -> length dn = Z.to_nat ch ->
  L = arrays ss bs ms dn xs xb xm xd -> length vs = Z.to_nat (prodZ dims) ->
  Ov vs L s' ->
  wp (batch_norm_with_channel (HPtr p) axis (HPtr <$> ss) (HPtr <$> bs) (HPtr <$> ms) (HPtr <$> dn) (HPtr q)) E s'
    (fun r s'' => r = SUCCESS /\ Ov (tab dims f) L s'').
Proof using All.
  intros Ls Lb Lm Ld HL Lv HO.
  pose proof (valid_fits _ (holds_valid _ _ _ HT)) as Hfit. rewrite Tt, Dt in Hfit.
  unfold batch_norm_with_channel.
  destruct (over_base _ _ _ _ _ _ _ _ _ _ _ p T HO HT) as (_ & bx & tg & ex & V & _). rewrite Tt, Vt, Dt in V.
  assert (length dims = (length pdims + 2)%nat) as Hlen.
  { unfold bn_dims. cbn [length]. rewrite !app_length. cbn. lia. }
  assert (length dims = length (1 :: bn_es b1 b2)) as Hlen2.
  { unfold bn_dims, bn_es. cbn [length]. by rewrite !app_length. }
  eapply wp_step; [by eapply tensor_ndim_ok|].
  replace (negb (axis =? 1) && negb (axis =? Z.of_nat (length dims) - 1)) with false.
  2:{ destruct Hends as [Hb|Hb]; rewrite Hb, ?app_nil_r, ?app_length in *; cbn in *; lia. }
  eapply wp_step; [by eapply tensor_dims_ok|].
  eapply wp_step; [by apply aget_Z|].
  assert (dims !! Z.to_nat axis = Some ch) as Hchd.
  { rewrite Hax, Nat2Z.id. unfold bn_dims. rewrite lookup_cons_ne_0 by done. cbn [Nat.pred]. by rewrite list_lookup_middle. }
  eapply wp_step; [apply aget_Z; [lia|exact Hchd]|].
  destruct (over_own _ _ _ _ _ _ _ _ _ _ _ HO) as (sb & Ho & Hback).
  eapply own_scr; [done|llia|exact Ho|]. intros x1 s1 O1.
  eapply own_scr; [done|llia|exact O1|]. intros x2 s2 O2.
  eapply own_scr; [done|llia|exact O2|]. intros x3 s3 O3. cbn [is_null orb]. cbv zeta.
  assert (Forall (fun d => 0 <= d <= INT_MAX) dims) as Hdr.
  { unfold bn_dims. constructor; [lia|]. apply Forall_app. split; [|constructor; [lia|]];
      apply Forall_forall; intros d Hd.
    - rewrite Forall_forall in P1, M1. specialize (P1 d Hd). specialize (M1 d Hd). lia.
    - rewrite Forall_forall in P2, M2. specialize (P2 d Hd). specialize (M2 d Hd). lia. }
  eapply wp_step.
  { instantiate (1 := s3). instantiate (1 := dims).
    rewrite (for64_pure (fun k => take k dims) _ _ _ (length dims)).
    - by rewrite firstn_all.
    - by rewrite take_0.
    - lia.
    - intros k Hk. rewrite Z.add_0_l. destruct (lookup_lt_is_Some_2 dims k Hk) as [d Hd].
      erewrite bind_done by (apply aget_nat; exact Hd). unfold ret. f_equal.
      pose proof (Forall_lookup_1 _ _ _ _ Hdr Hd) as Hdd. cbv beta in Hdd. rewrite to_int_id by llia.
      symmetry. by apply take_S_r. }
  eapply wp_step; [apply aset_Z; llia|].
  eapply wp_step; [apply aset_Z; rewrite insert_length; rewrite Hlen, Hax, app_length; lia|].
  replace (<[Z.to_nat axis:=1]> (<[Z.to_nat 0:=1]> dims)) with (1 :: bn_es b1 b2).
  2:{ rewrite Hax, Nat2Z.id. unfold bn_dims, bn_es. change (<[Z.to_nat 0:=1]> (nb :: b1 ++ ch :: b2)) with (1 :: b1 ++ ch :: b2).
      rewrite list_insert_cons_S. rewrite insert_app_r_alt by done. by rewrite Nat.sub_diag. }
  eapply own_scr; [done|llia|exact O3|]. intros x4 s4 O4.
  eapply wp_step. { eapply own_touch; [exact O4|left]. }
  eapply own_scr; [done|llia|exact O4|]. intros x5 s5 O5.
  eapply own_scr; [done|llia|exact O5|]. intros x6 s6 O6. cbn [is_null orb].
  eapply wp_step.
  { apply row_offsets_ok; [done|lia|]. intros k. by eapply (fits_drop (tsz_pos t)). }
  rewrite Nat2Z.id.
  set (L6 := IB x6 :: IB x5 :: IB x4 :: IB x3 :: IB x2 :: IB x1 :: L) in *.
  assert (L ⊆ L6) as Hsub by (unfold L6; intros y Hy; by do 6 right).
  assert (replicate (length dims) 0 = co b1 b2 0 0 0) as Hz.
  { rewrite co_0 by done. rewrite Hlen2. cbn [length replicate]. f_equal.
    symmetry. apply list_insert_id. unfold bn_es. rewrite lookup_replicate_2; [done|]. rewrite app_length. cbn. lia. }
  rewrite Hz. pose proof (Hback _ _ O6) as HO6.
  apply wp_bind. eapply wp_mono.
  { apply (iter_ret_rule (fun k x s'' => exists a1 c1 a2 c2 vs',
      x = (co b1 b2 a1 c1 0, co b1 b2 a2 c2 0) /\ Ov vs' L6 s'' /\
      good dims f (ch_done b1 b2 ch (Z.of_nat k) 0 0) vs')).
    - exists 0, 0, 0, 0, vs. split_and!; [done|done|]. split; [done|].
      intros c Hc (a' & c' & i' & -> & Hc' & Hi' & Hord). apply in_box_cons in Hc as [Hc _]. lia.
    - intros k x s7 Hk (a1 & c1 & a2 & c2 & vs' & -> & HO7 & HG7). rewrite Z.add_0_l. cbv beta match.
      eapply wp_step. { apply aset_Z. rewrite (co_len nb ch), Hlen. lia. }
      eapply wp_step. { apply aset_Z. rewrite (co_len nb ch), Hlen. lia. }
      rewrite to_int_id by llia. change (Z.to_nat 0) with 0%nat. rewrite !co_set0.
      eapply wp_mono.
      { apply (iter_ret_rule (fun j x s'' => exists c1 c2 vs',
          x = (co b1 b2 (Z.of_nat k) c1 0, co b1 b2 (Z.of_nat k) c2 0) /\ Ov vs' L6 s'' /\
          good dims f (ch_done b1 b2 ch (Z.of_nat k) (Z.of_nat j) 0) vs')).
        - exists c1, c2, vs'. done.
        - intros j x s8 Hj (c3 & c4 & vs2 & -> & HO8 & HG8). rewrite Z.add_0_l. cbv beta match.
          destruct (lookup_lt_is_Some_2 ss j) as [hs Hs]; [lia|]. destruct (lookup_lt_is_Some_2 bs j) as [hb Hb]; [lia|].
          destruct (lookup_lt_is_Some_2 ms j) as [hm Hm]; [lia|]. destruct (lookup_lt_is_Some_2 dn j) as [hd Hd]; [lia|].
          eapply wp_step. { apply aset_Z. rewrite (co_len nb ch), Hlen, Hax, app_length. lia. }
          eapply wp_step. { apply aget_nat. by rewrite list_lookup_fmap, Hs. }
          eapply wp_step. { apply aget_nat. by rewrite list_lookup_fmap, Hb. }
          eapply wp_step. { apply aget_nat. by rewrite list_lookup_fmap, Hm. }
          eapply wp_step. { apply aget_nat. by rewrite list_lookup_fmap, Hd. }
          rewrite to_int_id by llia. rewrite co_setc.
          apply wp_bind. eapply wp_mono.
          { assert (forall it, it ∈ arrays ss bs ms dn xs xb xm xd -> it ∈ L6) as Hm6.
            { intros it Hit. apply Hsub. by rewrite HL. }
            eapply (channel_ok HA HE nb ch b1 b2 t dev f P1 P2 Hch (proj2 Hnb) M1 M2 Hlane q pd pm ps px axis Hax p T HT Tt Vt Ct Dt
              (fun c => at_ Sc [c]) (fun c => at_ Bi [c]) (fun c => at_ Me [c]) ds) with (dS := dev) (dB := dev) (dM := dev) (dD := dev);
              [lia|lia|intros i Hi; apply Hf; lia|exact HO8|exact HG8| | | | |done|done|done|done].
            - apply Hm6. unfold arrays. rewrite !elem_of_app. left. apply (fam_in (Fs Sc t dev b1 b2) _ _ _ Hs).
            - apply Hm6. unfold arrays. rewrite !elem_of_app. right. left. apply (fam_in (Fb Bi t dev b1 b2) _ _ _ Hb).
            - apply Hm6. unfold arrays. rewrite !elem_of_app. do 2 right. left. apply (fam_in (Fm Me t dev b1 b2) _ _ _ Hm).
            - apply Hm6. unfold arrays. rewrite !elem_of_app. do 3 right. left. apply (fam_in (Fd t dev b1 b2 ds) _ _ _ Hd). }
          intros r s9 (-> & vs3 & HO9 & HG9). cbv match. apply wp_ret. eexists. split; [reflexivity|].
          exists (Z.of_nat j), (Z.of_nat j), vs3. replace (Z.of_nat (S j)) with (Z.of_nat j + 1) by lia. done. }
      intros r s9 (x & -> & c3 & c4 & vs2 & -> & HO9 & HG9). eexists. split; [reflexivity|].
      exists (Z.of_nat k), c3, (Z.of_nat k), c4, vs2. split_and!; [done|done|].
      eapply good_mono; [exact HG9|]. intros y _ (a' & c' & i' & -> & Hc' & Hi' & Hord).
      exists a', c', i'. split_and!; [done|lia|lia|lia|lia|lia]. }
  intros r s7 (x & -> & a1 & c1 & a2 & c2 & vs' & -> & HO7 & HG7). cbv match.
  destruct (over_own _ _ _ _ _ _ _ _ _ _ _ HO7) as (sb' & O7 & Hback').
  eapply (own_dealloc x1 [_; _; _; _; _] L); [done|exact O7|]. intros s8 O8. cbn [app] in O8.
  eapply (own_dealloc x2 [_; _; _; _] L); [done|exact O8|]. intros s9 O9. cbn [app] in O9.
  eapply (own_dealloc x3 [_; _; _] L); [done|exact O9|]. intros s10 O10. cbn [app] in O10.
  eapply (own_dealloc x4 [_; _] L); [done|exact O10|]. intros s11 O11. cbn [app] in O11.
  eapply (own_dealloc x5 [_] L); [done|exact O11|]. intros s12 O12. cbn [app] in O12.
  eapply (own_dealloc x6 [] L); [done|exact O12|]. intros s13 O13. cbn [app] in O13.
  apply wp_ret. split; [done|]. apply Hback' in O13.
  replace (tab dims f) with vs'; [done|]. eapply good_all; [|exact HG7|].
  - by destruct Hfit.
  - intros y Hy. destruct (co_all nb ch b1 b2 P1 P2 y Hy) as (a & c & i & -> & Ha & Hc & Hi).
    exists a, c, i. split_and!; [done|lia|lia|lia|lia|lia].
Qed.
End with_channel.

(** ** Three to five axes *)
Lemma fits_parts sz nb ch b1 b2 : fits sz (bn_dims nb ch b1 b2) -> fits sz (b1 ++ b2).
Proof.
  unfold bn_dims. intros (H1 & H2 & H3). apply Forall_cons in H1 as [_ H1].
  apply Forall_app in H1 as [H1 H1']. apply Forall_cons in H1' as [_ H1'].
  split_and!; [by apply Forall_app|cbn [length] in H2; rewrite !app_length in *; cbn [length] in H2; lia|].
  rewrite fmap_cons, fmap_app, fmap_cons, prodZ_cons, prodZ_app, prodZ_cons in H3.
  rewrite fmap_app, prodZ_app.
  pose proof (prodZ_max_pos b1). pose proof (prodZ_max_pos b2).
  set (x := prodZ (Z.max 1 <$> b1)) in *. set (y := prodZ (Z.max 1 <$> b2)) in *.
  assert (x * y <= Z.max 1 nb * (x * (Z.max 1 ch * y))).
  { replace (Z.max 1 nb * (x * (Z.max 1 ch * y))) with (Z.max 1 nb * Z.max 1 ch * (x * y)) by ring.
    assert (1 <= Z.max 1 nb * Z.max 1 ch) by nia. assert (0 < x * y) by nia. nia. }
  nia.
Qed.

Lemma bn_nd p pS pB pM pV T Sc Bi Me Va T3 ds axis eps e nb ch b1 b2 o E s :
  wf s -> alloc_all E -> hooks_ok E ->
  holds (heap s) p T -> holds (heap s) pS Sc -> holds (heap s) pB Bi -> holds (heap s) pM Me ->
  holds (heap s) pV Va -> bn_ok T axis Sc Bi Me Va eps -> init Va ->
  dev_type (a_dev T) = 0 ->
  a_dims T = bn_dims nb ch b1 b2 -> axis = Z.of_nat (S (length b1)) -> (1 <= length (b1 ++ b2))%nat ->
  Forall (fun d => 0 < d) b1 -> Forall (fun d => 0 < d) b2 ->
  Forall (fun d => d <= INT_MAX) b1 -> Forall (fun d => d <= INT_MAX) b2 ->
  0 < ch <= INT_MAX -> nb <= INT_MAX -> prodZ (b1 ++ b2) <= INT_MAX ->
  Z.of_nat (tsz (a_type T)) * prodZ (b1 ++ b2) <= 2 ^ 32 -> Z.of_nat (tsz (a_type T)) * ch <= 2 ^ 32 ->
  of_double (a_type T) eps = Some e ->
  (forall b, 0 <= b < ch -> bn_den (a_type T) eps (at_ Va [b]) (ds b)) ->
  valid T3 -> a_type T3 = a_type T -> a_dev T3 = a_dev T -> a_dims T3 = a_dims T ->
  (forall a c i, 0 <= a < nb -> 0 <= c < ch -> 0 <= i < prodZ (b1 ++ b2) ->
     bn_out (a_type T) (ds c) (at_ Sc [c]) (at_ Bi [c]) (at_ Me [c]) (at_ T (co b1 b2 a c i))
     = Some (at_ T3 (co b1 b2 a c i))) ->
  makes (aitisa_batch_norm (HPtr p) axis (HPtr pS) (HPtr pB) (HPtr pM) (HPtr pV) eps o) E s T3.
Proof.
  intros Hwf HA HE HT HS HB HM HV Hok Hin Ct Dt Hax Hr1 P1 P2 M1 M2 Hch Hnb Hlane Hp32 Hc32 He Hden HvT3 T3t T3v T3d Hf.
  pose proof (bn_check_ok p pS pB pM pV T Sc Bi Me Va axis eps E s HT HS HB HM HV Hok) as Hchk.
  destruct Hok as (Hr & Hax' & TS & TB & TM & TV & (ch' & Hch' & DS & DB & DM & DV) & Heps).
  assert (length (bn_dims nb ch b1 b2) = (length (b1 ++ b2) + 2)%nat) as Hlen.
  { unfold bn_dims. cbn [length]. rewrite !app_length. cbn. lia. }
  rewrite Dt, Hlen in Hr, Hax'. rewrite Dt in Hch'.
  assert (ch' = ch) as ->.
  { rewrite Hax, Nat2Z.id in Hch'. unfold bn_dims in Hch'. rewrite lookup_cons_ne_0 in Hch' by done.
    cbn [Nat.pred] in Hch'. rewrite list_lookup_middle in Hch' by done. congruence. }
  assert (b1 = [] \/ b2 = []) as Hends.
  { rewrite app_length in Hax'. destruct b1 as [|? b1]; [by left|]. destruct b2 as [|? b2]; [by right|].
    cbn in *. lia. }
  assert (0 <= nb) as Hnb0.
  { pose proof (valid_fits _ (holds_valid _ _ _ HT)) as [Hn _]. rewrite Dt in Hn. by apply Forall_cons in Hn as [Hn _]. }
  set (t := a_type T) in *. set (dev := a_dev T) in *.
  assert (fits (tsz t) (b1 ++ b2)) as Hfitp.
  { pose proof (valid_fits _ (holds_valid _ _ _ HT)) as Hn. rewrite Dt in Hn. by eapply fits_parts. }
  apply (makes_or_nomem_alloc _ _ _ o); [done|]. apply Qmakes_elim. unfold aitisa_batch_norm.
  eapply wp_step; [exact Hchk|]. rewrite bool_decide_eq_true_2 by done. cbn [negb].
  destruct (create_like_ok p T o E s Hwf HA HT) as (s1 & q & pd & pm & ps & px & Hcr & HO1).
  eapply wp_step; [exact Hcr|]. cbv beta match. rewrite bool_decide_eq_true_2 by done. cbn [negb].
  fold t dev in HO1. rewrite Dt in HO1.
  destruct (over_base _ _ _ _ _ _ _ _ _ _ _ p T HO1 HT) as (_ & bx & tg & ex & V & _).
  eapply wp_step; [by eapply tensor_ndim_ok|]. rewrite Dt, Hlen.
  replace (Z.of_nat (length (b1 ++ b2) + 2) =? 2) with false by lia.
  replace ((2 <? Z.of_nat (length (b1 ++ b2) + 2)) && (Z.of_nat (length (b1 ++ b2) + 2) <? 6)) with true by lia.
  cbv match.
  destruct (over_own _ _ _ _ _ _ _ _ _ _ _ HO1) as (sb & Ho1 & Hback).
  assert (forall U pU, holds (heap s) pU U -> holds (heap sb) pU U) as Hsb.
  { assert (heap sb = heap s1) as Hh.
    { destruct Ho1 as (_ & _ & _ & Hp). by inversion Hp. }
    intros U pU HU. rewrite Hh. by eapply over_base. }
  apply wp_bind. eapply wp_mono.
  { eapply (inter_ok (s0 := sb) HA HE p pS pB pM pV T Sc Bi Me Va t dev nb ch b1 b2 eps e axis ds); try done; try (by apply Hsb).
    lia. }
  intros r s2 (ss & bs & ms & dn & xs & xb & xm & xd & -> & Ls & Lb & Lm & Ld & O2). cbv match.
  cbn [bl_scale bl_bias bl_mean bl_den ba_scale ba_bias ba_mean ba_den]. rewrite app_nil_r in O2.
  apply wp_bind. eapply wp_mono.
  { eapply (with_channel_ok HA HE nb ch b1 b2 t dev (at_ T3)) with (Sc := Sc) (Bi := Bi) (Me := Me) (ds := ds);
      try done; [lia|by rewrite replicate_length|by apply Hback]. }
  intros r s3 (-> & HO3).
  destruct (over_base _ _ _ _ _ _ _ _ _ _ _ p T HO3 HT) as (_ & bx3 & tg3 & ex3 & V3 & _). rewrite Dt in V3.
  assert (bn_dims nb ch b1 b2 !! Z.to_nat axis = Some ch) as Hchd.
  { rewrite Hax, Nat2Z.id. unfold bn_dims. rewrite lookup_cons_ne_0 by done. cbn [Nat.pred]. by rewrite list_lookup_middle. }
  eapply wp_step; [eapply tensor_dim_ok; [exact V3|lia|exact Hchd]|].
  destruct (over_own _ _ _ _ _ _ _ _ _ _ _ HO3) as (sb3 & O3 & Hback3). unfold arrays in O3.
  set (fs := fam (Fs Sc t dev b1 b2) ss) in *. set (fb := fam (Fb Bi t dev b1 b2) bs) in *.
  set (fm := fam (Fm Me t dev b1 b2) ms) in *. set (fd := fam (Fd t dev b1 b2 ds) dn) in *.
  set (R := [IB xs; IB xb; IB xm; IB xd]) in *.
  apply wp_bind. eapply wp_mono.
  { apply (for64_rule (fun i _ s' => own E sb3 (drop i fs ++ drop i fb ++ drop i fm ++ drop i fd ++ R) s') _ _ _ (Z.to_nat ch)).
    - lia.
    - done.
    - intros i [] s' Hi O. rewrite Z.add_0_l.
      destruct (lookup_lt_is_Some_2 ss i) as [hs Hs]; [lia|]. destruct (lookup_lt_is_Some_2 bs i) as [hb Hb]; [lia|].
      destruct (lookup_lt_is_Some_2 ms i) as [hm Hm]; [lia|]. destruct (lookup_lt_is_Some_2 dn i) as [hd Hd]; [lia|].
      unfold fs, fb, fm, fd in O.
      rewrite (fam_drop _ ss _ _ Hs), (fam_drop _ bs _ _ Hb), (fam_drop _ ms _ _ Hm), (fam_drop _ dn _ _ Hd) in O.
      fold fs fb fm fd in O.
      eapply wp_step. { apply aget_nat. by rewrite list_lookup_fmap, Hs. }
      eapply (own_drop hs _ []); [done|exact O|]. intros s4 O4. cbn [app] in O4.
      eapply wp_step. { apply aget_nat. by rewrite list_lookup_fmap, Hb. }
      eapply (own_drop hb); [done|exact O4|]. intros s5 O5. rewrite app_assoc in O5.
      eapply wp_step. { apply aget_nat. by rewrite list_lookup_fmap, Hm. }
      eapply (own_drop hm); [done|exact O5|]. intros s6 O6. rewrite app_assoc in O6.
      eapply wp_step. { apply aget_nat. by rewrite list_lookup_fmap, Hd. }
      eapply (own_drop hd); [done|exact O6|]. intros s7 O7. rewrite <-!app_assoc in O7. by apply wp_ret. }
  intros [] s4 O4. rewrite !drop_ge in O4 by (unfold fs, fb, fm, fd; rewrite fam_length; lia). cbn [app] in O4.
  eapply (own_dealloc xs [] [_; _; _]); [done|exact O4|]. intros s5 O5. cbn [app] in O5.
  eapply (own_dealloc xb [] [_; _]); [done|exact O5|]. intros s6 O6. cbn [app] in O6.
  eapply (own_dealloc xm [] [_]); [done|exact O6|]. intros s7 O7. cbn [app] in O7.
  eapply (own_dealloc xd [] []); [done|exact O7|]. intros s8 O8. cbn [app] in O8. apply Hback3 in O8.
  rewrite <-Dt, <-T3d, tab_at in O8 by done.
  apply wp_ret. left. exists q. split; [done|].
  replace T3 with (AT t dev (a_dims T3) (a_vals T3)) by (destruct T3; cbn in *; congruence).
  eapply over_final; [done| |done].
  replace (AT t dev (a_dims T3) (a_vals T3)) with T3 by (destruct T3; cbn in *; congruence). done.
Qed.
