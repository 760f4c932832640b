(** * ProofNorm3: src/nn/batch_norm.c, one channel of one sample *)
From stdpp Require Import gmap list.
From Coq Require Import ZArith Lia Floats.SpecFloat.
From Coq Require Import ZifyBool ZifyNat.
From Verif Require Import Base Mem Spec SpecReal SpecNN SpecNorm ModelCore ModelBasic ModelMath ModelNN Logic
  ProofCore ProofCore2 ProofCore3 ProofIndex ProofKernel ProofKernel2 ProofBasic ProofSqueeze ProofSlice ProofFrame
  ProofMatmul ProofMath ProofCast ProofSqrt ProofDot3 ProofSoftmax ProofOwn ProofNorm ProofNorm2.
Open Scope Z_scope.

Ltac Zify.zify_post_hook ::= Z.div_mod_to_equations.

Section coords.
Context (nb ch : Z) (b1 b2 : list Z).
Context (P1 : Forall (fun d => 0 < d) b1) (P2 : Forall (fun d => 0 < d) b2) (Hch : 0 < ch).

Definition bn_dims : list Z := nb :: b1 ++ ch :: b2.
Definition bn_es : list Z := b1 ++ 1 :: b2.
(** Coordinate of element [i] of channel [c] of sample [a] *)
Definition co (a c i : Z) : list Z := a :: unravel b1 (i / prodZ b2) ++ c :: unravel b2 i.

Lemma es_pos : Forall (fun d => 0 < d) bn_es.
Proof using P1 P2. apply Forall_app. split; [done|]. constructor; [lia|done]. Qed.
Lemma es_prod : prodZ bn_es = prodZ (b1 ++ b2).
Proof using Type. unfold bn_es. rewrite !prodZ_app, prodZ_cons. lia. Qed.
Lemma es_len : length bn_es = S (length (b1 ++ b2)).
Proof using Type. unfold bn_es. rewrite !app_length. cbn. lia. Qed.
Lemma co_es a c i : a :: <[length b1 := c]> (unravel bn_es i) = co a c i.
Proof using P1 P2.
  unfold co, bn_es. rewrite unravel_app by (done || (constructor; [lia|done])).
  rewrite prodZ_cons, Z.mul_1_l. rewrite insert_app_r_alt by (rewrite unravel_length; lia).
  rewrite unravel_length, Nat.sub_diag. done.
Qed.
Lemma es_mid i : unravel bn_es i !! length b1 = Some 0.
Proof using P1 P2.
  unfold bn_es. rewrite unravel_app by (done || (constructor; [lia|done])).
  rewrite lookup_app_r by (rewrite unravel_length; lia). rewrite unravel_length, Nat.sub_diag.
  cbn. by rewrite Z.mod_1_r.
Qed.
Lemma co_box a c i : 0 <= a < nb -> 0 <= c < ch -> in_box bn_dims (co a c i).
Proof using P1 P2.
  intros Ha Hc. apply in_box_cons. split; [done|]. apply Forall2_app; [by apply unravel_in_box|].
  apply in_box_cons. split; [done|by apply unravel_in_box].
Qed.
Lemma co_all x : in_box bn_dims x ->
  exists a c i, x = co a c i /\ 0 <= a < nb /\ 0 <= c < ch /\ 0 <= i < prodZ (b1 ++ b2).
Proof using P1 P2.
  intros H. destruct x as [|a x]; [by inversion H|]. apply in_box_cons in H as [Ha H].
  apply Forall2_app_inv_l in H as (u1 & x' & Hu1 & Hx' & ->).
  destruct x' as [|c u2]; [by inversion Hx'|]. apply in_box_cons in Hx' as [Hc Hu2].
  change (in_box b1 u1) in Hu1. pose proof (ravel_bound _ _ Hu1) as B1. pose proof (ravel_bound _ _ Hu2) as B2.
  exists a, c, (ravel b1 u1 * prodZ b2 + ravel b2 u2). split_and!; try done; try lia.
  - unfold co. f_equal. rewrite Z.div_add_l by lia. rewrite Z.div_small by lia. rewrite Z.add_0_r.
    rewrite unravel_add by done. by rewrite !unravel_ravel.
  - nia.
  - rewrite prodZ_app. nia.
Qed.
Lemma co_len a c i : length (co a c i) = length bn_dims.
Proof using Type. unfold co, bn_dims. cbn. rewrite !app_length, !unravel_length. cbn. by rewrite unravel_length. Qed.
Lemma co_periodic a c : co a c (prodZ (b1 ++ b2)) = co a c 0.
Proof using P1 P2.
  rewrite <-!co_es. do 2 f_equal. rewrite <-es_prod.
  rewrite <-(unravel_add bn_es 0 1) by apply es_pos. f_equal. lia.
Qed.
Lemma co_0 a c : co a c 0 = a :: <[length b1 := c]> (replicate (length bn_es) 0).
Proof using P1 P2. rewrite <-co_es. by rewrite unravel_0. Qed.

(** ** The index update *)
Context (M1 : Forall (fun d => d <= INT_MAX) b1) (M2 : Forall (fun d => d <= INT_MAX) b2).
Lemma bn_advance_ok a c i axis E s : axis = Z.of_nat (S (length b1)) ->
  bn_advance (length bn_es) axis bn_dims (co a c i) E s = Done (co a c (i + 1)) s.
Proof using P1 P2 M1 M2.
  intros ->. rewrite <-!co_es. unfold bn_advance.
  apply (odometer (fun u => a :: <[length b1 := c]> u)); [apply es_pos|].
  intros j d u x Hd Hu Hx. cbv zeta beta.
  pose proof (in_box_length _ _ Hu) as Hl. pose proof (lookup_lt_Some _ _ _ Hd) as Hj.
  pose proof (Forall2_lookup_lr _ _ _ _ _ _ Hu Hd Hx) as Hx'. cbv beta in Hx'.
  destruct (decide (j = length b1)) as [->|Hne].
  - replace (Z.of_nat (length b1) + 1 =? Z.of_nat (S (length b1))) with true by lia.
    unfold bn_es in Hd. rewrite list_lookup_middle in Hd by done. injection Hd as <-.
    assert (x = 0) as -> by lia. change (0 + 1 <? 1) with false. cbv match.
    by rewrite list_insert_insert.
  - replace (Z.of_nat j + 1 =? Z.of_nat (S (length b1))) with false by lia.
    assert (d <= INT_MAX /\ (b1 ++ ch :: b2) !! j = Some d) as [Hd1 Hd2].
    { unfold bn_es in Hd. destruct (decide (j < length b1)%nat).
      - rewrite lookup_app_l in Hd |- * by done. split; [|done]. by eapply (Forall_lookup_1 _ _ _ _ M1).
      - rewrite lookup_app_r in Hd |- * by lia. destruct (j - length b1)%nat as [|k] eqn:Hk; [lia|].
        cbn in Hd |- *. split; [|done]. by eapply (Forall_lookup_1 _ _ _ _ M2). }
    replace (Z.of_nat j + 1) with (Z.of_nat (S j)) by lia.
    assert ((a :: <[length b1:=c]> u) !! S j = Some x) as Hx2.
    { rewrite lookup_cons_ne_0 by done. cbn [Nat.pred]. rewrite list_lookup_insert_ne by done. exact Hx. }
    erewrite bind_done by (apply aget_nat; exact Hx2).
    erewrite bind_done by (apply ck64_ok; llia).
    erewrite bind_done by (apply aget_nat; exact Hd2).
    assert (forall y, aset (a :: <[length b1:=c]> u) (Z.of_nat (S j)) y E s
                      = Done (a :: <[length b1:=c]> (<[j := y]> u)) s) as Hset.
    { intros y. rewrite aset_nat by (cbn; rewrite insert_length; lia). cbn.
      by rewrite list_insert_commute by done. }
    destruct (Z.ltb_spec (x + 1) d).
    + replace (d <=? x + 1) with false by lia. by erewrite bind_done by apply Hset.
    + replace (d <=? x + 1) with true by lia. by erewrite bind_done by apply Hset.
Qed.
End coords.

(** ** Copying a channel out *)
Definition ch_done (b1 b2 : list Z) (ch a c i : Z) (x : list Z) : Prop :=
  exists a' c' i', x = co b1 b2 a' c' i' /\ 0 <= c' < ch /\ 0 <= i' < prodZ (b1 ++ b2) /\
    (a' < a \/ a' = a /\ (c' < c \/ c' = c /\ i' < i)).

Section channel.
Context {E : env} {s : st} (HA : alloc_all E) (HE : hooks_ok E).
Context (nb ch : Z) (b1 b2 : list Z) (t : tcode) (dev : device) (f : list Z -> val).
Context (P1 : Forall (fun d => 0 < d) b1) (P2 : Forall (fun d => 0 < d) b2) (Hch : 0 < ch <= INT_MAX) (Hnb : nb <= INT_MAX).
Context (M1 : Forall (fun d => d <= INT_MAX) b1) (M2 : Forall (fun d => d <= INT_MAX) b2).
Context (Hfit : fits (tsz t) (bn_dims nb ch b1 b2)).
Context (Hlane : prodZ (b1 ++ b2) <= INT_MAX).
Context (q pd pm ps px : nat) (axis : Z) (Hax : axis = Z.of_nat (S (length b1))).
Notation dims := (bn_dims nb ch b1 b2).
Notation N := (prodZ (b1 ++ b2)).
Let Ov := over (E:=E) (s:=s) q pd pm ps px t dev dims.

Lemma transport_ok a c vs L s' q1 W :
  0 <= a < nb -> 0 <= c < ch -> Ov vs L s' -> good dims f (ch_done b1 b2 ch a c 0) vs -> IT q1 W ∈ L ->
  a_type W = t -> a_dims W = b1 ++ b2 ->
  (forall i, 0 <= i < N -> a_vals W !! Z.to_nat i = Some (f (co b1 b2 a c i))) ->
  wp (batch_norm_transport (HPtr q1) (HPtr q) (co b1 b2 a c 0) (suffs dims) axis) E s'
    (fun idx s'' => idx = co b1 b2 a c 0 /\ exists vs', Ov vs' L s'' /\ good dims f (ch_done b1 b2 ch a (c + 1) 0) vs').
Proof using All.
  intros Ha Hc HO HG HIn TW DW HW. unfold batch_norm_transport.
  destruct (over_data _ _ _ _ _ _ _ _ _ _ _ q1 W HO HIn) as (data & tg & ex & Hv & Hx & Hne).
  rewrite TW, DW in Hv. rewrite TW in Hx.
  pose proof (over_view _ _ _ _ _ _ _ _ _ _ _ HO) as Hvq.
  eapply wp_step; [by eapply tensor_ndim_ok|].
  eapply wp_step; [by eapply tensor_dims_ok|].
  eapply wp_step; [by eapply tensor_size_ok|].
  eapply wp_step; [by eapply tensor_dtype_ok|]. cbn [d_size dtype_of].
  eapply wp_step; [by eapply tensor_data_ok|].
  eapply wp_step; [by eapply tensor_data_ok|].
  pose proof (tsz_range t) as Htr. pose proof (fits_bytes _ _ Hfit) as Hby.
  pose proof (over_px _ _ _ _ _ _ _ _ _ _ _ HO) as Hpx.
  assert (0 < N) as HN by (apply prodZ_pos, Forall_app; done).
  eapply wp_mono.
  { apply (for64_rule (fun k idx s4 => idx = co b1 b2 a c (Z.of_nat k) /\ exists vs',
      s4 = upd s' px (Blk (e_alloc E) (CData (cells t vs'))) /\
      good dims f (ch_done b1 b2 ch a c (Z.of_nat k)) vs') _ _ _ (Z.to_nat N)); [lia| |].
    - split; [done|]. exists vs. split; [|done]. by rewrite upd_id.
    - intros k idx s4 Hk (-> & vs' & -> & HG'). rewrite Z.add_0_l.
      assert (in_box dims (co b1 b2 a c (Z.of_nat k))) as Hbox by by apply co_box.
      pose proof (ravel_bound _ _ Hbox) as Hrb.
      eapply wp_step.
      { apply lin_index_ok; [exact Hbox|done|done|]. nia. }
      set (r := ravel dims (co b1 b2 a c (Z.of_nat k))) in *.
      assert (0 <= r * Z.of_nat (tsz t) <= Z.of_nat (tsz t) * prodZ dims) by nia.
      assert (0 <= Z.of_nat k * Z.of_nat (tsz t) <= INT_MAX * 8) by nia.
      eapply wp_step; [apply ck64_ok; llia|].
      eapply wp_step; [apply ck64_ok; llia|].
      eapply wp_step.
      { eapply (over_copy E s' px t vs' data tg (a_vals W) ex (f (co b1 b2 a c (Z.of_nat k))) (Z.to_nat r) k);
          [done|done| | | |reflexivity|reflexivity].
        - destruct HG' as [-> _]. lia.
        - rewrite <-(HW (Z.of_nat k)) by lia. by rewrite Nat2Z.id.
        - by rewrite Z2Nat.id by lia. }
      eapply wp_intro.
      { replace (Z.to_nat (Z.of_nat (length dims) - 1)) with (length (bn_es b1 b2)).
        2:{ unfold bn_dims, bn_es. cbn [length]. rewrite !app_length. cbn. lia. }
        by apply bn_advance_ok. }
      replace (Z.of_nat k + 1) with (Z.of_nat (S k)) by lia. split; [done|].
      exists (<[Z.to_nat r := f (co b1 b2 a c (Z.of_nat k))]> vs'). split; [done|].
      eapply good_insert; [exact HG'|exact Hbox|].
      intros x _ (a' & c' & i' & -> & Hc' & Hi' & Hord).
      destruct (decide (a' = a /\ c' = c /\ i' = Z.of_nat k)) as [(-> & -> & ->)|Hn]; [by right|].
      left. exists a', c', i'. split_and!; [done|lia|lia|lia|lia|lia]. }
  intros idx s4 (-> & vs' & -> & HG').
  split. { rewrite Z2Nat.id by lia. by apply co_periodic. }
  exists vs'. split; [by apply over_set with (vs := vs)|].
  eapply good_mono; [exact HG'|]. intros x _ (a' & c' & i' & -> & Hc' & Hi' & Hord).
  exists a', c', i'. split_and!; [done|lia|lia|lia|lia|lia].
Qed.
End channel.

(** ** The slice of one channel *)
Lemma list_insert_cons_S {A} (a c : A) n l : <[S n := c]> (a :: l) = a :: <[n := c]> l.
Proof. done. Qed.
Lemma slice_dims_ones ss : Forall (fun d => d <> 0) ss -> slice_dims ss (replicate (length ss) 1) = ss.
Proof.
  induction 1 as [|d ss Hd H IH]; [done|]. cbn [slice_dims length replicate].
  replace (d =? 0) with false by lia. by rewrite cdiv_1, IH.
Qed.
Lemma slice_src_ones bs ss u : Forall (fun d => d <> 0) ss -> length bs = length ss -> length u = length ss ->
  slice_src bs ss (replicate (length ss) 1) u = zip_with Z.add bs u.
Proof.
  intros H. revert bs u. induction H as [|d ss Hd H IH]; intros [|b bs] [|x u] Hb Hu; try done.
  cbn [slice_src length replicate zip_with]. replace (d =? 0) with false by lia.
  rewrite IH by (cbn in *; lia). f_equal. lia.
Qed.
Lemma slice_ok_app d1 x1 s1 t1 d2 x2 s2 t2 :
  slice_ok d1 x1 s1 t1 -> slice_ok d2 x2 s2 t2 -> slice_ok (d1 ++ d2) (x1 ++ x2) (s1 ++ s2) (t1 ++ t2).
Proof.
  revert x1 s1 t1. induction d1 as [|d d1 IH]; intros [|x x1] [|z s1] [|y t1]; try done.
  cbn [slice_ok app]. intros [H1 H2] H. split; [done|]. by apply IH.
Qed.
Lemma slice_ok_full d : Forall (fun e => 0 < e) d -> Forall (fun e => e <= INT_MAX) d ->
  slice_ok d (replicate (length d) 0) d (replicate (length d) 1).
Proof.
  induction 1 as [|e d He H IH]; intros Hm; [done|]. apply Forall_cons in Hm as [Hm1 Hm2].
  cbn [slice_ok length replicate]. split; [split_and!; llia|by apply IH].
Qed.
Lemma squeeze_none g d : (forall i, g i = false) -> squeeze_dims g d = d.
Proof.
  revert g. induction d as [|e d IH]; intros g Hg; [done|]. cbn [squeeze_dims]. rewrite Hg. cbn [andb].
  f_equal. apply IH. intros i. apply Hg.
Qed.
Lemma squeeze_mid g d1 d2 : g (length d1) = true -> (forall i, i <> length d1 -> g i = false) ->
  squeeze_dims g (d1 ++ 1 :: d2) = d1 ++ d2.
Proof.
  revert g. induction d1 as [|e d1 IH]; intros g Ht Hf; cbn [app squeeze_dims].
  - cbn in Ht. rewrite Ht. cbn [andb Z.eqb Pos.eqb]. apply squeeze_none. intros i. by apply Hf.
  - rewrite (Hf 0%nat) by done. cbn [andb]. f_equal. apply IH; [done|]. intros i Hi. apply Hf. cbn. lia.
Qed.
Lemma zip_zero n u : length u = n -> zip_with Z.add (replicate n 0) u = u.
Proof. revert u. induction n as [|n IH]; intros [|x u] Hu; try done. cbn. rewrite IH by (cbn in Hu; lia). done. Qed.

Section channel2.
Context {E : env} {s : st} (HA : alloc_all E) (HE : hooks_ok E).
Context (nb ch : Z) (b1 b2 : list Z) (t : tcode) (dev : device) (f : list Z -> val).
Context (P1 : Forall (fun d => 0 < d) b1) (P2 : Forall (fun d => 0 < d) b2) (Hch : 0 < ch <= INT_MAX) (Hnb : nb <= INT_MAX).
Context (M1 : Forall (fun d => d <= INT_MAX) b1) (M2 : Forall (fun d => d <= INT_MAX) b2).
Context (Hlane : prodZ (b1 ++ b2) <= INT_MAX).
Context (q pd pm ps px : nat) (axis : Z) (Hax : axis = Z.of_nat (S (length b1))).
Notation dims := (bn_dims nb ch b1 b2).
Notation N := (prodZ (b1 ++ b2)).
Let Ov := over (E:=E) (s:=s) q pd pm ps px t dev dims.
Context (p : nat) (T : atensor) (HT : holds (heap s) p T).
Context (Tt : a_type T = t) (Vt : a_dev T = dev) (Ct : dev_type dev = 0) (Dt : a_dims T = dims).
(** The values of one channel's parameters *)
Context (Sv Bv Mv Dv : Z -> val).
(** A spread parameter *)
Definition spread_of (dv : device) (v : val) : atensor := AT t dv (b1 ++ b2) (replicate (Z.to_nat N) v).

Lemma ss_nz : Forall (fun d => d <> 0) (1 :: bn_es b1 b2).
Proof using P1 P2.
  clear -P1 P2. constructor; [done|]. eapply Forall_impl; [by apply es_pos|]. intros x Hx. cbv beta in Hx. lia.
Qed.
Lemma slice_src_co a c i : 0 <= i < N ->
  slice_src (co b1 b2 a c 0) (1 :: bn_es b1 b2) (replicate (length dims) 1) (unravel (1 :: bn_es b1 b2) i)
  = co b1 b2 a c i.
Proof using P1 P2.
  clear -P1 P2. intros Hi. replace (length dims) with (length (1 :: bn_es b1 b2))
    by (unfold bn_dims, bn_es; cbn; rewrite !app_length; done).
  rewrite slice_src_ones; [|apply ss_nz| |by rewrite unravel_length].
  2:{ rewrite (co_len nb ch). unfold bn_dims, bn_es; cbn; rewrite !app_length; done. }
  cbn [unravel]. rewrite es_prod, Z.div_small, Z.mod_0_l by lia.
  unfold co, bn_es. cbn [zip_with]. f_equal; [lia|].
  rewrite !(ProofSoftmax.unravel_0), (unravel_app b1 (1 :: b2)) by (done || (constructor; [lia|done])).
  rewrite zip_with_app by (by rewrite replicate_length, unravel_length).
  rewrite zip_zero by apply unravel_length. rewrite prodZ_cons, Z.mul_1_l. f_equal.
  cbn [unravel zip_with]. rewrite zip_zero by apply unravel_length. f_equal. rewrite Z.mod_1_r. lia.
Qed.

Lemma channel_ok a c vs L s' pS pB pM pD dS dB dM dD x0 :
  0 <= a < nb -> 0 <= c < ch ->
  (forall i, 0 <= i < N ->
     bn_out t (Dv c) (Sv c) (Bv c) (Mv c) (at_ T (co b1 b2 a c i)) = Some (f (co b1 b2 a c i))) ->
  Ov vs L s' -> good dims f (ch_done b1 b2 ch a c 0) vs ->
  IT pS (spread_of dS (Sv c)) ∈ L -> IT pB (spread_of dB (Bv c)) ∈ L -> IT pM (spread_of dM (Mv c)) ∈ L ->
  IT pD (spread_of dD (Dv c)) ∈ L ->
  dev_type dS = 0 -> dev_type dB = 0 -> dev_type dM = 0 -> dev_type dD = 0 ->
  wp (bn_channel (HPtr p) (HPtr pS) (HPtr pB) (HPtr pM) (HPtr pD) (HPtr q) (co b1 b2 a c 0)
        (1 :: bn_es b1 b2) (replicate (length dims) 1) axis c (co b1 b2 a x0 0) (suffs dims)) E s'
    (fun r s'' => r = Next (co b1 b2 a c 0) /\
       exists vs', Ov vs' L s'' /\ good dims f (ch_done b1 b2 ch a (c + 1) 0) vs').
Proof using All.
  intros Ha Hc Hf HO HG HS HB HM HD CS CB CM CD.
  destruct (over_own _ _ _ _ _ _ _ _ _ _ _ HO) as (s1 & Ho & Hback).
  assert (forall U pU, IT pU U ∈ L -> holds (heap s') pU U) as HL by (intros; by eapply own_holds).
  assert (0 < N) as HN by (apply prodZ_pos, Forall_app; done).
  set (ws := (fun j => f (co b1 b2 a c (Z.of_nat j))) <$> seq 0 (Z.to_nat N)).
  assert (length ws = Z.to_nat N) as Lw by (unfold ws; by rewrite fmap_length, seq_length).
  assert (length dims = length (1 :: bn_es b1 b2)) as Hlen
    by (unfold bn_dims, bn_es; cbn; rewrite !app_length; done).
  assert (slice_dims (1 :: bn_es b1 b2) (replicate (length dims) 1) = 1 :: bn_es b1 b2) as Hsd.
  { rewrite Hlen. apply slice_dims_ones, ss_nz. }
  assert (prodZ (1 :: bn_es b1 b2) = N) as Hp1 by (rewrite prodZ_cons, es_prod; lia).
  assert (forall (v : val) i w, replicate (Z.to_nat N) v !! i = Some w -> w = v /\ (i < Z.to_nat N)%nat) as Hrep.
  { intros v i w Hw. by apply lookup_replicate in Hw. }
  pose proof (HL _ _ HS) as HS'. pose proof (HL _ _ HB) as HB'. pose proof (HL _ _ HM) as HM'.
  pose proof (HL _ _ HD) as HD'.
  unfold bn_channel.
  eapply (chain_ok HA HE _ L s' p pM pD pS pB T (spread_of dM (Mv c)) (spread_of dD (Dv c)) (spread_of dS (Sv c))
            (spread_of dB (Bv c)) t dev (b1 ++ b2)
            (tab (1 :: bn_es b1 b2) (fun u => at_ T (slice_src (co b1 b2 a c 0) (1 :: bn_es b1 b2) (replicate (length dims) 1) u))) ws);
    rewrite ?Hsd.
  - exact Ho.
  - by eapply over_base; [exact HO|].
  - exact HM'.
  - exact HD'.
  - exact HS'.
  - exact HB'.
  - done.
  - done.
  - done.
  - done.
  - done.
  - done.
  - done.
  - done.
  - done.
  - done.
  - done.
  - done.
  - done.
  - done.
  - done.
  - lia.
  - by rewrite Dt.
  - rewrite Dt. unfold bn_dims, bn_es, co. rewrite Z.div_0_l by (pose proof (prodZ_pos b2 P2); lia).
    rewrite !ProofSoftmax.unravel_0. cbn [length replicate slice_ok]. split; [split_and!; llia|].
    rewrite app_length. cbn [length]. rewrite replicate_add. cbn [replicate].
    apply slice_ok_app; [by apply slice_ok_full|].
    cbn [slice_ok]. split; [split_and!; llia|by apply slice_ok_full].
  - lia.
  - apply ss_nz.
  - done.
  - apply NoDup_cons. split; [intros Hin%elem_of_list_singleton; lia|apply NoDup_singleton].
  - done.
  - rewrite <-Hlen. repeat constructor; unfold bn_dims; cbn [length]; rewrite ?app_length; cbn; lia.
  - cbn [squeeze_dims]. rewrite bool_decide_eq_true_2 by (by left). cbn [andb Z.eqb Pos.eqb].
    unfold bn_es. apply squeeze_mid.
    + apply bool_decide_eq_true_2. rewrite Hax. right. left.
    + intros i Hi. apply bool_decide_eq_false_2. rewrite Hax.
      intros [Hin|Hin%elem_of_list_singleton]%elem_of_cons; lia.
  - done.
  - rewrite Lw, tab_length. lia.
  - intros i x m d c' b w Hx Hm Hd Hc' Hb Hw. cbn [a_vals spread_of] in *.
    destruct (Hrep _ _ _ Hm) as [-> Hi]. destruct (Hrep _ _ _ Hd) as [-> _].
    destruct (Hrep _ _ _ Hc') as [-> _]. destruct (Hrep _ _ _ Hb) as [-> _].
    rewrite tab_lookup in Hx by lia. apply (inj Some) in Hx. rewrite slice_src_co in Hx by lia. rewrite <-Hx.
    unfold ws in Hw. rewrite list_lookup_fmap, lookup_seq_lt in Hw by lia. apply (inj Some) in Hw. rewrite <-Hw.
    apply Hf; lia.
  - intros q0 q1 s2 us Ho2. cbn [a_dev spread_of] in Ho2.
    pose proof (Hback _ _ Ho2) as HO2. set (W := AT t dS (b1 ++ b2) ws) in *. set (U := AT t dS (b1 ++ b2) us) in *.
    eapply wp_step. { apply aset_Z. rewrite (co_len nb ch), Hlen, Hax. unfold bn_es. cbn. rewrite app_length. cbn. lia. }
    replace (<[Z.to_nat axis:=c]> (co b1 b2 a x0 0)) with (co b1 b2 a c 0).
    2:{ rewrite Hax, Nat2Z.id. unfold co. rewrite list_insert_cons_S.
        rewrite insert_app_r_alt by (rewrite unravel_length; lia).
        by rewrite unravel_length, Nat.sub_diag. }
    apply wp_bind. eapply wp_mono.
    { eapply (transport_ok HA HE nb ch b1 b2 t dev f) with (W := W) (vs := vs); try done; [|left|].
      - pose proof (valid_fits _ (holds_valid _ _ _ HT)) as Hfit. by rewrite Tt, Dt in Hfit.
      - intros i Hi. cbn [a_vals W]. unfold ws. rewrite list_lookup_fmap, lookup_seq_lt by lia. cbn.
        by rewrite Z2Nat.id by lia. }
    intros idx s3 (-> & vs' & HO3 & HG3).
    destruct (over_own _ _ _ _ _ _ _ _ _ _ _ HO3) as (s5 & Ho5 & Hback5).
    eapply (own_try_drop q0 U _ [_] L); [done|exact Ho5|]. intros s6 Ho6. cbn [app] in Ho6.
    eapply (own_try_drop q1 W _ [] L); [done|exact Ho6|]. intros s7 Ho7. cbn [app] in Ho7.
    apply wp_ret. split; [done|]. exists vs'. split; [by apply Hback5|done].
Qed.
End channel2.
