(** * ProofNorm8: batch normalisation is undefined as soon as an element does not exist *)
From stdpp Require Import gmap list.
From Coq Require Import ZArith Lia Floats.SpecFloat.
From Coq Require Import ZifyBool ZifyNat.
From Verif Require Import Base Mem Spec SpecReal SpecExact SpecNN SpecNorm ModelCore ModelBasic ModelMath ModelNN Logic
  ProofCore ProofCore2 ProofCore3 ProofIndex ProofKernel ProofKernel2 ProofBasic ProofSqueeze ProofSlice ProofFrame
  ProofMatmul ProofMath ProofCast ProofSqrt ProofExact ProofDot3 ProofSoftmax ProofOwn ProofNorm ProofNorm2 ProofNorm3
  ProofNorm4 ProofNorm5 ProofNorm6 ProofNorm7.
Open Scope Z_scope.

Ltac Zify.zify_post_hook ::= Z.div_mod_to_equations.

(** All elements up to [n] exist, or one does not. *)
Lemma all_some {A} (g : Z -> option A) n :
  (forall i, 0 <= i < n -> g i <> None) \/ exists i, 0 <= i < n /\ g i = None.
Proof.
  destruct (first_index (fun k => match g (Z.of_nat k) with None => true | _ => false end) (Z.to_nat n)) as [H|(j & Hj & H & _)].
  - left. intros i Hi. specialize (H (Z.to_nat i) ltac:(lia)). rewrite Z2Nat.id in H by lia. by destruct (g i).
  - right. exists (Z.of_nat j). split; [lia|]. by destruct (g (Z.of_nat j)).
Qed.
Lemma some_default {A} (x : option A) d : x <> None -> x = Some (default d x).
Proof. by destruct x. Qed.

Lemma step_or {A B} (m : M A) (k : A -> M B) E s a s' u Q :
  m E s = Done a s' -> (k a E s' = UB u \/ wp (k a) E s' Q) -> bind m k E s = UB u \/ wp (bind m k) E s Q.
Proof. intros Hm. unfold wp. by rewrite (bind_done _ _ _ _ _ _ Hm). Qed.

Section with_channel.
Context {E : env} {s : st} (HA : alloc_all E) (HE : hooks_ok E).
Context (nb ch : Z) (b1 b2 : list Z) (t : tcode) (dev : device).
Context (P1 : Forall (fun d => 0 < d) b1) (P2 : Forall (fun d => 0 < d) b2) (Hch : 0 < ch <= INT_MAX) (Hnb : 0 <= nb <= INT_MAX).
Context (M1 : Forall (fun d => d <= INT_MAX) b1) (M2 : Forall (fun d => d <= INT_MAX) b2).
Context (Hlane : prodZ (b1 ++ b2) <= INT_MAX).
Context (q pd pm ps px : nat) (axis : Z) (Hax : axis = Z.of_nat (S (length b1))).
Context (Hends : b1 = [] \/ b2 = []) (Hrank : (1 <= length (b1 ++ b2) <= 3)%nat).
Notation dims := (bn_dims nb ch b1 b2).
Notation pdims := (b1 ++ b2).
Notation N := (prodZ pdims).
Let Ov := over (E:=E) (s:=s) q pd pm ps px t dev dims.
Context (p : nat) (T : atensor) (HT : holds (heap s) p T) (IT_ : init T).
Context (Tt : a_type T = t) (Vt : a_dev T = dev) (Ct : dev_type dev = 0) (Dt : a_dims T = dims).
Context (Sc Bi Me : atensor) (ds : Z -> val).
Context (Vs : forall c, 0 <= c < ch -> val_ok t (at_ Sc [c])) (Vb : forall c, 0 <= c < ch -> val_ok t (at_ Bi [c]))
  (Vm : forall c, 0 <= c < ch -> val_ok t (at_ Me [c])) (Vd : forall c, 0 <= c < ch -> val_ok t (ds c)).
Let g (a c i : Z) := bn_out t (ds c) (at_ Sc [c]) (at_ Bi [c]) (at_ Me [c]) (at_ T (co b1 b2 a c i)).
Context (Hbad : exists a c i, 0 <= a < nb /\ 0 <= c < ch /\ 0 <= i < N /\ g a c i = None).
Notation arrays := (arrays Sc Bi Me t dev b1 b2 ds).
Let f (x : list Z) := let k := chan axis x in default VU (bn_out t (ds k) (at_ Sc [k]) (at_ Bi [k]) (at_ Me [k]) (at_ T x)).

Lemma with_channel_bad vs L s' ss bs ms dn xs xb xm xd :
  length ss = Z.to_nat ch -> length bs = Z.to_nat ch -> length ms = Z.to_nat ch -> length dn = Z.to_nat ch ->
  L = arrays ss bs ms dn xs xb xm xd -> length vs = Z.to_nat (prodZ dims) ->
  Ov vs L s' ->
  batch_norm_with_channel (HPtr p) axis (HPtr <$> ss) (HPtr <$> bs) (HPtr <$> ms) (HPtr <$> dn) (HPtr q) E s' = UB UB_overflow.
Proof using All.
  intros Ls Lb Lm Ld HL Lv HO.
  pose proof (valid_fits _ (holds_valid _ _ _ HT)) as Hfit. rewrite Tt, Dt in Hfit.
  unfold batch_norm_with_channel.
  destruct (over_base _ _ _ _ _ _ _ _ _ _ _ p T HO HT) as (_ & bx & tg & ex & V & _). rewrite Tt, Vt, Dt in V.
  assert (length dims = (length pdims + 2)%nat) as Hlen.
  { unfold bn_dims. cbn [length]. rewrite !app_length. cbn. lia. }
  assert (length dims = length (1 :: bn_es b1 b2)) as Hlen2.
  { unfold bn_dims, bn_es. cbn [length]. by rewrite !app_length. }
  erewrite bind_done by by eapply tensor_ndim_ok.
  replace (negb (axis =? 1) && negb (axis =? Z.of_nat (length dims) - 1)) with false.
  2:{ destruct Hends as [Hb|Hb]; rewrite Hb, ?app_nil_r, ?app_length in *; cbn in *; lia. }
  erewrite bind_done by by eapply tensor_dims_ok.
  erewrite bind_done by by apply aget_Z.
  assert (dims !! Z.to_nat axis = Some ch) as Hchd.
  { rewrite Hax, Nat2Z.id. unfold bn_dims. rewrite lookup_cons_ne_0 by done. cbn [Nat.pred]. by rewrite list_lookup_middle. }
  erewrite bind_done by (apply aget_Z; [lia|exact Hchd]).
  destruct (over_own _ _ _ _ _ _ _ _ _ _ _ HO) as (sb & Ho & Hback).
  eapply (ub_mem HA); [llia|exact Ho|]. intros x1 s1 O1.
  eapply (ub_mem HA); [llia|exact O1|]. intros x2 s2 O2.
  eapply (ub_mem HA); [llia|exact O2|]. intros x3 s3 O3. cbn [is_null orb]. cbv zeta.
  assert (Forall (fun d => 0 <= d <= INT_MAX) dims) as Hdr.
  { unfold bn_dims. constructor; [lia|]. apply Forall_app. split; [|constructor; [lia|]];
      apply Forall_forall; intros d Hd.
    - rewrite Forall_forall in P1, M1. specialize (P1 d Hd). specialize (M1 d Hd). lia.
    - rewrite Forall_forall in P2, M2. specialize (P2 d Hd). specialize (M2 d Hd). lia. }
  erewrite (bind_done _ _ _ _ dims s3).
  2:{ rewrite (for64_pure (fun k => take k dims) _ _ _ (length dims)).
    - by rewrite firstn_all.
    - by rewrite take_0.
    - lia.
    - intros k Hk. rewrite Z.add_0_l. destruct (lookup_lt_is_Some_2 dims k Hk) as [d Hd].
      erewrite bind_done by (apply aget_nat; exact Hd). unfold ret. f_equal.
      pose proof (Forall_lookup_1 _ _ _ _ Hdr Hd) as Hdd. cbv beta in Hdd. rewrite to_int_id by llia.
      symmetry. by apply take_S_r. }
  erewrite bind_done by (apply aset_Z; llia).
  erewrite bind_done by (apply aset_Z; rewrite insert_length; rewrite Hlen, Hax, app_length; lia).
  replace (<[Z.to_nat axis:=1]> (<[Z.to_nat 0:=1]> dims)) with (1 :: bn_es b1 b2).
  2:{ rewrite Hax, Nat2Z.id. unfold bn_dims, bn_es. change (<[Z.to_nat 0:=1]> (nb :: b1 ++ ch :: b2)) with (1 :: b1 ++ ch :: b2).
      rewrite list_insert_cons_S. rewrite insert_app_r_alt by done. by rewrite Nat.sub_diag. }
  eapply (ub_mem HA); [llia|exact O3|]. intros x4 s4 O4.
  erewrite bind_done by (eapply own_touch; [exact O4|left]).
  eapply (ub_mem HA); [llia|exact O4|]. intros x5 s5 O5.
  eapply (ub_mem HA); [llia|exact O5|]. intros x6 s6 O6. cbn [is_null orb].
  erewrite bind_done.
  2:{ apply row_offsets_ok; [done|lia|]. intros k. by eapply (fits_drop (tsz_pos t)). }
  rewrite Nat2Z.id.
  set (L6 := IB x6 :: IB x5 :: IB x4 :: IB x3 :: IB x2 :: IB x1 :: L) in *.
  assert (L ⊆ L6) as Hsub by (unfold L6; intros y Hy; by do 6 right).
  assert (replicate (length dims) 0 = co b1 b2 0 0 0) as Hz.
  { rewrite co_0 by done. rewrite Hlen2. cbn [length replicate]. f_equal.
    symmetry. apply list_insert_id. unfold bn_es. rewrite lookup_replicate_2; [done|]. rewrite app_length. cbn. lia. }
  rewrite Hz. pose proof (Hback _ _ O6) as HO6.
  (* what has been passed exists *)
  set (past := fun a c : Z => forall a' c' i', 0 <= a' < nb -> 0 <= c' < ch -> 0 <= i' < N ->
    (a' < a \/ a' = a /\ c' < c) -> g a' c' i' <> None).
  apply bind_UB.
  match goal with |- iter_ret ?n0 ?i0 ?body0 ?z0 E s6 = _ => destruct (iter_ret_or (fun k x s'' => past (Z.of_nat k) 0 /\
      exists a1 c1 a2 c2 vs', x = (co b1 b2 a1 c1 0, co b1 b2 a2 c2 0) /\ Ov vs' L6 s'' /\
      good dims f (ch_done b1 b2 ch (Z.of_nat k) 0 0) vs') E n0 i0 body0 z0 s6 UB_overflow) as [HU|HW] end; [| |exact HU|].
  - split. { intros a' c' i' H1 H2 H3 H4. lia. }
    exists 0, 0, 0, 0, vs. split_and!; [done|done|]. split; [done|].
    intros c Hc (a' & c' & i' & -> & Hc' & Hi' & Hord). apply in_box_cons in Hc as [Hc _]. lia.
  - intros k x s7 Hk (HP & a1 & c1 & a2 & c2 & vs' & -> & HO7 & HG7). rewrite Z.add_0_l. cbv beta match.
    eapply step_or with (a := <[Z.to_nat 0 := to_int (Z.of_nat k)]> (co b1 b2 a1 c1 0)).
    { apply aset_Z. rewrite (co_len nb ch), Hlen. lia. }
    eapply step_or with (a := <[Z.to_nat 0 := Z.of_nat k]> (co b1 b2 a2 c2 0)).
    { apply aset_Z. rewrite (co_len nb ch), Hlen. lia. }
    rewrite to_int_id by llia. change (Z.to_nat 0) with 0%nat. rewrite !co_set0.
    match goal with |- iter_ret ?n0 ?i0 ?body0 ?z0 E s7 = _ \/ _ => destruct (iter_ret_or (fun j x s'' => past (Z.of_nat k) (Z.of_nat j) /\
      exists c1 c2 vs', x = (co b1 b2 (Z.of_nat k) c1 0, co b1 b2 (Z.of_nat k) c2 0) /\ Ov vs' L6 s'' /\
          good dims f (ch_done b1 b2 ch (Z.of_nat k) (Z.of_nat j) 0) vs') E n0 i0 body0 z0 s7 UB_overflow) as [HU|HW] end; [| |by left|].
    + split; [exact HP|]. exists c1, c2, vs'. done.
    + intros j x s8 Hj (HP8 & c3 & c4 & vs2 & -> & HO8 & HG8). rewrite Z.add_0_l. cbv beta match.
      destruct (lookup_lt_is_Some_2 ss j) as [hs Hs]; [lia|]. destruct (lookup_lt_is_Some_2 bs j) as [hb Hb]; [lia|].
      destruct (lookup_lt_is_Some_2 ms j) as [hm Hm]; [lia|]. destruct (lookup_lt_is_Some_2 dn j) as [hd Hd]; [lia|].
      eapply step_or. { apply aset_Z. rewrite (co_len nb ch), Hlen, Hax, app_length. lia. }
      eapply step_or. { apply aget_nat. by rewrite list_lookup_fmap, Hs. }
      eapply step_or. { apply aget_nat. by rewrite list_lookup_fmap, Hb. }
      eapply step_or. { apply aget_nat. by rewrite list_lookup_fmap, Hm. }
      eapply step_or. { apply aget_nat. by rewrite list_lookup_fmap, Hd. }
      rewrite to_int_id by llia. rewrite (co_setc b1 b2 axis Hax).
      assert (forall it, it ∈ arrays ss bs ms dn xs xb xm xd -> it ∈ L6) as Hm6.
      { intros it Hit. apply Hsub. by rewrite HL. }
      assert (IT hs (spread_of b1 b2 t dev (at_ Sc [Z.of_nat j])) ∈ L6) as K1.
      { apply Hm6. unfold arrays. rewrite !elem_of_app. left. apply (fam_in (Fs Sc t dev b1 b2) _ _ _ Hs). }
      assert (IT hb (spread_of b1 b2 t dev (at_ Bi [Z.of_nat j])) ∈ L6) as K2.
      { apply Hm6. unfold arrays. rewrite !elem_of_app. right. left. apply (fam_in (Fb Bi t dev b1 b2) _ _ _ Hb). }
      assert (IT hm (spread_of b1 b2 t dev (at_ Me [Z.of_nat j])) ∈ L6) as K3.
      { apply Hm6. unfold arrays. rewrite !elem_of_app. do 2 right. left. apply (fam_in (Fm Me t dev b1 b2) _ _ _ Hm). }
      assert (IT hd (spread_of b1 b2 t dev (ds (Z.of_nat j))) ∈ L6) as K4.
      { apply Hm6. unfold arrays. rewrite !elem_of_app. do 3 right. left. apply (fam_in (Fd t dev b1 b2 ds) _ _ _ Hd). }
      destruct (all_some (g (Z.of_nat k) (Z.of_nat j)) N) as [Hall|(i & Hi & Hnone)].
      * right. apply wp_bind. eapply wp_mono.
        { eapply (channel_ok HA HE nb ch b1 b2 t dev f P1 P2 Hch (proj2 Hnb) M1 M2 Hlane q pd pm ps px axis Hax p T HT Tt Vt Ct Dt
              (fun c => at_ Sc [c]) (fun c => at_ Bi [c]) (fun c => at_ Me [c]) ds) with (dS := dev) (dB := dev) (dM := dev) (dD := dev);
              [lia|lia| |exact HO8|exact HG8|exact K1|exact K2|exact K3|exact K4|done|done|done|done].
          intros i Hi. cbv beta. unfold f. cbv zeta. rewrite Hax, chan_co. apply some_default. by apply Hall. }
        intros r s9 (-> & vs3 & HO9 & HG9). cbv match. apply wp_ret. eexists. split; [reflexivity|].
        replace (Z.of_nat (S j)) with (Z.of_nat j + 1) by lia. split.
        { intros a' c' i' H1 H2 H3 H4. destruct (decide (a' = Z.of_nat k /\ c' = Z.of_nat j)) as [[-> ->]|Hne]; [by apply Hall|].
          apply HP8; [done|done|done|lia]. }
        exists (Z.of_nat j), (Z.of_nat j), vs3. done.
      * left. apply bind_UB.
        eapply (channel_bad HA HE nb ch b1 b2 t dev P1 P2 Hch (proj2 Hnb) M1 M2 Hlane q pd pm ps px axis Hax p T HT IT_ Tt Vt Ct Dt
              (fun c => at_ Sc [c]) (fun c => at_ Bi [c]) (fun c => at_ Me [c]) ds) with (dS := dev) (dB := dev) (dM := dev) (dD := dev);
          [lia|lia|exact Hi|exact Hnone|exact HO8|exact K1|exact K2|exact K3|exact K4|apply Vs; lia|apply Vb; lia|apply Vm; lia|
           apply Vd; lia|done|done|done|done].
    + right. eapply wp_mono; [exact HW|]. intros r s9 (x & -> & HP9 & c3 & c4 & vs2 & -> & HO9 & HG9). eexists. split; [reflexivity|].
      split.
      { intros a' c' i' H1 H2 H3 H4. apply HP9; [done|done|done|lia]. }
      exists (Z.of_nat k), c3, (Z.of_nat k), c4, vs2. split_and!; [done|done|].
      eapply good_mono; [exact HG9|]. intros y _ (a' & c' & i' & -> & Hc' & Hi' & Hord).
      exists a', c', i'. split_and!; [done|lia|lia|lia|lia|lia].
  - exfalso. apply wp_elim in HW as (r & s7 & _ & x & -> & HP & _).
    destruct Hbad as (a & c & i & Ha & Hc & Hi & Hn). apply (HP a c i); [done|done|done|lia|exact Hn].
Qed.
End with_channel.
