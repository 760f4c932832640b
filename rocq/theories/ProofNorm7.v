(** * ProofNorm7: batch normalisation, the arguments for which an element does not exist *)
From stdpp Require Import gmap list.
From Coq Require Import ZArith Lia Floats.SpecFloat.
From Coq Require Import ZifyBool ZifyNat.
From Verif Require Import Base Mem Spec SpecReal SpecExact SpecNN SpecNorm ModelCore ModelBasic ModelMath ModelNN Logic
  ProofCore ProofCore2 ProofCore3 ProofIndex ProofKernel ProofKernel2 ProofBasic ProofSqueeze ProofSlice ProofFrame
  ProofMatmul ProofMath ProofCast ProofSqrt ProofExact ProofDot3 ProofSoftmax ProofOwn ProofNorm ProofNorm2 ProofNorm3
  ProofNorm4 ProofNorm5 ProofNorm6.
Open Scope Z_scope.

Ltac Zify.zify_post_hook ::= Z.div_mod_to_equations.

(** ** Steps of a run that ends in undefined behaviour *)
Lemma ub_bind {A B} (m : M A) (k : A -> M B) E s u (Q : A -> st -> Prop) :
  wp m E s Q -> (forall a s', Q a s' -> k a E s' = UB u) -> bind m k E s = UB u.
Proof. intros H Hk. apply wp_elim in H as (a & s' & Hm & HQ). erewrite bind_done by exact Hm. by apply Hk. Qed.
Lemma wp_unbind {A} (m : M A) E s (Q : A -> st -> Prop) : wp (bind m ret) E s Q -> wp m E s Q.
Proof. unfold wp, bind. by destruct (m E s). Qed.

Section steps.
Context {E : env} {s0 : st} (HA : alloc_all E) (HE : hooks_ok E) {u : ub}.
Lemma ub_mem {B} (k : hval -> M B) n L s : 0 <= n <= PTRDIFF_MAX -> own E s0 L s ->
  (forall b s', own E s0 (IB b :: L) s' -> k (HPtr b) E s' = UB u) -> bind (scratch n) k E s = UB u.
Proof using HA.
  intros Hn HO Hk. eapply (ub_bind _ _ _ _ _ (fun h s' => exists b, h = HPtr b /\ own E s0 (IB b :: L) s')).
  - apply wp_unbind. eapply own_scr; [done|exact Hn|exact HO|]. intros b s' O. apply wp_ret. eauto.
  - intros h s' (b & -> & O). by apply Hk.
Qed.
Lemma ub_try {A} m (k : hval -> M (ctl A status)) L s T : own E s0 L s -> makes m E s T ->
  (forall p s', own E s0 (IT p T :: L) s' -> k (HPtr p) E s' = UB u) -> try_ m k E s = UB u.
Proof using Type.
  intros HO Hm Hk. unfold try_.
  eapply (ub_bind _ _ _ _ _ (fun r s' => exists p, r = (SUCCESS, HPtr p) /\ own E s0 (IT p T :: L) s')).
  - apply wp_unbind. eapply own_make; [exact HO|exact Hm|]. intros p s' O. apply wp_ret. eauto.
  - intros r s' (p & -> & O). cbv beta match. rewrite bool_decide_eq_true_2 by done. by apply Hk.
Qed.
Lemma ub_try_drop {A} p T (k : hval -> M (ctl A status)) L1 L2 s : own E s0 (L1 ++ IT p T :: L2) s ->
  (forall s', own E s0 (L1 ++ L2) s' -> k HNull E s' = UB u) -> try_ (aitisa_destroy (HPtr p)) k E s = UB u.
Proof using HE.
  intros HO Hk. unfold try_.
  eapply (ub_bind _ _ _ _ _ (fun r s' => r = (SUCCESS, HNull) /\ own E s0 (L1 ++ L2) s')).
  - apply wp_unbind. eapply own_drop; [done|exact HO|]. intros s' O. by apply wp_ret.
  - intros r s' (-> & O). cbv beta match. rewrite bool_decide_eq_true_2 by done. by apply Hk.
Qed.
Lemma ub_try_now {A} m (k : hval -> M (ctl A status)) s : m E s = UB u -> try_ m k E s = UB u.
Proof using Type. intros H. unfold try_. by apply bind_UB. Qed.
End steps.

(** A loop whose every step is undefined or goes on *)
Lemma iter_ret_or {S R} (I : nat -> S -> st -> Prop) E n i0 (body : Z -> S -> M (ctl S R)) x s u :
  I O x s ->
  (forall k x s, (k < n)%nat -> I k x s ->
     body (i0 + Z.of_nat k) x E s = UB u \/
     wp (body (i0 + Z.of_nat k) x) E s (fun c s' => exists x', c = Next x' /\ I (Datatypes.S k) x' s')) ->
  iter_ret n i0 body x E s = UB u \/
  wp (iter_ret n i0 body x) E s (fun c s' => exists x', c = Next x' /\ I n x' s').
Proof.
  revert I i0 x s. induction n as [|n IH]; intros I i0 x s H0 Hs; simpl.
  - right. apply wp_ret. eauto.
  - pose proof (Hs O x s ltac:(lia) H0) as H1. rewrite Z.add_0_r in H1. destruct H1 as [H1|H1].
    { left. by apply bind_UB. }
    apply wp_elim in H1 as (c & s' & Hb & y & -> & Hy).
    assert (forall k z s'', (k < n)%nat -> I (Datatypes.S k) z s'' ->
      body (i0 + 1 + Z.of_nat k) z E s'' = UB u \/
      wp (body (i0 + 1 + Z.of_nat k) z) E s'' (fun c s' => exists x', c = Next x' /\ I (Datatypes.S (Datatypes.S k)) x' s')) as Hs'.
    { intros k z s'' Hk Hz. replace (i0 + 1 + Z.of_nat k) with (i0 + Z.of_nat (Datatypes.S k)) by lia.
      apply Hs; [lia|done]. }
    destruct (IH (fun k => I (Datatypes.S k)) (i0 + 1) y s' Hy Hs') as [H2|H2].
    + left. erewrite bind_done by exact Hb. exact H2.
    + right. eapply wp_step; [exact Hb|]. exact H2.
Qed.

(** ** The results of one operation on lists *)
Lemma bin_lists t op xs ys : Forall (val_ok t) xs -> Forall (val_ok t) ys -> length xs = length ys ->
  (exists zs, Forall3 (fun x y w => bin_val t op x y = Some w) xs ys zs /\ Forall (val_ok t) zs) \/
  ~ Forall2 (op_defined t op) xs ys.
Proof.
  intros Hx. revert ys. induction Hx as [|x xs Vx Hx IH]; intros [|y ys] Hy Hl; try done.
  - left. exists []. split; constructor.
  - apply Forall_cons in Hy as [Vy Hy]. destruct (IH ys Hy ltac:(cbn in Hl; lia)) as [(zs & H1 & H2)|H].
    + destruct (bin_val t op x y) as [z|] eqn:Hz.
      * left. exists (z :: zs). split; constructor; try done. exact (bin_val_ok _ _ _ _ _ Vx Vy Hz).
      * right. inversion 1 as [|? ? ? ? Hd]. by apply (bin_val_none t op x y) in Hd.
    + right. inversion 1. done.
Qed.

Lemma Forall3_at {A B C} (P : A -> B -> C -> Prop) l k m i x y : Forall3 P l k m -> l !! i = Some x -> k !! i = Some y ->
  exists z, m !! i = Some z /\ P x y z.
Proof.
  intros H. revert i. induction H as [|a b c l k m Hp H IH]; intros [|i] Hx Hy; try done.
  - cbn in *. injection Hx as <-. injection Hy as <-. eauto.
  - by apply (IH i).
Qed.

(** ** One lane with an element that does not exist *)
Section chain.
Context {E : env} {s0 : st} (HA : alloc_all E) (HE : hooks_ok E) {A : Type}.

Lemma chain_bad (k : hval -> hval -> M (ctl A status)) L s pT pM pD pS pB T Me De Sc Bi t dev pd xs bs ss ts axes nax i x m d c b :
  own E s0 L s ->
  holds (heap s) pT T -> holds (heap s) pM Me -> holds (heap s) pD De -> holds (heap s) pS Sc ->
  holds (heap s) pB Bi ->
  a_type T = t -> a_dev T = dev ->
  a_type Me = t -> a_type De = t -> a_type Sc = t -> a_type Bi = t ->
  dev_type dev = 0 -> dev_type (a_dev Me) = 0 -> dev_type (a_dev De) = 0 -> dev_type (a_dev Sc) = 0 ->
  dev_type (a_dev Bi) = 0 ->
  a_dims Me = pd -> a_dims De = pd -> a_dims Sc = pd -> a_dims Bi = pd -> prodZ pd <= INT_MAX ->
  a_dims T <> [] -> slice_ok (a_dims T) bs ss ts -> prodZ (slice_dims ss ts) <= INT_MAX ->
  Forall (fun d => d <> 0) (slice_dims ss ts) -> axes <> [] -> NoDup axes -> nax = Z.of_nat (length axes) ->
  Forall (fun a => 0 <= a < Z.of_nat (length (slice_dims ss ts))) axes ->
  squeeze_dims (fun i => bool_decide (Z.of_nat i ∈ axes)) (slice_dims ss ts) = pd ->
  tab (slice_dims ss ts) (fun c => at_ T (slice_src bs ss ts c)) = xs ->
  Forall (val_ok t) xs -> init Me -> init De -> init Sc -> init Bi ->
  xs !! i = Some x -> a_vals Me !! i = Some m -> a_vals De !! i = Some d ->
  a_vals Sc !! i = Some c -> a_vals Bi !! i = Some b -> bn_out t d c b m x = None ->
  try_ (aitisa_slice (HPtr pT) bs ss ts HUndef) (fun temp0 =>
      try_ (aitisa_squeeze temp0 axes nax HUndef) (fun temp1 =>
      try_ (aitisa_destroy temp0) (fun temp0 =>
      try_ (aitisa_sub temp1 (HPtr pM) temp0) (fun temp0 =>
      try_ (aitisa_destroy temp1) (fun temp1 =>
      try_ (aitisa_div temp0 (HPtr pD) temp1) (fun temp1 =>
      try_ (aitisa_destroy temp0) (fun temp0 =>
      try_ (aitisa_mul (HPtr pS) temp1 temp0) (fun temp0 =>
      try_ (aitisa_destroy temp1) (fun temp1 =>
      try_ (aitisa_add temp0 (HPtr pB) temp1) (fun temp1 => k temp0 temp1)))))))))) E s = UB UB_overflow.
Proof using HA HE.
  intros HO HT HM HD HS HB Ht Hdev TM TD TS TB CT CM CD CS CB DM DD DS DB Hmax Hne Hsl Hsm Hnz Hax Hnd -> Hrange
    Hsq Hxs Vx IM ID IS IB Lx Lm Ld Lc Lb Hnone.
  pose proof HO as (Hwf & _).
  assert (own E s [] s) as HN by by apply own_nil.
  assert (forall M s' p U, own E s M s' -> holds (heap s) p U -> holds (heap s') p U) as Hb
    by (intros; by eapply own_base).
  set (X0 := AT t dev (slice_dims ss ts) xs). set (X1 := AT t dev pd xs).
  assert (length xs = Z.to_nat (prodZ pd)) as Lxs.
  { rewrite <-Hxs, tab_length, <-Hsq, squeeze_dims_prod. done. }
  assert (forall U, a_dims U = pd -> valid U -> length (a_vals U) = Z.to_nat (prodZ pd)) as HL.
  { intros U D (_ & V). rewrite D in V. lia. }
  pose proof (HL _ DM (holds_valid _ _ _ HM)) as LM. pose proof (HL _ DD (holds_valid _ _ _ HD)) as LD.
  pose proof (HL _ DS (holds_valid _ _ _ HS)) as LS. pose proof (HL _ DB (holds_valid _ _ _ HB)) as LB.
  unfold init in IM, ID, IS, IB. rewrite TM in IM. rewrite TD in ID. rewrite TS in IS. rewrite TB in IB.
  (* slice *)
  eapply ub_try; [exact HN|apply slice_rule; [by eapply own_wf|done|done|exact HT|done|done|done]|].
  intros q0 s1 O1. rewrite Ht, Hdev, Hxs in O1. fold X0 in O1.
  (* squeeze *)
  eapply ub_try; [exact O1| |].
  { eapply makes_or_nomem_alloc; [done|]. apply (squeeze_named q0 X0); try done.
    - by eapply own_wf.
    - eapply own_holds; [exact O1|left]. }
  intros q1 s2 O2. cbn [a_type a_dev a_dims a_vals X0] in O2. rewrite Hsq in O2. fold X1 in O2.
  eapply (ub_try_drop HE q0 X0 _ [_] []); [exact O2|]. intros s3 O3. cbn [app] in O3.
  (* subtract *)
  destruct (bin_lists t OpSub xs (a_vals Me) Vx IM ltac:(lia)) as [(ys & F1 & V1)|Hbad].
  2:{ apply ub_try_now. apply (binary_stuck OpSub q1 pM X1 Me); cbn [a_type a_dev a_dims a_vals X1]; try done; try congruence.
      - by eapply own_wf.
      - eapply own_holds; [exact O3|left].
      - by eapply Hb.
      - unfold init. by rewrite TM.
      - by intros [_ ?]. }
  eapply ub_try; [exact O3| |].
  { apply (binary_rule OpSub q1 pM X1 Me ys); cbn [a_type a_dev a_dims a_vals X1]; try done; try congruence.
    - by eapply own_wf.
    - eapply own_holds; [exact O3|left].
    - by eapply Hb. }
  intros q2 s4 O4. cbn [a_type a_dev a_dims a_vals X1] in O4.
  eapply (ub_try_drop HE q1 X1 _ [_] []); [exact O4|]. intros s5 O5. cbn [app] in O5.
  pose proof (Forall3_length_lr _ _ _ _ F1) as Ly.
  (* divide *)
  destruct (bin_lists t OpDiv ys (a_vals De) V1 ID ltac:(lia)) as [(zs & F2 & V2)|Hbad].
  2:{ apply ub_try_now. apply (binary_stuck OpDiv q2 pD (AT t dev pd ys) De); cbn [a_type a_dev a_dims a_vals]; try done; try congruence.
      - by eapply own_wf.
      - eapply own_holds; [exact O5|left].
      - by eapply Hb.
      - unfold init. by rewrite TD.
      - by intros [_ ?]. }
  eapply ub_try; [exact O5| |].
  { apply (binary_rule OpDiv q2 pD (AT t dev pd ys) De zs); cbn [a_type a_dev a_dims a_vals]; try done; try congruence.
    - by eapply own_wf.
    - eapply own_holds; [exact O5|left].
    - by eapply Hb. }
  intros q3 s6 O6. cbn [a_type a_dev a_dims a_vals] in O6.
  eapply (ub_try_drop HE q2 _ _ [_] []); [exact O6|]. intros s7 O7. cbn [app] in O7.
  pose proof (Forall3_length_lr _ _ _ _ F2) as Lz.
  (* multiply *)
  destruct (bin_lists t OpMul (a_vals Sc) zs IS V2 ltac:(lia)) as [(us & F3 & V3)|Hbad].
  2:{ apply ub_try_now. apply (binary_stuck OpMul pS q3 Sc (AT t dev pd zs)); cbn [a_type a_dev a_dims a_vals]; try done; try congruence.
      - by eapply own_wf.
      - by eapply Hb.
      - eapply own_holds; [exact O7|left].
      - unfold init. by rewrite TS.
      - rewrite TS. by intros [_ ?]. }
  eapply ub_try; [exact O7| |].
  { apply (binary_rule OpMul pS q3 Sc (AT t dev pd zs) us); cbn [a_type a_dev a_dims a_vals]; try done; try congruence.
    - by eapply own_wf.
    - by eapply Hb.
    - eapply own_holds; [exact O7|left].
    - by rewrite TS. }
  intros q4 s8 O8. cbn [a_type a_dev a_dims a_vals] in O8. rewrite TS, DS in O8.
  eapply (ub_try_drop HE q3 _ _ [_] []); [exact O8|]. intros s9 O9. cbn [app] in O9.
  pose proof (Forall3_length_lr _ _ _ _ F3) as Lu.
  (* add *)
  destruct (bin_lists t OpAdd us (a_vals Bi) V3 IB ltac:(lia)) as [(ws & F4 & _)|Hbad].
  { exfalso.
    destruct (Forall3_at _ _ _ _ _ _ _ F1 Lx Lm) as (y & Hy & E1).
    destruct (Forall3_at _ _ _ _ _ _ _ F2 Hy Ld) as (z & Hz & E2).
    destruct (Forall3_at _ _ _ _ _ _ _ F3 Lc Hz) as (w & Hw & E3).
    destruct (Forall3_at _ _ _ _ _ _ _ F4 Hw Lb) as (v & Hv & E4).
    unfold bn_out in Hnone. rewrite E1, E2, E3, E4 in Hnone. done. }
  apply ub_try_now. apply (binary_stuck OpAdd q4 pB (AT t (a_dev Sc) pd us) Bi); cbn [a_type a_dev a_dims a_vals]; try done; try congruence.
  - by eapply own_wf.
  - eapply own_holds; [exact O9|left].
  - by eapply Hb.
  - unfold init. by rewrite TB.
  - by intros [_ ?].
Qed.
End chain.

(** ** Two axes *)
Section rows.
Context {E : env} {s : st} (HA : alloc_all E) (HE : hooks_ok E).
Context (p pS pB pM : nat) (T Sc Bi Me : atensor) (t : tcode) (dev : device) (nb ch : Z).
Context (HT : holds (heap s) p T) (HS : holds (heap s) pS Sc) (HB : holds (heap s) pB Bi) (HM : holds (heap s) pM Me).
Context (Tt : a_type T = t) (TS : a_type Sc = t) (TB : a_type Bi = t) (TM : a_type Me = t).
Context (Vt : a_dev T = dev) (Ct : dev_type dev = 0) (CS : dev_type (a_dev Sc) = 0) (CB : dev_type (a_dev Bi) = 0)
  (CM : dev_type (a_dev Me) = 0).
Context (Dt : a_dims T = [nb; ch]) (DS : a_dims Sc = [ch]) (DB : a_dims Bi = [ch]) (DM : a_dims Me = [ch]).
Context (Hch : 0 < ch <= INT_MAX) (Hnb : nb <= INT_MAX).
Context (IT_ : init T) (IS : init Sc) (IB_ : init Bi) (IM : init Me).
Context (pD : nat) (De : atensor) (TD : a_type De = t) (CD : dev_type (a_dev De) = 0) (DD : a_dims De = [ch]) (ID : init De).
Context (q pd pm ps px : nat).
Let Ov := over (E:=E) (s:=s) q pd pm ps px t dev [nb; ch].

Lemma init_at U c : valid U -> init U -> in_box (a_dims U) c -> val_ok (a_type U) (at_ U c).
Proof using Type.
  clear. intros HU HI Hc. unfold init in HI. rewrite Forall_lookup in HI.
  pose proof (ravel_bound _ _ Hc) as Hr. pose proof (valid_len _ HU) as Hl.
  destruct (lookup_lt_is_Some_2 (a_vals U) (Z.to_nat (ravel (a_dims U) c))) as [v Hv]; [lia|].
  unfold at_. rewrite Hv. by eapply HI.
Qed.

Lemma row_bad k vs L s' b : 0 <= k < nb -> 0 <= b < ch ->
  bn_out t (at_ De [b]) (at_ Sc [b]) (at_ Bi [b]) (at_ Me [b]) (at_ T [k; b]) = None ->
  Ov vs L s' -> IT pD De ∈ L ->
  bn_row (HPtr p) (HPtr pS) (HPtr pB) (HPtr pM) (HPtr pD) [k; 0] [1; ch] [1; 1] (HPtr px) (Z.of_nat (tsz t)) k E s'
  = UB UB_overflow.
Proof using All.
  intros Hk Hb Hnone HO HD.
  destruct (over_own _ _ _ _ _ _ _ _ _ _ _ HO) as (s1 & Ho & Hback).
  assert (holds (heap s') pD De) as HDe by by eapply own_holds.
  assert (slice_dims [1; ch] [1; 1] = [1; ch]) as Hsd.
  { cbn [slice_dims]. replace (ch =? 0) with false by lia. rewrite !cdiv_1. done. }
  assert (prodZ [1; ch] = ch) as Hp1 by (rewrite !prodZ_cons, prodZ_nil; lia).
  assert (forall U, valid U -> a_dims U = [ch] -> a_vals U !! Z.to_nat b = Some (at_ U [b])) as Hvec.
  { intros U HU DU. by apply (vec_at ch). }
  assert (forall i, 0 <= i < ch -> slice_src [k; 0] [1; ch] [1; 1] (unravel [1; ch] i) = [k; i]) as Hsrc.
  { intros i Hi. cbn [unravel]. rewrite !prodZ_cons, prodZ_nil. cbn [slice_src]. replace (ch =? 0) with false by lia.
    cbn [Z.eqb]. f_equal; [|f_equal].
    + rewrite Z.mul_1_r, Z.div_small by lia. rewrite Z.mod_0_l by lia. lia.
    + rewrite Z.div_1_r, Z.mod_small by lia. lia. }
  unfold bn_row.
  eapply (chain_bad HA HE _ L s' p pM pD pS pB T Me De Sc Bi t dev [ch]
            (tab [1; ch] (fun c => at_ T (slice_src [k; 0] [1; ch] [1; 1] c))) _ _ _ _ _ (Z.to_nat b)
            (at_ T [k; b]) (at_ Me [b]) (at_ De [b]) (at_ Sc [b]) (at_ Bi [b]));
    rewrite ?Hsd; try done; try (by eapply over_base; [exact HO|]).
  - rewrite prodZ_cons, prodZ_nil. lia.
  - by rewrite Dt.
  - rewrite Dt. cbn [slice_ok]. repeat split; llia.
  - lia.
  - repeat constructor; lia.
  - apply NoDup_singleton.
  - repeat constructor; cbn; lia.
  - apply Forall_lookup. intros i v Hv. pose proof (lookup_lt_Some _ _ _ Hv) as Hi. rewrite tab_length, Hp1 in Hi.
    rewrite tab_lookup in Hv by lia. apply (inj Some) in Hv. rewrite <-Hv, Hsrc by lia. rewrite <-Tt.
    apply init_at; [by destruct HT|done|]. rewrite Dt. apply in_box_cons. split; [done|]. apply in_box_cons. split; [lia|constructor].
  - rewrite tab_lookup by lia. rewrite Z2Nat.id by lia. by rewrite Hsrc.
  - apply Hvec; [by destruct HM|done].
  - apply Hvec; [by destruct HDe|done].
  - apply Hvec; [by destruct HS|done].
  - apply Hvec; [by destruct HB|done].
Qed.
End rows.

(** ** One channel of one sample *)
Section channel2.
Context {E : env} {s : st} (HA : alloc_all E) (HE : hooks_ok E).
Context (nb ch : Z) (b1 b2 : list Z) (t : tcode) (dev : device).
Context (P1 : Forall (fun d => 0 < d) b1) (P2 : Forall (fun d => 0 < d) b2) (Hch : 0 < ch <= INT_MAX) (Hnb : nb <= INT_MAX).
Context (M1 : Forall (fun d => d <= INT_MAX) b1) (M2 : Forall (fun d => d <= INT_MAX) b2).
Context (Hlane : prodZ (b1 ++ b2) <= INT_MAX).
Context (q pd pm ps px : nat) (axis : Z) (Hax : axis = Z.of_nat (S (length b1))).
Notation dims := (bn_dims nb ch b1 b2).
Notation N := (prodZ (b1 ++ b2)).
Let Ov := over (E:=E) (s:=s) q pd pm ps px t dev dims.
Context (p : nat) (T : atensor) (HT : holds (heap s) p T) (IT_ : init T).
Context (Tt : a_type T = t) (Vt : a_dev T = dev) (Ct : dev_type dev = 0) (Dt : a_dims T = dims).
Context (Sv Bv Mv Dv : Z -> val).
Notation spread_of := (spread_of b1 b2 t).

Lemma channel_bad a c i vs L s' pS pB pM pD dS dB dM dD x0 :
  0 <= a < nb -> 0 <= c < ch -> 0 <= i < N ->
  bn_out t (Dv c) (Sv c) (Bv c) (Mv c) (at_ T (co b1 b2 a c i)) = None ->
  Ov vs L s' ->
  IT pS (spread_of dS (Sv c)) ∈ L -> IT pB (spread_of dB (Bv c)) ∈ L -> IT pM (spread_of dM (Mv c)) ∈ L ->
  IT pD (spread_of dD (Dv c)) ∈ L ->
  val_ok t (Sv c) -> val_ok t (Bv c) -> val_ok t (Mv c) -> val_ok t (Dv c) ->
  dev_type dS = 0 -> dev_type dB = 0 -> dev_type dM = 0 -> dev_type dD = 0 ->
  bn_channel (HPtr p) (HPtr pS) (HPtr pB) (HPtr pM) (HPtr pD) (HPtr q) (co b1 b2 a c 0)
        (1 :: bn_es b1 b2) (replicate (length dims) 1) axis c (co b1 b2 a x0 0) (suffs dims) E s' = UB UB_overflow.
Proof using All.
  intros Ha Hc Hi Hnone HO HS HB HM HD VS VB VM VD CS CB CM CD.
  destruct (over_own _ _ _ _ _ _ _ _ _ _ _ HO) as (s1 & Ho & Hback).
  assert (forall U pU, IT pU U ∈ L -> holds (heap s') pU U) as HL by (intros; by eapply own_holds).
  assert (0 < N) as HN by (apply prodZ_pos, Forall_app; done).
  assert (length dims = length (1 :: bn_es b1 b2)) as Hlen
    by (unfold bn_dims, bn_es; cbn; rewrite !app_length; done).
  assert (slice_dims (1 :: bn_es b1 b2) (replicate (length dims) 1) = 1 :: bn_es b1 b2) as Hsd.
  { rewrite Hlen. by apply slice_dims_ones, ss_nz. }
  assert (prodZ (1 :: bn_es b1 b2) = N) as Hp1 by (rewrite prodZ_cons, es_prod; lia).
  assert (forall v : val, replicate (Z.to_nat N) v !! Z.to_nat i = Some v) as Hrep.
  { intros v. apply lookup_replicate_2. lia. }
  assert (forall dv v, val_ok t v -> init (spread_of dv v)) as Hini.
  { intros dv v Hv. unfold init. cbn. by apply Forall_replicate. }
  pose proof (HL _ _ HS) as HS'. pose proof (HL _ _ HB) as HB'. pose proof (HL _ _ HM) as HM'.
  pose proof (HL _ _ HD) as HD'.
  unfold bn_channel.
  eapply (chain_bad HA HE _ L s' p pM pD pS pB T (spread_of dM (Mv c)) (spread_of dD (Dv c)) (spread_of dS (Sv c))
            (spread_of dB (Bv c)) t dev (b1 ++ b2)
            (tab (1 :: bn_es b1 b2) (fun u => at_ T (slice_src (co b1 b2 a c 0) (1 :: bn_es b1 b2) (replicate (length dims) 1) u)))
            _ _ _ _ _ (Z.to_nat i) (at_ T (co b1 b2 a c i)) (Mv c) (Dv c) (Sv c) (Bv c));
    rewrite ?Hsd; try done; try (by apply Hini); try (by apply Hrep).
  - by eapply over_base; [exact HO|].
  - by rewrite Dt.
  - rewrite Dt. unfold bn_dims, bn_es, co. rewrite Z.div_0_l by (pose proof (prodZ_pos b2 P2); lia).
    rewrite !ProofSoftmax.unravel_0. cbn [length replicate slice_ok]. split; [split_and!; llia|].
    rewrite app_length. cbn [length]. rewrite replicate_add. cbn [replicate].
    apply slice_ok_app; [by apply slice_ok_full|].
    cbn [slice_ok]. split; [split_and!; llia|by apply slice_ok_full].
  - lia.
  - by apply ss_nz.
  - apply NoDup_cons. split; [intros Hin%elem_of_list_singleton; lia|apply NoDup_singleton].
  - rewrite <-Hlen. repeat constructor; unfold bn_dims; cbn [length]; rewrite ?app_length; cbn; lia.
  - cbn [squeeze_dims]. rewrite bool_decide_eq_true_2 by (by left). cbn [andb Z.eqb Pos.eqb].
    unfold bn_es. apply squeeze_mid.
    + apply bool_decide_eq_true_2. rewrite Hax. right. left.
    + intros j Hj. apply bool_decide_eq_false_2. rewrite Hax.
      intros [Hin|Hin%elem_of_list_singleton]%elem_of_cons; lia.
  - apply Forall_lookup. intros j v Hv. pose proof (lookup_lt_Some _ _ _ Hv) as Hj. rewrite tab_length, Hp1 in Hj.
    rewrite tab_lookup in Hv by lia. apply (inj Some) in Hv. rewrite <-Hv, slice_src_co by (done || lia). rewrite <-Tt.
    apply init_at; [by destruct HT|done|]. rewrite Dt. by apply co_box.
  - rewrite tab_lookup by lia. rewrite Z2Nat.id by lia. by rewrite slice_src_co.
Qed.
End channel2.
