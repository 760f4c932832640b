(** * ProofNorm11: src/nn/batch_norm.c, every outcome *)
From stdpp Require Import gmap list.
From Coq Require Import ZArith Lia Floats.SpecFloat.
From Coq Require Import ZifyBool ZifyNat.
From Verif Require Import Base Mem Spec SpecReal SpecNN SpecNorm SpecNorm2 ModelCore ModelBasic ModelMath ModelNN Logic
  ProofCore ProofCore2 ProofCore3 ProofIndex ProofKernel ProofKernel2 ProofBasic ProofSqueeze ProofSlice ProofFrame
  ProofMatmul ProofMath ProofCast ProofSqrt ProofDot3 ProofSoftmax ProofExact ProofOwn ProofNorm ProofNorm2 ProofNorm3 ProofNorm4
  ProofNorm5 ProofNorm6 ProofNorm7 ProofNorm8 ProofNorm9 ProofNorm10.
Open Scope Z_scope.

Ltac Zify.zify_post_hook ::= Z.div_mod_to_equations.

Definition fin (x : option ub) (r : res (status * hval)) : Prop :=
  match x with Some u => r = UB u | None => exists h s', r = Done (MATH_ERROR, h) s' end.
Lemma fin_now {B} (m : M (ctl B status)) (k : ctl B status -> M (status * hval)) h E s x :
  ends x (m E s) -> (forall e s', k (Return e) E s' = Done (e, h) s') -> fin x (bind m k E s).
Proof.
  intros H Hk. destruct x as [u|]; cbn in *.
  - by apply bind_UB.
  - destruct H as [s' H]. exists h, s'. erewrite bind_done by exact H. apply Hk.
Qed.

Section batch_norm.
Context {E : env} {s : st} (p pS pB pM pV : nat) (T Sc Bi Me Va : atensor) (axis : Z) (eps : spec_float) (o : hval).
Context (Hwf : wf s) (HA : alloc_all E) (HE : hooks_ok E).
Context (HT : holds (heap s) p T) (HS : holds (heap s) pS Sc) (HB : holds (heap s) pB Bi)
  (HM : holds (heap s) pM Me) (HV : holds (heap s) pV Va).
Notation run := (aitisa_batch_norm (HPtr p) axis (HPtr pS) (HPtr pB) (HPtr pM) (HPtr pV) eps o).
Notation t := (a_type T).
Notation ch := (nth (Z.to_nat axis) (a_dims T) 0).
Context (Hok : bn_ok T axis Sc Bi Me Va eps) (Hsz : bn_sizes T axis).
Context (Hall : Forall (fun U => dev_type (a_dev U) = 0 /\ init U) [T; Sc; Bi; Me; Va]).

Lemma den_outcome x ds :
  match of_double t eps with
  | None => x = Some UB_fconv
  | Some e =>
      if decide (length (a_dims T) = 2%nat) then sums_bad t e x (a_vals Va)
      else exists j, 0 <= j < ch /\ (forall c, 0 <= c < j -> bn_den t eps (at_ Va [c]) (ds c)) /\ sums_bad t e x [at_ Va [j]]
  end -> fin x (run E s).
Proof using All.
  intros Hbad. destruct Hsz as (Hpos & Hmax & Hs3).
  pose proof (bn_check_ok p pS pB pM pV T Sc Bi Me Va axis eps E s HT HS HB HM HV Hok) as Hchk.
  pose proof Hok as (Hr & Hax & TS & TB & TM & TV & (c0 & Hch & DS & DB & DM & DV) & Heps).
  apply nth_lookup_Some with (d := 0) in Hch as Hnth. rewrite Hnth in *.
  assert (0 < c0 <= INT_MAX) as Hcr.
  { split; [|by apply (Forall_lookup_1 _ _ _ _ Hmax Hch)].
    assert (tail (a_dims T) !! pred (Z.to_nat axis) = Some c0) as Ht.
    { destruct (a_dims T) as [|d0 l]; [done|]. destruct (Z.to_nat axis) as [|k] eqn:Hk; [cbn in *; lia|]. done. }
    by apply (Forall_lookup_1 _ _ _ _ Hpos Ht). }
  rewrite !Forall_cons in Hall. destruct Hall as ([C1 I1] & [C2 I2] & [C3 I3] & [C4 I4] & [C5 I5] & _).
  assert (prodZ [c0] = c0) as Hpc by (rewrite prodZ_cons, prodZ_nil; lia).
  unfold aitisa_batch_norm.
  erewrite bind_done by exact Hchk. rewrite bool_decide_eq_true_2 by done. cbn [negb].
  destruct (create_like_ok p T o E s Hwf HA HT) as (s1 & q & pd & pm & ps & px & Hcr1 & HO1).
  erewrite bind_done by exact Hcr1. cbv beta match. rewrite bool_decide_eq_true_2 by done. cbn [negb].
  destruct (over_base _ _ _ _ _ _ _ _ _ _ _ p T HO1 HT) as (_ & bx & tg & ex & V & _).
  pose proof (over_base _ _ _ _ _ _ _ _ _ _ _ pV Va HO1 HV) as HV1.
  pose proof HV1 as (_ & bxv & tgv & exv & Vv & _). rewrite TV, DV in Vv.
  erewrite bind_done by (by eapply tensor_ndim_ok).
  destruct (over_own _ _ _ _ _ _ _ _ _ _ _ HO1) as (sb & Ho1 & Hback).
  destruct (decide (length (a_dims T) = 2%nat)) as [H2|H2].
  - replace (Z.of_nat (length (a_dims T)) =? 2) with true by lia. cbv match.
    eapply fin_now; [|done]. unfold bn_denominator.
    eapply e_step; [by eapply tensor_dtype_ok|].
    eapply e_step; [by eapply tensor_device_ok|].
    eapply e_step; [by eapply tensor_dims_ok|].
    eapply e_step; [by eapply tensor_ndim_ok|].
    assert (fits (tsz t) [c0]) as Hfv.
    { pose proof (valid_fits _ (holds_valid _ _ _ HV)) as Hfv. by rewrite TV, DV in Hfv. }
    destruct (of_double t eps) as [e|] eqn:He.
    2:{ subst x. apply ub_try_now. apply full_unfit; [by eapply own_wf|done|done|done]. }
    eapply e_try; [exact Ho1| |].
    { eapply (makes_or_nomem_alloc _ _ _ HUndef); [done|]. apply (full_rule t (a_dev T) [c0] eps e); [by eapply own_wf|done|lia|done]. }
    intros pe s2 O2. rewrite Hpc in O2.
    eapply (den_bad HA x _ _ s2 pV pe Va (AT t (a_dev T) [c0] (replicate (Z.to_nat c0) e)) t (a_dev Va) [c0] e);
      try done; try congruence.
    + eapply over_base; [by eapply Hback|done].
    + eapply own_holds; [exact O2|left].
    + lia.
    + cbn [a_vals]. by rewrite Hpc.
    + by eapply of_double_ok.
  - replace (Z.of_nat (length (a_dims T)) =? 2) with false by lia.
    replace ((2 <? Z.of_nat (length (a_dims T))) && (Z.of_nat (length (a_dims T)) <? 6)) with true by lia. cbv match.
    eapply fin_now; [|done].
    destruct (bn_split T axis ltac:(lia) Hax) as (nb & ch' & b1 & b2 & Dt & Hax1 & Hlane & Hc').
    rewrite Hnth in Hc'. subst ch'.
    destruct (Hs3 ltac:(lia)) as (S1 & S2 & S3). rewrite Hlane in *. rewrite Dt in Hpos, Hmax. unfold bn_dims in Hpos, Hmax.
    cbn [tail] in Hpos. apply Forall_cons in Hmax as [Hnb Hmax].
    apply Forall_app in Hpos as [P1 P2]. apply Forall_cons in P2 as [_ P2].
    assert (length (bn_dims nb c0 b1 b2) = (length (b1 ++ b2) + 2)%nat) as Hlen.
    { unfold bn_dims. cbn [length]. rewrite !app_length. cbn. lia. }
    assert (b1 = [] \/ b2 = []) as Hends.
    { rewrite Dt, Hlen, app_length in Hax. destruct b1 as [|? b1]; [by left|]. destruct b2 as [|? b2]; [by right|].
      cbn in *. lia. }
    assert (fits (tsz t) (b1 ++ b2)) as Hfitp.
    { pose proof (valid_fits _ (holds_valid _ _ _ HT)) as Hn. rewrite Dt in Hn. by eapply fits_parts. }
    assert (heap sb = heap s1) as Hh.
    { destruct Ho1 as (_ & _ & _ & Hp). by inversion Hp. }
    assert (forall U pU, holds (heap s) pU U -> holds (heap sb) pU U) as Hsb.
    { intros U pU HU. rewrite Hh. by eapply over_base. }
    assert (0 < prodZ (b1 ++ b2)) as Hpp by (apply prodZ_pos; by apply Forall_app).
    rewrite Dt, Hlen in Hr, H2.
    eapply (inter_bad (s0 := sb) HA HE x p pS pB pM pV T Sc Bi Me Va t (a_dev T) nb c0 b1 b2 eps axis) with (ds := ds);
      try done; try (by apply Hsb); try lia.
Qed.

Lemma va_ok k : 0 <= k < ch -> val_ok t (at_ Va [k]).
Proof using Hok Hall HV.
  intros Hk. pose proof Hok as (_ & _ & _ & _ & _ & TV & (c0 & Hch & _ & _ & _ & DV) & _).
  apply nth_lookup_Some with (d := 0) in Hch as Hnth. rewrite Hnth in *.
  rewrite !Forall_cons in Hall. destruct Hall as (_ & _ & _ & _ & [_ I5] & _).
  rewrite <-TV. apply init_at; [by destruct HV|done|]. rewrite DV. apply in_box_cons. split; [done|constructor].
Qed.
Lemma va_at k : 0 <= k < ch -> a_vals Va !! Z.to_nat k = Some (at_ Va [k]).
Proof using Hok HV.
  intros Hk. pose proof Hok as (_ & _ & _ & _ & _ & TV & (c0 & Hch & _ & _ & _ & DV) & _).
  apply nth_lookup_Some with (d := 0) in Hch as Hnth. rewrite Hnth in *.
  by apply (vec_at c0); [destruct HV|..].
Qed.
Lemma va_in v : v ∈ a_vals Va -> exists k, 0 <= k < ch /\ v = at_ Va [k].
Proof using Hok HV.
  intros Hv. pose proof Hok as (_ & _ & _ & _ & _ & TV & (c0 & Hch & _ & _ & _ & DV) & _).
  apply nth_lookup_Some with (d := 0) in Hch as Hnth.
  apply elem_of_list_lookup in Hv as [i Hi]. pose proof (lookup_lt_Some _ _ _ Hi) as Hlt.
  pose proof (valid_len _ (holds_valid _ _ _ HV)) as Hl. rewrite DV, prodZ_cons, prodZ_nil in Hl.
  exists (Z.of_nat i). assert (0 <= Z.of_nat i < ch) as Hr by (rewrite Hnth; lia). split; [done|].
  pose proof (va_at _ Hr) as Ha. rewrite Nat2Z.id in Ha. congruence.
Qed.

(** The first channel without a denominator *)
Definition no_den (k : Z) : Prop := bn_undef t eps (at_ Va [k]) \/ bn_neg t eps (at_ Va [k]).
Definition the_den (k : Z) : val :=
  match of_double t eps with
  | Some e => match bin_val t OpAdd (at_ Va [k]) e with Some a => default VU (sqrt_val t a) | None => VU end
  | None => VU
  end.
Lemma the_den_ok e k : of_double t eps = Some e -> 0 <= k < ch -> ~ no_den k -> bn_den t eps (at_ Va [k]) (the_den k).
Proof using Hok Hall HV.
  intros He Hk Hn. pose proof (va_ok k Hk) as Hv. unfold the_den. rewrite He.
  destruct (bin_val t OpAdd (at_ Va [k]) e) as [a|] eqn:Ha.
  2:{ exfalso. apply Hn. left. exists e. done. }
  assert (val_ok t a) as Va' by exact (bin_val_ok _ _ _ _ _ Hv (of_double_ok _ _ _ He) Ha).
  assert (~ negative a) as Hneg. { intros Hg. apply Hn. right. exists e, a. done. }
  destruct (sqrt_val_some t a Va' Hneg) as [w Hw]. rewrite Hw. cbn. unfold sqrt_val in Hw.
  destruct (to_double t a) as [y|] eqn:Hy; [|done]. exists e, a, y. done.
Qed.
Lemma first_no_den : (forall k, 0 <= k < ch -> ~ no_den k) \/
  exists j, 0 <= j < ch /\ no_den j /\ forall k, 0 <= k < j -> ~ no_den k.
Proof using Hok Hall HV.
  destruct (of_double t eps) as [e|] eqn:He.
  2:{ left. intros k _ [(e & He' & _)|(e & a & He' & _)]; congruence. }
  set (P k := match bin_val t OpAdd (at_ Va [Z.of_nat k]) e with
              | None => true | Some a => default false (lt0_val t a) end).
  assert (forall k, 0 <= k < ch -> P (Z.to_nat k) = true <-> no_den k) as HP.
  { intros k Hk. unfold P. rewrite Z2Nat.id by lia. pose proof (va_ok k Hk) as Hv.
    unfold no_den, bn_undef, bn_neg. rewrite He.
    destruct (bin_val t OpAdd (at_ Va [k]) e) as [a|] eqn:Ha.
    - assert (val_ok t a) as Va' by exact (bin_val_ok _ _ _ _ _ Hv (of_double_ok _ _ _ He) Ha).
      destruct (lt0_spec t a Va') as (b & Hb & Hbn). rewrite Hb. cbn. rewrite Hbn. split.
      + intros Hg. right. by exists e, a.
      + intros [(e' & H1 & H2)|(e' & a' & H1 & H2 & H3)]; [congruence|]. injection H1 as <-. rewrite Ha in H2. by injection H2 as ->.
    - split; [|done]. intros _. left. by exists e. }
  destruct (first_index P (Z.to_nat ch)) as [Hn|(j & Hj & HPj & Hpre)].
  - left. intros k Hk Hd. apply HP in Hd; [|done]. rewrite Hn in Hd by lia. done.
  - right. exists (Z.of_nat j). split; [lia|]. split.
    + apply HP; [lia|]. by rewrite Nat2Z.id.
    + intros k Hk Hd. apply HP in Hd; [|lia]. rewrite Hpre in Hd by lia. done.
Qed.
Lemma first_of k : 0 <= k < ch -> no_den k -> exists j, 0 <= j <= k /\ no_den j /\ forall i, 0 <= i < j -> ~ no_den i.
Proof using Hok Hall HV.
  intros Hk Hd. destruct first_no_den as [Hn|(j & Hj & Hdj & Hpre)]; [by apply Hn in Hd|].
  exists j. split; [|done]. destruct (decide (j <= k)); [lia|]. exfalso. by apply (Hpre k); [lia|].
Qed.
Lemma not_both k : bn_undef t eps (at_ Va [k]) -> bn_neg t eps (at_ Va [k]) -> False.
Proof using Type. intros (e & He & H1) (e' & a & He' & H2 & _). congruence. Qed.

Lemma bn_exact :
  (of_double t eps = None -> run E s = UB UB_fconv) /\
  (forall k, 0 <= k < ch -> bn_undef t eps (at_ Va [k]) ->
     (length (a_dims T) = 2%nat \/ forall j, 0 <= j < k -> ~ bn_neg t eps (at_ Va [j])) -> run E s = UB UB_overflow) /\
  (forall k, 0 <= k < ch -> bn_neg t eps (at_ Va [k]) ->
     (forall j, 0 <= j < ch -> length (a_dims T) = 2%nat \/ j < k -> ~ bn_undef t eps (at_ Va [j])) ->
     exists h s', run E s = Done (MATH_ERROR, h) s') /\
  (forall ds, (forall k, 0 <= k < ch -> bn_den t eps (at_ Va [k]) (ds k)) ->
     let f c := let k := chan axis c in bn_out t (ds k) (at_ Sc [k]) (at_ Bi [k]) (at_ Me [k]) (at_ T c) in
     ((exists c, in_box (a_dims T) c /\ f c = None) -> run E s = UB UB_overflow) /\
     ((forall c, in_box (a_dims T) c -> f c <> None) ->
        makes run E s (AT t (a_dev T) (a_dims T) (tab (a_dims T) (fun c => default VU (f c)))))) /\
  (of_double t eps = None \/
   (exists k, 0 <= k < ch /\ (bn_undef t eps (at_ Va [k]) \/ bn_neg t eps (at_ Va [k])) /\
      forall j, 0 <= j < k -> ~ bn_undef t eps (at_ Va [j]) /\ ~ bn_neg t eps (at_ Va [j])) \/
   exists ds, forall k, 0 <= k < ch -> bn_den t eps (at_ Va [k]) (ds k)).
Proof using All.
  split_and!.
  - intros Hn. apply (den_outcome (Some UB_fconv) (fun _ => VU)). by rewrite Hn.
  - intros k Hk Hu Hbefore. pose proof Hu as (e & He & Hnone).
    apply (den_outcome (Some UB_overflow) the_den). rewrite He.
    destruct (decide (length (a_dims T) = 2%nat)) as [H2|H2].
    + split; [done|]. apply Exists_exists. exists (at_ Va [k]). split; [|done].
      eapply elem_of_list_lookup_2. by apply va_at.
    + destruct Hbefore as [|Hbefore]; [done|].
      destruct (first_of k Hk ltac:(by left)) as (j & Hj & Hd & Hpre). exists j. split; [lia|]. split.
      { intros c Hc. eapply the_den_ok; [exact He|lia|]. apply Hpre. lia. }
      cbn. split; [done|]. apply Exists_cons_hd. destruct Hd as [(e' & He' & Hd)|Hd]; [congruence|].
      exfalso. destruct (decide (j = k)) as [->|]; [by eapply not_both|]. apply (Hbefore j); [lia|done].
  - intros k Hk Hg Hbefore. pose proof Hg as (e & a & He & Ha & Hneg).
    apply (den_outcome None the_den). rewrite He.
    assert (forall j, 0 <= j < ch -> length (a_dims T) = 2%nat \/ j < k -> bin_val t OpAdd (at_ Va [j]) e <> None) as Hdef.
    { intros j Hj H2 Hn. apply (Hbefore j Hj H2). by exists e. }
    destruct (decide (length (a_dims T) = 2%nat)) as [H2|H2].
    + split.
      * apply Forall_forall. intros v Hv. apply va_in in Hv as (j & Hj & ->). apply Hdef; [done|by left].
      * apply Exists_exists. exists (at_ Va [k]). split; [|by exists a].
        eapply elem_of_list_lookup_2. by apply va_at.
    + destruct (first_of k Hk ltac:(by right)) as (j & Hj & Hd & Hpre). exists j. split; [lia|]. split.
      { intros c Hc. eapply the_den_ok; [exact He|lia|]. apply Hpre. lia. }
      assert (~ bn_undef t eps (at_ Va [j])) as Hnu.
      { destruct (decide (j = k)) as [->|]; [|apply Hbefore; [lia|right; lia]]. intros Hu. by eapply not_both. }
      destruct Hd as [Hd|(e' & a' & He' & Ha' & Hg')]; [done|]. assert (e' = e) as -> by congruence.
      cbn. split.
      * constructor; [|constructor]. congruence.
      * apply Exists_cons_hd. by exists a'.
  - intros ds Hden. cbv zeta. split.
    + intros Hbad. by eapply bn_rule_bad.
    + intros Hex. pose proof (holds_valid _ _ _ HT) as HvT.
      assert (Forall (fun d => 0 <= d) (a_dims T)) as Hnn by (by destruct (valid_fits _ HvT)).
      eapply bn_rule with (ds := ds); try done.
      * rewrite !Forall_cons in Hall. by destruct Hall as (_ & _ & _ & _ & [_ I5] & _).
      * eapply Forall_impl; [exact Hall|]. by intros U [].
      * split; [exact (valid_fits _ HvT)|]. cbn. rewrite tab_length. pose proof (prodZ_nonneg _ Hnn). lia.
      * intros c Hc. cbv zeta. rewrite at_tab by done. apply some_default. by apply Hex.
  - destruct (of_double t eps) as [e|] eqn:He; [right|by left].
    destruct first_no_den as [Hn|(j & Hj & Hd & Hpre)].
    + right. exists the_den. intros k Hk. eapply the_den_ok; [exact He|done|by apply Hn].
    + left. exists j. split; [done|]. split; [exact Hd|]. intros i Hi. split; intros Hx; apply (Hpre i Hi); [by left|by right].
Qed.

(** Success, and only success, when everything exists *)
Lemma bn_iff : (exists T3, makes run E s T3) <->
  exists ds, (forall k, 0 <= k < ch -> bn_den t eps (at_ Va [k]) (ds k)) /\
    forall c, in_box (a_dims T) c -> let k := chan axis c in
      bn_out t (ds k) (at_ Sc [k]) (at_ Bi [k]) (at_ Me [k]) (at_ T c) <> None.
Proof using All.
  destruct bn_exact as (H1 & H2 & H3 & H4 & H5). cbv zeta in *. split.
  - intros (T3 & s' & q & Hrun & _).
    destruct H5 as [H5|[(k & Hk & Hd & Hpre)|(ds & Hds)]].
    + specialize (H1 H5). congruence.
    + exfalso. destruct (decide (length (a_dims T) = 2%nat)) as [HL|HL].
      * assert ((exists j, 0 <= j < ch /\ bn_undef t eps (at_ Va [j])) \/ forall j, 0 <= j < ch -> ~ bn_undef t eps (at_ Va [j]))
          as [(j & Hj & Hu)|Hno].
        { destruct (of_double t eps) as [e|] eqn:He.
          2:{ right. intros j _ (e & He' & _). congruence. }
          destruct (all_some (fun j => bin_val t OpAdd (at_ Va [j]) e) ch) as [Ha|(j & Hj & Hn)].
          - right. intros j Hj (e' & He' & Hn). assert (e' = e) as -> by congruence. by apply (Ha j Hj).
          - left. exists j. split; [done|]. by exists e. }
        -- specialize (H2 j Hj Hu ltac:(by left)). congruence.
        -- destruct Hd as [Hd|Hd]; [by apply (Hno k)|].
           destruct (H3 k Hk Hd) as (h & s2 & HH); [intros; by apply Hno|]. congruence.
      * destruct Hd as [Hd|Hd].
        -- specialize (H2 k Hk Hd). rewrite H2 in Hrun; [done|]. right. intros j Hj. by apply Hpre.
        -- destruct (H3 k Hk Hd) as (h & s2 & HH); [|congruence]. intros j Hj [|Hjk]; [done|]. apply Hpre. lia.
    + exists ds. split; [done|]. intros c Hc Hn. destruct (H4 ds Hds) as [Hu _].
      rewrite Hu in Hrun; [done|]. by exists c.
  - intros (ds & Hds & Hex). eexists. by apply (H4 ds Hds).
Qed.
End batch_norm.
