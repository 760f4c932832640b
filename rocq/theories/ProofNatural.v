(** * ProofNatural: the outcome of every naturally assigned arithmetic sample *)
From stdpp Require Import gmap list list_numbers.
From Coq Require Import ZArith Lia Reals Lra Floats.SpecFloat.
From Coq Require Import ZifyBool ZifyNat.
From Flocq Require Import Core IEEE754.BinarySingleNaN.
From Verif Require Import Base Mem Spec SpecReal SpecNN SpecError ModelCore ModelBasic ModelMath ModelSample ModelAuto SpecAuto SpecNatural.
From Verif Require Import ProofFloat ProofFloat2 ProofFloat3 ProofFloat4 ProofCast ProofError.
From Verif Require Import Logic ProofCore ProofCore2 ProofCore3 ProofKernel ProofBasic ProofMath ProofSqrt ProofAuto ProofAuto2 ProofAuto3 ProofExact.
Open Scope Z_scope.
Ltac Zify.zify_post_hook ::= idtac.

Lemma nat_int t i x y : is_float t = false -> natural_spec t i x -> natural_spec t i y ->
  exists z, x = VI z /\ y = VI z /\ z = wrap t (Z.of_nat i + 1).
Proof.
  intros Hf Hx Hy. unfold natural_spec in *. rewrite Hf in *. destruct Hx as (a & -> & Ra & Ca), Hy as (b & -> & Rb & Cb).
  assert (forall z, tmin t <= z <= tmax t -> z mod 2 ^ bits t = (Z.of_nat i + 1) mod 2 ^ bits t -> z = wrap t (Z.of_nat i + 1)) as H.
  { intros z Hz Hc. rewrite <-(wrap_id t z Hz) at 1. unfold wrap. destruct (is_signed t); [|done]. f_equal.
    rewrite <-(Zplus_mod_idemp_l z), <-(Zplus_mod_idemp_l (Z.of_nat i + 1)). by rewrite Hc. }
  exists (wrap t (Z.of_nat i + 1)). by rewrite <-(H a Ra Ca), (H b Rb Cb) at 1; rewrite <-(H b Rb Cb), (H a Ra Ca).
Qed.
Lemma nat_zero t i : is_float t = false -> 0 < i <= 2 ^ bits t -> wrap t i = 0 -> i = 2 ^ bits t.
Proof.
  intros Hf Hi Hw. pose proof (wrap_congr t i) as Hc. rewrite Hw in Hc. rewrite Zmod_0_l in Hc.
  destruct (Z.eq_dec i (2 ^ bits t)) as [|Hne]; [done|]. rewrite Z.mod_small in Hc; lia.
Qed.
Ltac lim_of Hr := match type of Hr with tmin ?t <= _ <= tmax ?t =>
  let a := eval vm_compute in (tmin t) in let b := eval vm_compute in (tmax t) in
  change (tmin t) with a in Hr; change (tmax t) with b in Hr end.
Ltac wid := match goal with |- context [wrap ?t ?i] => rewrite (wrap_id t i) by
  (let a := eval vm_compute in (tmin t) in let b := eval vm_compute in (tmax t) in
   change (tmin t) with a; change (tmax t) with b; cbn [tsz] in *; lia) end.
Lemma nat_defined t o n i : is_float t = false -> n * Z.of_nat (tsz t) < 2 ^ 32 -> natural_def t o n -> 0 < i <= n ->
  int_defined t o (wrap t i) (wrap t i).
Proof.
  intros Hf Hn [Hmax Hd] Hi. pose proof (wrap_range t i) as Hr.
  assert (o = OpDiv -> wrap t i <> 0) as Hz.
  { intros -> Hw. specialize (Hd Hf). pose proof (nat_zero t i Hf ltac:(lia) Hw). lia. }
  split; [done|]. destruct o; cbn [op_int].
  - destruct t; try done; lim_of Hr; try lia; wid; cbn [tsz] in Hn; lia.
  - destruct t; try done; lia.
  - destruct t; try done; lim_of Hr; try (clear -Hr; nia); cbn [tsz] in Hn.
    all: try (specialize (Hd ltac:(tauto)); assert (n <= 46340) by (clear -Hd; nia)).
    all: wid; first [clear -Hi H; nia|clear -Hi Hn; nia].
  - specialize (Hz eq_refl). rewrite Z.quot_same by done. destruct t; try done; lia.
Qed.
Lemma nat_undefined t o n : is_float t = false -> 0 <= n <= INT_MAX -> ~ natural_def t o n ->
  exists i, 0 < i <= n /\ ~ int_defined t o (wrap t i) (wrap t i).
Proof.
  intros Hf Hn Hd. destruct o.
  - exfalso. apply Hd. split; [lia|done].
  - exfalso. apply Hd. split; [lia|done].
  - destruct (Z_lt_ge_dec (n * n) (2 ^ 31)) as [Hlt|Hge].
    { exfalso. apply Hd. split; [lia|done]. }
    assert (t = I32 \/ t = U16) as Ht.
    { destruct t; try (by left); try (by right); exfalso; (apply Hd; split; [lia|intros [?|?]; done]). }
    exists 46341. split; [nia|]. destruct Ht as [-> | ->]; intros [_ H]; vm_compute in H; destruct H; done.
  - destruct (Z_lt_ge_dec n (2 ^ bits t)) as [Hlt|Hge]; [exfalso; apply Hd; split; [lia|done]|].
    exists (2 ^ bits t). split; [pose proof (Z.pow_pos_nonneg 2 (bits t) ltac:(lia) ltac:(unfold bits; lia)); lia|]. intros [H _]. apply H; [done|]. by destruct t.
Qed.

Lemma nat_bin t o n i x y : natural_def t o n -> Z.of_nat i < n -> n * Z.of_nat (tsz t) < 2 ^ 32 ->
  natural_spec t i x -> natural_spec t i y ->
  op_defined t o x y /\
  (forall w, bin_spec t o x y (Some w) -> val_ok t w /\ (is_float t = true -> finite_val w)).
Proof.
  intros Hc Hi Hn Hx Hy. destruct (is_float t) eqn:Ht.
  - assert (natural_case t o n) as Hc' by (by destruct t).
    destruct (natural_bin t o n i x y Hc' Hi Hn Hx Hy) as [H1 H2]. split; [done|]. intros w Hw. destruct (H2 w Hw). auto.
  - destruct (nat_int t i x y Ht Hx Hy) as (z & -> & -> & ->).
    pose proof (nat_defined t o n (Z.of_nat i + 1) Ht Hn Hc ltac:(lia)) as Hd.
    split; [done|]. intros w [Hw _]. destruct (Hw Hd) as (r & [= ->] & Hr & _). done.
Qed.
Lemma nat_pass E s o t dims : wf s -> alloc_all E -> fits (tsz t) dims ->
  prodZ dims * Z.of_nat (tsz t) < UINT32_MOD -> natural_def t o (prodZ dims) ->
  exists p1 l1 s1 p2 l2 s2 s3,
    natural_operand dims (code_of t) E s = Done (p1, l1) s1 /\
    natural_operand dims (code_of t) E s1 = Done (p2, l2) s2 /\
    auto_case (aitisa_binary_op o) (itself (aitisa_binary_op o))
      (Opd dims (code_of t) 0 p1 l1) (Opd dims (code_of t) 0 p2 l2) None t (same_as t) E s2 = Done true s3.
Proof.
  intros Hwf HA Hf Hl Hc. pose proof (proj1 Hc) as Hmax.
  destruct (natural_operand_ok dims t (Dev 0 0) E s Hwf Hf Hl HA) as (p1 & l1 & s1 & ws & R1 & W1 & K1 & N1 & S1).
  destruct (natural_operand_ok dims t (Dev 0 0) E s1 W1 Hf Hl HA) as (p2 & l2 & s2 & vs & R2 & W2 & K2 & N2 & S2).
  cbn [dev_type] in *. apply (supplied_mono _ _ _ _ K2) in S1.
  exists p1, l1, s1, p2, l2, s2.
  set (x1 := Opd dims (code_of t) 0 p1 l1) in *. set (x2 := Opd dims (code_of t) 0 p2 l2) in *.
  assert (valid (AT t (Dev 0 0) dims ws)) as V1 by apply S1.
  assert (valid (AT t (Dev 0 0) dims vs)) as V2 by apply S2.
  pose proof (valid_len _ V1) as L1. pose proof (valid_len _ V2) as L2. cbn [a_vals a_dims] in L1, L2.
  unfold UINT32_MOD in Hl.
  assert (forall i x y, ws !! i = Some x -> vs !! i = Some y ->
    op_defined t o x y /\
    (forall w, bin_spec t o x y (Some w) -> val_ok t w /\ (is_float t = true -> finite_val w))) as Hb.
  { intros i x y Hx Hy. apply (nat_bin t o (prodZ dims) i); auto. apply lookup_lt_Some in Hx. lia. }
  assert (exists zs, Forall3 (fun x y w => bin_val t o x y = Some w) ws vs zs /\
     Forall (val_ok t) zs /\ (is_float t = true -> Forall finite_val zs)) as (zs & Z1 & Z2 & Z3).
  { assert (length ws = length vs) as Hlen by lia.
    assert (Forall (val_ok t) ws) as I1.
    { apply Forall_lookup_2. intros i x Hx. by eapply natural_ok, N1. }
    assert (Forall (val_ok t) vs) as I2.
    { apply Forall_lookup_2. intros i x Hx. by eapply natural_ok, N2. }
    clear -Hb Hlen I1 I2. revert vs Hb Hlen I1 I2. induction ws as [|x ws IH]; intros [|y vs] Hb Hlen I1 I2; try done.
    { exists []. split; [constructor|]. done. }
    destruct (IH vs) as (zs & Z1 & Z2 & Z3).
    { intros i a b Ha Hb'. by apply (Hb (S i)). }
    { by injection Hlen. }
    { by inversion I1. }
    { by inversion I2. }
    destruct (Hb O x y eq_refl eq_refl) as [Hd Hw].
    pose proof (bin_val_spec t o x y ltac:(by inversion I1) ltac:(by inversion I2)) as Hs.
    assert (exists w, bin_val t o x y = Some w) as [w Hw'].
    { destruct x as [a|a|], y as [b|b|]; try (inversion I1; by inversion I2).
      - destruct Hs as [Hs _]. destruct (Hs Hd) as (r & -> & _). eauto.
      - inversion I1 as [|? ? Q1]; inversion I2 as [|? ? Q2]. cbn in Q1, Q2. exfalso. destruct Q1, Q2. congruence.
      - inversion I1 as [|? ? Q1]; inversion I2 as [|? ? Q2]. cbn in Q1, Q2. exfalso. destruct Q1, Q2. congruence.
      - destruct Hs as (r & -> & _). eauto. }
    rewrite Hw' in Hs. destruct (Hw w Hs) as [Hok Hfin].
    exists (w :: zs). split; [by constructor|]. split; [by constructor|]. intros Ht. constructor; auto. }
  destruct (self_verdict E s2 (aitisa_binary_op o) x1 x2 (AT t (Dev 0 0) dims ws) (AT t (Dev 0 0) dims vs)
    (AT t (Dev 0 0) dims zs)) as (b & s3 & Hr & Hb'); try done.
  { intros s' q1 q2 o' Hwf' Q1 Q2.
    apply (binary_rule o q1 q2 (AT t (Dev 0 0) dims ws) (AT t (Dev 0 0) dims vs) zs); done. }
  { split; [done|]. cbn [a_vals a_dims]. rewrite <-L1. f_equal. clear -Z1. induction Z1; cbn; congruence. }
  exists s3. split; [done|]. split; [done|]. cbn [a_type a_vals] in *.
  rewrite (proj2 Hb' Z3) in Hr. exact Hr.
Qed.

Lemma nat_stuck E s o t dims : wf s -> alloc_all E -> fits (tsz t) dims ->
  prodZ dims * Z.of_nat (tsz t) < UINT32_MOD -> ~ natural_def t o (prodZ dims) ->
  exists p1 l1 s1 p2 l2 s2,
    natural_operand dims (code_of t) E s = Done (p1, l1) s1 /\
    natural_operand dims (code_of t) E s1 = Done (p2, l2) s2 /\
    forall X (U : user X) dev1 dev2 dev t' same,
    auto_case (aitisa_binary_op o) U (Opd dims (code_of t) dev1 p1 l1) (Opd dims (code_of t) dev2 p2 l2) dev t' same E s2 = UB UB_overflow.
Proof.
  intros Hwf HA Hf Hl Hc.
  destruct (natural_operand_ok dims t (Dev 0 0) E s Hwf Hf Hl HA) as (p1 & l1 & s1 & ws & R1 & W1 & K1 & N1 & S1).
  destruct (natural_operand_ok dims t (Dev 0 0) E s1 W1 Hf Hl HA) as (p2 & l2 & s2 & vs & R2 & W2 & K2 & N2 & S2).
  cbn [dev_type] in *. apply (supplied_mono _ _ _ _ K2) in S1.
  exists p1, l1, s1, p2, l2, s2. split; [done|]. split; [done|]. intros X U dev1 dev2 dev t' same.
  set (T1 := AT t (Dev 0 0) dims ws) in *. set (T2 := AT t (Dev 0 0) dims vs) in *.
  assert (valid T1) as V1 by apply S1. assert (valid T2) as V2 by apply S2.
  pose proof (valid_len _ V1) as L1. pose proof (valid_len _ V2) as L2. cbn [a_vals a_dims T1 T2] in L1, L2.
  unfold auto_case. apply bind_UB. unfold library_run. cbn [x_dtype x_dims x_data x_len].
  erewrite bind_done by apply int_to_dtype_ok. erewrite bind_done by apply int_to_dtype_ok. erewrite bind_done by done.
  destruct (supplied_create E s2 _ T1 (Dev 0 0) HUndef W2 HA S1) as (s3 & a1 & C1 & Hh1 & K3).
  cbn [x_dims x_data x_len a_type T1] in C1.
  erewrite bind_done by exact C1. cbv beta match.
  destruct (supplied_create E s3 _ T2 (Dev 0 0) HUndef (proj1 (proj2 K3)) HA (supplied_mono _ _ _ _ (proj1 K3) S2)) as (s4 & a2 & C2 & Hh2 & K4).
  cbn [x_dims x_data x_len a_type T2] in C2.
  erewrite bind_done by exact C2. cbv beta match. apply bind_UB.
  apply (binary_stuck o a1 a2 (on (Dev 0 0) T1) (on (Dev 0 0) T2)); try done.
  - apply K4.
  - eapply holds_mono; [apply K4|done].
  - apply Forall_lookup_2. intros i x Hx. by eapply natural_ok, N1.
  - apply Forall_lookup_2. intros i x Hx. by eapply natural_ok, N2.
  - cbn [a_dims a_vals a_type on T1 T2]. intros [Hmax Hall]. destruct (is_float t) eqn:Ht.
    { apply Hc. split; [done|]. destruct o; try done; [|congruence]. intros [-> | ->]; done. }
    assert (0 <= prodZ dims) as Hp0 by (apply prodZ_nonneg, Hf).
    destruct (nat_undefined t o (prodZ dims) Ht ltac:(lia) Hc) as (i & Hi & Hu). apply Hu.
    assert (Z.to_nat (i - 1) < length ws)%nat as [x Hx]%lookup_lt_is_Some by lia.
    assert (Z.to_nat (i - 1) < length vs)%nat as [y Hy]%lookup_lt_is_Some by lia.
    pose proof (Forall2_lookup_lr _ _ _ _ _ _ Hall Hx Hy) as Hd.
    destruct (nat_int t _ x y Ht (N1 _ _ Hx) (N2 _ _ Hy)) as (z & -> & -> & ->).
    replace (Z.of_nat (Z.to_nat (i - 1)) + 1) with i in Hd by lia. exact Hd.
Qed.
