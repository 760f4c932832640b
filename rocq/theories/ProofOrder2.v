(** * ProofOrder2: relu, square root, sigmoid, pooling and addition preserve the order *)
From stdpp Require Import gmap list list_numbers.
From Coq Require Import ZArith Lia Reals Lra Floats.SpecFloat.
From Coq Require Import ZifyBool ZifyNat.
From Flocq Require Import Core IEEE754.BinarySingleNaN.
From Verif Require Import Base Mem Spec SpecReal SpecNN SpecOrder ModelCore ModelBasic ModelMath ModelNN.
From Verif Require Import Logic ProofCore ProofCore2 ProofFloat ProofFloat2 ProofFloat3 ProofCast ProofIndex ProofKernel ProofKernel2
  ProofNN ProofSqrt ProofPool2 ProofPool3 ProofAcc ProofMatmul ProofUnit ProofOrder PropMath PropNN PropPool2.
Open Scope Z_scope.
Ltac Zify.zify_post_hook ::= idtac.

Lemma makes_have m E s o T : alloc_all E -> makes_or_nomem m E s o T -> makes m E s T.
Proof. intros HE [H|[H _]]; [exact H|]. by destruct (H HE). Qed.
Lemma map_le (R S : val -> val -> Prop) (P Q : val -> Prop) vs ws xs ys : Forall2 vle vs ws -> Forall P vs -> Forall Q ws ->
  Forall2 R vs xs -> Forall2 S ws ys -> (forall v w x y, P v -> Q w -> vle v w -> R v x -> S w y -> vle x y) -> Forall2 vle xs ys.
Proof.
  intros H HP HQ HR HS Hf. revert xs ys HP HQ HR HS. induction H as [|v w vs ws Hv H IH]; intros xs ys HP HQ HR HS.
  - inversion HR; subst. inversion HS; subst. constructor.
  - inversion HR as [|? x ? xs' Hx HR']; subst. inversion HS as [|? y ? ys' Hy HS']; subst.
    apply Forall_cons in HP as [P1 P2]. apply Forall_cons in HQ as [Q1 Q2]. constructor; [by apply (Hf v w)|by apply IH].
Qed.

Lemma relu_le t v w x y : val_ok t v -> val_ok t w -> vle v w -> relu_spec t v x -> relu_spec t w y -> vle x y.
Proof.
  intros Ov Ow H [R1 R2] [S1 S2]. destruct v as [a|f|], w as [b|g|]; try done; destruct Ov as [Hf _], Ow as [_ _]; unfold zero_val in *; rewrite Hf in *.
  - cbn in *. destruct (Z_lt_ge_dec 0 a) as [Ha|Ha].
    + rewrite R1, S1 by lia. done.
    + rewrite R2 by lia. destruct (Z_lt_ge_dec 0 b) as [Hb|Hb]; [rewrite S1 by lia; cbn; lia|rewrite S2 by lia; cbn; lia].
  - cbn [positive vle] in *.
    assert (forall h, {(0 < RV h)%R \/ h = S754_infinity false} + {~ ((0 < RV h)%R \/ h = S754_infinity false)}) as dec.
    { intros h. destruct (Rlt_dec 0 (RV h)); [left; by left|]. destruct h as [|[]| |]; try (right; intros [?|?]; done). left; by right. }
    destruct (fle_cases _ _ H) as [->|[->|(F1 & F2 & Hr)]].
    + rewrite R2 by (intros [?|?]; [cbn in *; lra|done]). destruct (dec g) as [Hg|Hg].
      * rewrite S1 by done. destruct Hg as [Hg | ->]; [|done]. apply fle_fin; [done|destruct g as [|[]| |]; cbn in Hg; try lra; done|cbn; lra].
      * rewrite S2 by done. cbn. lra.
    + rewrite S1 by (by right). destruct (dec f); [rewrite R1 by done|rewrite R2 by done]; [|done]. apply fle_top. by apply (fle_num _ _ H).
    + destruct (dec f) as [Hp|Hp].
      * rewrite R1 by done. rewrite S1; [done|]. left. destruct Hp as [Hp | ->]; [lra|done].
      * rewrite R2 by done. destruct (dec g) as [Hg|Hg]; [rewrite S1 by done|rewrite S2 by done; cbn; lra].
        destruct Hg as [Hg | ->]; [|done]. apply fle_fin; [done|done|cbn; lra].
Qed.
Lemma relu_ordered p p' A B o o' E s E' s' : wf s -> wf s' -> alloc_all E -> alloc_all E' ->
  holds (heap s) p A -> holds (heap s') p' B -> init A -> init B -> below A B ->
  ordered (aitisa_relu (HPtr p) o) E s (aitisa_relu (HPtr p') o') E' s'.
Proof.
  intros W W' HE HE' HA HB IA IB (Ht & Hd & Hv).
  destruct (C37_total A IA) as (xs & Hx & _), (C37_total B IB) as (ys & Hy & _).
  eexists _, _. split; [eapply makes_have; [done|]; by apply (C37_relu p A xs)|].
  split; [eapply makes_have; [done|]; by apply (C37_relu p' B ys)|].
  split; [done|]. split; [done|]. cbn [a_vals]. unfold init in *.
  eapply (map_le _ _ _ _ (a_vals A) (a_vals B)); [done|exact IA|exact IB|exact Hx|exact Hy|].
  rewrite <-Ht. intros v w x y. apply relu_le.
Qed.

Lemma sqrt_le t v w x y : ~ negative v -> vle v w -> sqrt_spec t v (Some x) -> sqrt_spec t w (Some y) -> vle x y.
Proof.
  intros Hn H Hx Hy. destruct v as [a|f|], w as [b|g|]; try done.
  - destruct Hx as (i & [= ->] & _ & -> & _), Hy as (j & [= ->] & _ & -> & _). cbn.
    apply Ztrunc_le, rnd_le, sqrt_le_1_alt, rnd_le, IZR_le. exact H.
  - destruct Hx as (f' & [= ->] & _ & X1 & X2), Hy as (g' & [= ->] & _ & Y1 & Y2). cbn [vle] in *.
    assert (forall h h', h <> S754_nan -> (is_finite_SF h = false -> h' = h) -> (is_finite_SF h = true -> is_finite_SF h' = true /\ RV h' = rnd t (sqrt (RV h))) ->
      h' <> S754_nan) as Hnan.
    { intros h h' Hh H1 H2. destruct (is_finite_SF h) eqn:E; [apply fin_nan; by apply H2|]. by rewrite H1. }
    destruct (fle_num _ _ H) as [N N'].
    destruct (fle_cases _ _ H) as [->|[->|(F1 & F2 & Hr)]].
    + exfalso. apply Hn. by right.
    + rewrite (Y1 eq_refl). apply fle_top. by apply (Hnan f).
    + destruct (X2 F1) as [Ff Rf], (Y2 F2) as [Fg Rg]. apply fle_fin; [done|done|]. rewrite Rf, Rg. by apply rnd_le, sqrt_le_1_alt.
Qed.
Lemma sqrt_ordered p p' A B o o' E s E' s' : wf s -> wf s' -> alloc_all E -> alloc_all E' ->
  holds (heap s) p A -> holds (heap s') p' B -> init A -> init B -> below A B -> Forall (fun v => ~ negative v) (a_vals A) ->
  ordered (aitisa_sqrt (HPtr p) o) E s (aitisa_sqrt (HPtr p') o') E' s'.
Proof.
  intros W W' HE HE' HA HB IA IB (Ht & Hd & Hv) Hn.
  assert (Forall (fun v => ~ negative v) (a_vals B)) as Hn'.
  { clear -Hv Hn. induction Hv as [|v w vs ws Hle Hv IH]; [constructor|]. apply Forall_cons in Hn as [N1 N2].
    constructor; [|by apply IH]. intros Hw. apply N1. destruct v as [a|f|], w as [b|g|]; try done; cbn in *; [lia|].
    destruct (fle_cases _ _ Hle) as [->|[->|(F1 & F2 & Hr)]]; [by right|destruct Hw as [Hw|Hw]; [cbn in Hw; lra|done]|].
    left. destruct Hw as [Hw| ->]; [lra|done]. }
  destruct (C29_sqrt p A o E s W HA IA Hn) as (xs & Hx & MX), (C29_sqrt p' B o' E' s' W' HB IB Hn') as (ys & Hy & MY).
  eexists _, _. split; [by eapply makes_have|]. split; [by eapply makes_have|]. split; [done|]. split; [done|]. cbn [a_vals].
  eapply (map_le _ _ _ _ (a_vals A) (a_vals B)); [done|exact Hn|exact Hn'|exact Hx|exact Hy|].
  rewrite <-Ht. intros v w x y N _. by apply sqrt_le.
Qed.

Section pool.
  Context (p p' : nat) (A B : atensor) (nb nc : Z) (sd ks ss ps ls : list Z) (o o' : hval) (E E' : env) (s s' : st).
  Context (W : wf s) (W' : wf s') (HE : alloc_all E) (HE' : alloc_all E') (HH : hooks_ok E) (HH' : hooks_ok E').
  Context (HA : holds (heap s) p A) (HB : holds (heap s') p' B) (IA : init A) (IB : init B) (HAB : below A B).
  Context (Hdim : a_dims A = nb :: nc :: sd) (Hrank : (1 <= length sd <= 3)%nat) (Hok : win_ok sd ks ss ps ls).
  Context (Hks : prodZ ks <= INT64_MAX) (Hos : prodZ (win_outs sd ks ss ps ls) <= INT_MAX).
  Context (F1 : (Z.to_nat (prodZ ks) <= e_fuel E)%nat) (F2 : (Z.to_nat (prodZ (win_outs sd ks ss ps ls)) <= e_fuel E)%nat).
  Context (F1' : (Z.to_nat (prodZ ks) <= e_fuel E')%nat) (F2' : (Z.to_nat (prodZ (win_outs sd ks ss ps ls)) <= e_fuel E')%nat).
  Context (Hfit : fits (tsz (a_type A)) (nb :: nc :: win_outs sd ks ss ps ls)).

  Lemma ks_pos : 1 <= prodZ ks.
  Proof using Hok.
    clear -Hok. revert ks ss ps ls Hok. induction sd as [|d l IH]; intros [|k ks] [|a ss] [|b ps] [|c ls] H; try done.
    destruct H as [H1 H2]. rewrite prodZ_cons. specialize (IH ks ss ps ls H2). destruct H1 as (_ & Hk & _). nia.
  Qed.
  Lemma box_parts b c x : in_box (nb :: nc :: win_outs sd ks ss ps ls) (b :: c :: x) -> 0 <= b < nb /\ 0 <= c < nc.
  Proof using. intros H. inversion H as [|? ? ? ? H1 H2]; subst. by inversion H2. Qed.
  Lemma pool_below X Y (h : list val -> option val) :
    (forall vs ws x y, Forall2 vle vs ws -> Forall (val_ok (a_type A)) vs -> Forall (val_ok (a_type A)) ws ->
       (exists b c z, vs = window A ks ss ps ls b c z /\ ws = window B ks ss ps ls b c z /\ 0 <= b < nb /\ 0 <= c < nc) ->
       h vs = Some x -> h ws = Some y -> vle x y) ->
    a_type X = a_type A -> a_dims X = nb :: nc :: win_outs sd ks ss ps ls -> valid X ->
    (forall b c x, in_box (a_dims X) (b :: c :: x) -> h (window A ks ss ps ls b c x) = Some (at_ X (b :: c :: x))) ->
    a_type Y = a_type B -> a_dims Y = nb :: nc :: win_outs sd ks ss ps ls -> valid Y ->
    (forall b c x, in_box (a_dims Y) (b :: c :: x) -> h (window B ks ss ps ls b c x) = Some (at_ Y (b :: c :: x))) ->
    below X Y.
  Proof using HA HB IA IB HAB Hdim.
    intros Hh TX DX VX EX TY DY VY EY. pose proof HAB as (Ht & Hd & _).
    apply below_tab; [done|done|congruence|congruence|]. intros c Hc. rewrite DX in Hc.
    destruct c as [|b [|c x]]; [by inversion Hc|inversion Hc as [|? ? ? ? _ H2]; by inversion H2|].
    destruct (box_parts b c x Hc) as [Hb Hc']. pose proof (holds_valid _ _ _ HA) as VA. pose proof (holds_valid _ _ _ HB) as VB.
    eapply (Hh (window A ks ss ps ls b c x) (window B ks ss ps ls b c x)).
    - by apply (below_window A B nb nc sd).
    - by apply (window_forall _ A nb nc sd).
    - rewrite Ht. apply (window_forall _ B nb nc sd); try done. congruence.
    - by exists b, c, x.
    - apply EX. by rewrite DX.
    - apply EY. by rewrite DY.
  Qed.
  Lemma avg_ordered : Forall bounded (a_vals A) -> Forall bounded (a_vals B) ->
    (exists X, makes (aitisa_pooling (HPtr p) PAvg ks ss ps ls o) E s X) ->
    (exists Y, makes (aitisa_pooling (HPtr p') PAvg ks ss ps ls o') E' s' Y) ->
    ordered (aitisa_pooling (HPtr p) PAvg ks ss ps ls o) E s (aitisa_pooling (HPtr p') PAvg ks ss ps ls o') E' s'.
  Proof using W W' HE HE' HH HH' HA HB IA IB HAB Hdim Hrank Hok Hks Hos F1 F2 F1' F2' Hfit.
    intros BA BB [X0 MX0] [Y0 MY0]. pose proof HAB as (Ht & Hd & _).
    destruct (C41_exact p A nb nc sd ks ss ps ls o E s W HE HH HA IA Hdim Hrank Hok Hks Hos F1 F2 Hfit) as [D1 U1].
    assert (a_dims B = nb :: nc :: sd) as Hdim' by congruence. pose proof Hfit as Hfit'. rewrite Ht in Hfit'.
    destruct (C41_exact p' B nb nc sd ks ss ps ls o' E' s' W' HE' HH' HB IB Hdim' Hrank Hok Hks Hos F1' F2' Hfit') as [D2 U2].
    destruct D1 as (X & TX & _ & DX & VX & EX & MX).
    { intros b c x Hx Hn. destruct MX0 as (? & ? & MX0 & _). rewrite U1 in MX0 by eauto. done. }
    destruct D2 as (Y & TY & _ & DY & VY & EY & MY).
    { intros b c x Hx Hn. destruct MY0 as (? & ? & MY0 & _). rewrite U2 in MY0 by eauto. done. }
    exists X, Y. split; [done|]. split; [done|]. rewrite <-Ht in EY.
    eapply (pool_below X Y _); [|exact TX|exact DX|exact VX|exact EX|exact TY|exact DY|exact VY|exact EY].
    intros vs ws x y H1 H2 H3 (b & c & z & -> & -> & Hb & Hc). pose proof ks_pos.
    apply (pool_avg_le (a_type A)); try done.
    - by apply (window_forall _ A nb nc sd); [apply (holds_valid _ _ _ HA)|..].
    - by apply (window_forall _ B nb nc sd); [apply (holds_valid _ _ _ HB)|..].
  Qed.
  Lemma max_ordered :
    (exists X, makes (aitisa_pooling (HPtr p) PMax ks ss ps ls o) E s X) ->
    (exists Y, makes (aitisa_pooling (HPtr p') PMax ks ss ps ls o') E' s' Y) ->
    ordered (aitisa_pooling (HPtr p) PMax ks ss ps ls o) E s (aitisa_pooling (HPtr p') PMax ks ss ps ls o') E' s'.
  Proof using W W' HE HE' HH HH' HA HB IA IB HAB Hdim Hrank Hok Hks Hos F1 F2 F1' F2' Hfit.
    intros [X0 MX0] [Y0 MY0]. pose proof HAB as (Ht & Hd & _).
    destruct (C42_exact p A nb nc sd ks ss ps ls o E s W HE HH HA IA Hdim Hrank Hok Hks Hos F1 F2 Hfit) as [D1 U1].
    assert (a_dims B = nb :: nc :: sd) as Hdim' by congruence. pose proof Hfit as Hfit'. rewrite Ht in Hfit'.
    destruct (C42_exact p' B nb nc sd ks ss ps ls o' E' s' W' HE' HH' HB IB Hdim' Hrank Hok Hks Hos F1' F2' Hfit') as [D2 U2].
    destruct D1 as (X & TX & _ & DX & VX & EX & MX).
    { intros b c x Hx Hn. destruct MX0 as (? & ? & MX0 & _). rewrite U1 in MX0 by eauto. done. }
    destruct D2 as (Y & TY & _ & DY & VY & EY & MY).
    { intros b c x Hx Hn. destruct MY0 as (? & ? & MY0 & _). rewrite U2 in MY0 by eauto. done. }
    exists X, Y. split; [done|]. split; [done|]. rewrite <-Ht in EY.
    eapply (pool_below X Y _); [|exact TX|exact DX|exact VX|exact EX|exact TY|exact DY|exact VY|exact EY].
    intros vs ws x y H1 H2 H3 _. by apply (pool_max_le (a_type A)).
  Qed.
  (** On floats nothing is undefined. *)
  Lemma float_pool m q T e u : m <> POther -> wf u -> alloc_all e -> hooks_ok e -> holds (heap u) q T -> init T -> a_dims T = nb :: nc :: sd ->
    a_type T = a_type A -> is_float (a_type A) = true -> (Z.to_nat (prodZ ks) <= e_fuel e)%nat ->
    (Z.to_nat (prodZ (win_outs sd ks ss ps ls)) <= e_fuel e)%nat -> forall o, exists X, makes (aitisa_pooling (HPtr q) m ks ss ps ls o) e u X.
  Proof using Hrank Hok Hks Hos Hfit.
    intros Hm Wu He Hh Hq Hi HdT HtT Hf G1 G2 oo. pose proof Hfit as HfT. rewrite <-HtT in HfT, Hf.
    assert (forall b c x, in_box (nb :: nc :: win_outs sd ks ss ps ls) (b :: c :: x) ->
      exists ds, mapM (to_double (a_type T)) (window T ks ss ps ls b c x) = Some ds) as Hds.
    { intros b c x Hx. destruct (box_parts b c x Hx) as [Hb Hc].
      pose proof (window_forall _ T nb nc sd ks ss ps ls b c x (holds_valid _ _ _ Hq) HdT Hb Hc Hi) as Hw.
      apply mapM_is_Some_2. eapply Forall_impl; [exact Hw|]. intros v Hv. destruct v as [z|f|]; [|unfold to_double; rewrite Hf; by eexists|done].
      destruct Hv as [Hv _]. congruence. }
    destruct m; [| |done].
    - destruct (C41_exact q T nb nc sd ks ss ps ls oo e u Wu He Hh Hq Hi HdT Hrank Hok Hks Hos G1 G2 HfT) as [D _].
      destruct D as (X & _ & _ & _ & _ & _ & M); [|by exists X]. intros b c x Hx. destruct (Hds b c x Hx) as [ds Hd].
      unfold pool_avg. rewrite Hd. cbn [mbind option_bind]. unfold of_double. by rewrite Hf.
    - destruct (C42_exact q T nb nc sd ks ss ps ls oo e u Wu He Hh Hq Hi HdT Hrank Hok Hks Hos G1 G2 HfT) as [D _].
      destruct D as (X & _ & _ & _ & _ & _ & M); [|by exists X]. intros b c x Hx. destruct (Hds b c x Hx) as [ds Hd].
      unfold pool_max0. rewrite Hd. cbn [mbind option_bind]. unfold of_double. by rewrite Hf.
  Qed.
  Lemma avg_ordered_float : is_float (a_type A) = true -> Forall bounded (a_vals A) -> Forall bounded (a_vals B) ->
    ordered (aitisa_pooling (HPtr p) PAvg ks ss ps ls o) E s (aitisa_pooling (HPtr p') PAvg ks ss ps ls o') E' s'.
  Proof using W W' HE HE' HH HH' HA HB IA IB HAB Hdim Hrank Hok Hks Hos F1 F2 F1' F2' Hfit.
    intros Hf BA BB. pose proof HAB as (Ht & Hd & _). apply avg_ordered; [done|done|..].
    - by apply (float_pool PAvg p A).
    - apply (float_pool PAvg p' B); try done; congruence.
  Qed.
  Lemma max_ordered_float : is_float (a_type A) = true ->
    ordered (aitisa_pooling (HPtr p) PMax ks ss ps ls o) E s (aitisa_pooling (HPtr p') PMax ks ss ps ls o') E' s'.
  Proof using W W' HE HE' HH HH' HA HB IA IB HAB Hdim Hrank Hok Hks Hos F1 F2 F1' F2' Hfit.
    intros Hf. pose proof HAB as (Ht & Hd & _). apply max_ordered.
    - by apply (float_pool PMax p A).
    - apply (float_pool PMax p' B); try done; congruence.
  Qed.
End pool.

(** ** Sigmoid *)
Lemma opp_le f g : fle f g -> fle (SFopp g) (SFopp f).
Proof.
  intros H. destruct (fle_num _ _ H) as [N N']. destruct (fle_cases _ _ H) as [->|[->|(F1 & F2 & Hr)]].
  - apply (fle_top (SFopp g)). by destruct g.
  - apply (fle_bot (SFopp f)). by destruct f.
  - assert (forall h, is_finite_SF h = true -> is_finite_SF (SFopp h) = true /\ RV (SFopp h) = (- RV h)%R) as Ho.
    { intros [|? | |sg m e]; try done; intros _; (split; [done|]); [cbn; lra|]. unfold SFopp, SF2R. rewrite <-F2R_Zopp.
      by destruct sg. }
    destruct (Ho f F1), (Ho g F2). apply fle_fin; [done|done|lra].
Qed.
Lemma same_le f g f' g' : same_float f f' -> same_float g g' -> fle f g -> fle f' g'.
Proof.
  intros (_ & A1 & A2) (_ & B1 & B2) H. destruct (fle_num _ _ H) as [N N'].
  assert (forall h h', h <> S754_nan -> (is_finite_SF h = false -> h' = h) ->
    (is_finite_SF h = true -> is_finite_SF h' = true /\ RV h' = RV h /\ sign_SF h' = sign_SF h) -> h' <> S754_nan) as Hnan.
  { intros h h' Hh H1 H2. destruct (is_finite_SF h) eqn:E; [apply fin_nan; by apply H2|]. by rewrite H1. }
  destruct (fle_cases _ _ H) as [->|[->|(F1 & F2 & Hr)]].
  - rewrite A1 by done. apply fle_bot. by apply (Hnan g).
  - rewrite B1 by done. apply fle_top. by apply (Hnan f).
  - destruct (A2 F1) as (? & ? & _), (B2 F2) as (? & ? & _). apply fle_fin; [done|done|lra].
Qed.
Lemma one_plus_le a b : vb F64 a = true -> vb F64 b = true -> fle fzero a -> fle a b ->
  fle (ddiv done (dadd done b)) (ddiv done (dadd done a)).
Proof.
  intros Va Vb H0 H. assert (vb F64 done = true) as V1 by (by vm_compute). assert (is_finite_SF done = true) as F1 by done.
  assert (RV done = 1)%R as R1 by (apply (flt_of_Z_exact F64 1); done).
  pose proof (fle_trans _ _ _ H0 H) as H0'.
  assert (forall z, vb F64 z = true -> fle fzero z -> dadd done z = S754_infinity false \/
    (is_finite_SF (dadd done z) = true /\ (1 <= RV (dadd done z))%R)) as Hz.
  { intros z Vz Hz. destruct (fle_cases _ _ Hz) as [?|[->|(_ & Fz & Hr)]]; [done|by left|].
    destruct (add_rnd F64 done z V1 Vz F1 Fz) as [G1 G2]. change (flt_op F64 OpAdd done z) with (dadd done z) in *.
    rewrite R1 in *. cbn in Hr.
    destruct (Rlt_or_le (Rabs (rnd F64 (1 + RV z))) (bpow radix2 (femax F64))) as [Hl|Hl].
    - right. destruct (G1 Hl) as [? ->]. split; [done|]. rewrite <-(rnd_fmt F64 1) at 1 by (apply (int_fmt F64 1); done).
      apply rnd_le. lra.
    - left. rewrite (G2 Hl). rewrite Rlt_bool_false by lra. done. }
  assert (forall z, vb F64 z = true -> fle fzero z -> fle fzero (ddiv done (dadd done z))) as Hp.
  { intros z Vz Hz0. destruct (Hz z Vz Hz0) as [->|[Fz Rz]].
    { change (ddiv done (S754_infinity false)) with fzero. by apply fle_refl. }
    pose proof (flt_op_valid F64 OpAdd done z V1 Vz) as Vs. change (flt_op F64 OpAdd done z) with (dadd done z) in Vs.
    apply (is_rnd_le F64 0 (RV done / RV (dadd done z))).
    - split; intros Hr; rewrite rnd_0 in *; [done|]. rewrite Rabs_R0 in Hr. pose proof (bpow_gt_0 radix2 (femax F64)). lra.
    - apply (div_rnd F64); try done. lra.
    - rewrite R1. apply Rlt_le, Rdiv_lt_0_compat; lra. }
  destruct (Hz b Vb H0') as [Eb|[Fb Rb]].
  - rewrite Eb. change (ddiv done (S754_infinity false)) with fzero. by apply Hp.
  - pose proof (flt_op_valid F64 OpAdd done b V1 Vb) as Vsb. pose proof (flt_op_valid F64 OpAdd done a V1 Va) as Vsa.
    change (flt_op F64 OpAdd done b) with (dadd done b) in Vsb. change (flt_op F64 OpAdd done a) with (dadd done a) in Vsa.
    assert (fle (dadd done a) (dadd done b)) as Hs.
    { destruct (fle_cases _ _ H) as [->|[->|(Fa & Fb' & Hr)]]; [done|done|].
      apply (is_rnd_le F64 (RV done + RV a) (RV done + RV b)); [by apply (add_rnd F64)|by apply (add_rnd F64)|lra]. }
    destruct (Hz a Va H0) as [Ea|[Fa Ra]]; [rewrite Ea in Hs; by destruct (dadd done b) as [|[]| |]|].
    apply fle_fin in Hs; [|done|done].
    apply (is_rnd_le F64 (RV done / RV (dadd done b)) (RV done / RV (dadd done a))).
    + apply (div_rnd F64); try done. lra.
    + apply (div_rnd F64); try done. lra.
    + rewrite R1. unfold Rdiv. rewrite !Rmult_1_l. apply Rinv_le_contravar; lra.
Qed.
Lemma sigmoid_le t ex v w x y : exp_mono ex -> vle v w -> sigmoid_spec ex t v x -> sigmoid_spec ex t w y -> vle x y.
Proof.
  intros [Hm He] H (f & f' & -> & S1 & ->) (g & g' & -> & S2 & ->). cbn in *. apply conv_le.
  pose proof (same_le _ _ _ _ S2 S1 (opp_le _ _ H)) as Hle. destruct S1 as (V1 & _), S2 as (V2 & _).
  change (dbl_of_Z 1) with done.
  destruct (fle_num _ _ Hle) as [N N']. destruct (He _ V1) as [Ve1 Z1], (He _ V2) as [Ve2 Z2].
  apply one_plus_le; [done|done|by apply Z2|by apply Hm].
Qed.
Lemma sigmoid_ordered p p' A B o o' E s E' s' : wf s -> wf s' -> alloc_all E -> alloc_all E' ->
  holds (heap s) p A -> holds (heap s') p' B -> init A -> init B -> below A B -> is_float (a_type A) = true ->
  exp_mono (e_exp E) -> e_exp E' = e_exp E ->
  ordered (aitisa_sigmoid (HPtr p) o) E s (aitisa_sigmoid (HPtr p') o') E' s'.
Proof.
  intros W W' HE HE' HA HB IA IB (Ht & Hd & Hv) Hf Hm Hex. pose proof Hf as Hf'. rewrite Ht in Hf'.
  destruct (C38_sigmoid_total A (e_exp E) IA Hf) as (xs & Hx & _), (C38_sigmoid_total B (e_exp E') IB Hf') as (ys & Hy & _).
  eexists _, _. split; [eapply makes_have; [done|]; by apply (C38_sigmoid p A xs)|].
  split; [eapply makes_have; [done|]; by apply (C38_sigmoid p' B ys)|].
  split; [done|]. split; [done|]. cbn [a_vals]. unfold init in *. rewrite Hex in Hy.
  eapply (map_le _ _ _ _ (a_vals A) (a_vals B)); [done|exact IA|exact IB|exact Hx|exact Hy|].
  rewrite <-Ht. intros v w x y _ _. by apply sigmoid_le.
Qed.

(** ** Addition *)
Lemma bin_add_rnd t x y w : vb t x = true -> vb t y = true -> bounded (VF x) -> bounded (VF y) ->
  bin_spec t OpAdd (VF x) (VF y) (Some w) -> exists r, w = VF r /\ is_rnd t (RV x + RV y) r.
Proof.
  intros Vx Vy Bx By (r & [= ->] & _ & H). exists r. split; [done|].
  assert (op_special OpAdd x y = None) as Hs by (by destruct x, y). rewrite Hs in H. cbn [op_real] in H. destruct H as [H1 H2]. split.
  - intros Hr. by destruct (H1 Hr) as (? & ? & _).
  - intros Hr. rewrite (H2 Hr). unfold op_sign. destruct (Req_bool_spec (RV x + RV y) 0) as [H0|]; [|done].
    exfalso. rewrite H0, rnd_0, Rabs_R0 in Hr. pose proof (bpow_gt_0 radix2 (femax t)). lra.
Qed.
Lemma add_le t v v' w w' x y : is_float t = true -> val_ok t v -> val_ok t v' -> val_ok t w -> val_ok t w' ->
  bounded v -> bounded v' -> bounded w -> bounded w' -> vle v w -> vle v' w' ->
  bin_spec t OpAdd v v' (Some x) -> bin_spec t OpAdd w w' (Some y) -> vle x y.
Proof.
  intros Ht O1 O2 O3 O4 B1 B2 B3 B4 L1 L2 H1 H2.
  assert (forall z, val_ok t z -> exists f, z = VF f /\ vb t f = true) as Hfl.
  { intros [z|f|] Hz; try done; destruct Hz; [congruence|by eexists]. }
  destruct (Hfl _ O1) as (a & -> & V1), (Hfl _ O2) as (b & -> & V2), (Hfl _ O3) as (c & -> & V3), (Hfl _ O4) as (d & -> & V4).
  destruct (bin_add_rnd t a b x V1 V2 B1 B2 H1) as (r & -> & Hr), (bin_add_rnd t c d y V3 V4 B3 B4 H2) as (r' & -> & Hr').
  cbn [vle] in *. eapply is_rnd_le; [exact Hr|exact Hr'|].
  assert (RV a <= RV c)%R by (apply fle_fin; [by destruct a|by destruct c|done]).
  assert (RV b <= RV d)%R by (apply fle_fin; [by destruct b|by destruct d|done]). lra.
Qed.
Lemma add_ordered p q p' q' A1 A2 B1 B2 o o' E s E' s' : wf s -> wf s' -> alloc_all E -> alloc_all E' ->
  holds (heap s) p A1 -> holds (heap s) q A2 -> holds (heap s') p' B1 -> holds (heap s') q' B2 ->
  is_float (a_type A1) = true -> a_type A2 = a_type A1 -> a_dims A2 = a_dims A1 -> prodZ (a_dims A1) <= INT_MAX ->
  dev_type (a_dev A1) = 0 -> dev_type (a_dev A2) = 0 -> dev_type (a_dev B1) = 0 -> dev_type (a_dev B2) = 0 ->
  init A1 -> init A2 -> init B1 -> init B2 ->
  Forall bounded (a_vals A1) -> Forall bounded (a_vals A2) -> Forall bounded (a_vals B1) -> Forall bounded (a_vals B2) ->
  below A1 B1 -> below A2 B2 ->
  ordered (aitisa_binary_op OpAdd (HPtr p) (HPtr q) o) E s (aitisa_binary_op OpAdd (HPtr p') (HPtr q') o') E' s'.
Proof.
  intros W W' HE HE' HA1 HA2 HB1 HB2 Hf Ht Hd Hn C1 C2 C3 C4 I1 I2 I3 I4 D1 D2 D3 D4 (T1 & S1 & L1) (T2 & S2 & L2).
  assert (forall t vs ws, is_float t = true -> Forall (val_ok t) vs -> Forall (val_ok t) ws -> length vs = length ws ->
    Forall2 (op_defined t OpAdd) vs ws) as Hdef.
  { intros t vs ws Hft Hv Hw Hl. apply Forall2_same_length_lookup_2; [done|]. intros i v w Lv Lw.
    rewrite Forall_lookup in Hv, Hw. specialize (Hv _ _ Lv). specialize (Hw _ _ Lw).
    destruct v as [?|?|], w as [?|?|]; try done; destruct Hv, Hw; congruence. }
  pose proof (valid_len _ (holds_valid _ _ _ HA1)) as N1. pose proof (valid_len _ (holds_valid _ _ _ HA2)) as N2.
  pose proof (valid_len _ (holds_valid _ _ _ HB1)) as N3. pose proof (valid_len _ (holds_valid _ _ _ HB2)) as N4.
  unfold init in *. rewrite Hd in *. rewrite Ht in *. rewrite <-T1, <-S1 in *. rewrite <-T2, <-S2 in *.
  destruct (C26_arithmetic OpAdd p q A1 A2 o E s) as (xs & Hx & MX); try done.
  { unfold init. by rewrite Ht. }
  { apply Hdef; try done. lia. }
  destruct (C26_arithmetic OpAdd p' q' B1 B2 o' E' s') as (ys & Hy & MY); try done; try congruence.
  { unfold init. by rewrite <-T1. }
  { unfold init. by rewrite <-T2. }
  { rewrite <-T1. apply Hdef; try done. lia. }
  eexists _, _. split; [exact MX|]. split; [exact MY|]. split; [done|]. split; [done|]. cbn [a_vals]. rewrite <-T1 in Hy.
  clear -Hf Hx Hy I1 I2 I3 I4 D1 D2 D3 D4 L1 L2.
  revert Hf I1 I2 I3 I4 D1 D2 D3 D4 L1 L2 Hx Hy. generalize (a_type A1) (a_vals A1) (a_vals A2) (a_vals B1) (a_vals B2).
  intros t vs vs' ws ws' Hf I1 I2 I3 I4 D1 D2 D3 D4 L1 L2 Hx. revert ws ws' ys I3 I4 D3 D4 L1 L2.
  induction Hx as [|v v' x vs vs' xs H Hx IH]; intros ws ws' ys I3 I4 D3 D4 L1 L2 Hy.
  - inversion L1; subst. inversion Hy; subst. constructor.
  - inversion L1 as [|? w ? wt M1 L1']; subst. inversion L2 as [|? w' ? wt' M2 L2']; subst.
    inversion Hy as [|? ? y ? ? yt H' Hy']; subst.
    apply Forall_cons in I1 as [? I1]. apply Forall_cons in I2 as [? I2]. apply Forall_cons in I3 as [? I3]. apply Forall_cons in I4 as [? I4].
    apply Forall_cons in D1 as [? D1]. apply Forall_cons in D2 as [? D2]. apply Forall_cons in D3 as [? D3]. apply Forall_cons in D4 as [? D4].
    constructor; [by apply (add_le t v v' w w')|by apply (IH I1 I2 D1 D2 wt wt')].
Qed.
