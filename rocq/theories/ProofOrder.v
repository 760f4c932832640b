(** * ProofOrder: rounding, conversions, sums, quotients and roots preserve the order *)
From stdpp Require Import gmap list list_numbers.
From Coq Require Import ZArith Lia Reals Lra Floats.SpecFloat.
From Coq Require Import ZifyBool ZifyNat.
From Flocq Require Import Core IEEE754.BinarySingleNaN.
From Verif Require Import Base Mem Spec SpecReal SpecNN SpecOrder ModelCore ModelBasic ModelNN.
From Verif Require Import Logic ProofCore ProofCore2 ProofFloat ProofFloat2 ProofFloat3 ProofCast ProofIndex ProofKernel ProofKernel2
  ProofNN ProofPool2 ProofPool3 ProofAcc ProofMatmul ProofAuto ProofUnit.
Open Scope Z_scope.
Ltac Zify.zify_post_hook ::= idtac.

Lemma fle_fin f g : is_finite_SF f = true -> is_finite_SF g = true -> (fle f g <-> (RV f <= RV g)%R).
Proof. by destruct f as [[]|[]| |[] ? ?], g as [[]|[]| |[] ? ?]. Qed.
Lemma fle_refl f : f <> S754_nan -> fle f f.
Proof. destruct f as [[]|[]| |[] ? ?]; try done; intros _; apply Rle_refl. Qed.
Lemma fle_bot f : f <> S754_nan -> fle (S754_infinity true) f.
Proof. by destruct f as [[]|[]| |[] ? ?]. Qed.
Lemma fle_top f : f <> S754_nan -> fle f (S754_infinity false).
Proof. by destruct f as [[]|[]| |[] ? ?]. Qed.
Lemma fin_nan f : is_finite_SF f = true -> f <> S754_nan.
Proof. by destruct f. Qed.

(** [f] is the correctly rounded [r], infinite on overflow. *)
Definition is_rnd (t : tcode) (r : R) (f : spec_float) : Prop :=
  ((Rabs (rnd t r) < bpow radix2 (femax t))%R -> is_finite_SF f = true /\ RV f = rnd t r) /\
  ((bpow radix2 (femax t) <= Rabs (rnd t r))%R -> f = S754_infinity (Rlt_bool r 0)).
Lemma rnd_sign t r : ((0 <= r -> 0 <= rnd t r) /\ (r <= 0 -> rnd t r <= 0))%R.
Proof. split; intros H; rewrite <-(rnd_0 t); by apply rnd_le. Qed.
Lemma is_rnd_le t r r' f f' : is_rnd t r f -> is_rnd t r' f' -> (r <= r')%R -> fle f f'.
Proof.
  intros [F1 F2] [G1 G2] Hr. pose proof (rnd_le t _ _ Hr) as Hle. set (B := bpow radix2 (femax t)) in *.
  destruct (rnd_sign t r) as [P1 N1], (rnd_sign t r') as [P2 N2].
  destruct (Rlt_or_le (Rabs (rnd t r)) B) as [Hf|Hf], (Rlt_or_le (Rabs (rnd t r')) B) as [Hg|Hg].
  - destruct (F1 Hf) as [Ff Rf], (G1 Hg) as [Fg Rg]. apply fle_fin; [done|done|]. by rewrite Rf, Rg.
  - destruct (F1 Hf) as [Ff Rf]. rewrite (G2 Hg). destruct (Rlt_bool_spec r' 0) as [Hn|Hn]; [|by apply fle_top, fin_nan].
    exfalso. specialize (N2 ltac:(lra)). rewrite Rabs_left1 in Hg by done. apply Rabs_lt_inv in Hf. lra.
  - destruct (G1 Hg) as [Fg Rg]. rewrite (F2 Hf). destruct (Rlt_bool_spec r 0) as [Hn|Hn]; [by apply fle_bot, fin_nan|].
    exfalso. specialize (P1 Hn). rewrite Rabs_pos_eq in Hf by done. apply Rabs_lt_inv in Hg. lra.
  - rewrite (F2 Hf), (G2 Hg). destruct (Rlt_bool_spec r 0), (Rlt_bool_spec r' 0); try done. lra.
Qed.
Lemma is_rnd_num t r f : is_rnd t r f -> f <> S754_nan.
Proof.
  intros [F1 F2] ->. destruct (Rlt_or_le (Rabs (rnd t r)) (bpow radix2 (femax t))) as [H|H]; [by destruct (F1 H)|].
  by specialize (F2 H).
Qed.

(** ** The operations round correctly *)
Lemma add_rnd t x y : vb t x = true -> vb t y = true -> is_finite_SF x = true -> is_finite_SF y = true ->
  is_rnd t (RV x + RV y) (flt_op t OpAdd x y).
Proof.
  intros Vx Vy Fx Fy. assert (op_special OpAdd x y = None) as Hs by (by destruct x, y).
  destruct (flt_op_full t OpAdd x y Vx Vy Hs) as [H1 H2]. cbn [op_real] in H1, H2. split.
  - intros H. by destruct (H1 H) as (? & ? & _).
  - intros H. rewrite (H2 H). unfold op_sign. destruct (Req_bool_spec (RV x + RV y) 0) as [H0|]; [|done].
    exfalso. rewrite H0, rnd_0, Rabs_R0 in H. pose proof (bpow_gt_0 radix2 (femax t)). lra.
Qed.
Lemma div_rnd t x y : vb t x = true -> vb t y = true -> is_finite_SF x = true -> is_finite_SF y = true -> (0 < RV y)%R ->
  is_rnd t (RV x / RV y) (flt_op t OpDiv x y).
Proof.
  intros Vx Vy Fx Fy Hy. assert (op_special OpDiv x y = None) as Hs.
  { destruct y as [s|s| |s m e]; try done; [cbn in Hy; lra|by destruct x]. }
  destruct (flt_op_full t OpDiv x y Vx Vy Hs) as [H1 H2]. cbn [op_real] in H1, H2. split.
  - intros H. by destruct (H1 H) as (? & ? & _).
  - intros H. rewrite (H2 H). unfold op_sign. f_equal.
    assert (RV x <> 0)%R as Hx.
    { intros H0. unfold Rdiv in H. rewrite H0, Rmult_0_l, rnd_0, Rabs_R0 in H. pose proof (bpow_gt_0 radix2 (femax t)). lra. }
    pose proof (sign_of_R x Fx Hx) as Sx. pose proof (sign_of_R y Fy ltac:(lra)) as Sy.
    assert (sign_SF y = false) as -> by (destruct (sign_SF y); [pose proof (proj1 Sy eq_refl); lra|done]).
    rewrite xorb_false_r. destruct (Rlt_bool_spec (RV x / RV y) 0) as [Hn|Hn].
    + apply Sx. apply (Rmult_lt_reg_r (/ RV y)); [by apply Rinv_0_lt_compat|]. by rewrite Rmult_0_l.
    + destruct (sign_SF x) eqn:E; [|done]. exfalso. pose proof (proj1 Sx eq_refl) as Hl.
      assert (RV x / RV y < 0)%R; [|lra]. rewrite <-(Rmult_0_l (/ RV y)). apply Rmult_lt_compat_r; [by apply Rinv_0_lt_compat|done].
Qed.
Lemma conv_rnd t f : is_finite_SF f = true -> is_rnd t (RV f) (flt_conv t f).
Proof.
  intros Ff. split; [by apply flt_conv_rnd|]. intros Hge. destruct f as [sg|sg| |sg m e]; try done.
  { cbn in Hge. rewrite rnd_0, Rabs_R0 in Hge. pose proof (bpow_gt_0 radix2 (femax t)). lra. }
  unfold flt_conv. rewrite (binary_round_eq (fprec t) (femax t)).
  destruct (binary_round_correct (fprec t) (femax t) (ProofFloat2.Hp t) (Hm t) mode_NE sg m e) as [_ H].
  cbv zeta in H. rewrite Rlt_bool_false in H; [|exact Hge]. rewrite H. unfold binary_overflow, overflow_to_inf. cbn. f_equal.
  destruct sg; cbn [cond_Zopp].
  - rewrite Rlt_bool_true; [done|]. by apply F2R_lt_0.
  - rewrite Rlt_bool_false; [done|]. apply Rlt_le. by apply F2R_gt_0.
Qed.

(** ** hence preserve the order *)
Lemma fle_cases f g : fle f g -> f = S754_infinity true \/ g = S754_infinity false \/
  (is_finite_SF f = true /\ is_finite_SF g = true /\ (RV f <= RV g)%R).
Proof. destruct f as [[]|[]| |[] ? ?], g as [[]|[]| |[] ? ?]; try done; auto. Qed.
Lemma fle_num f g : fle f g -> f <> S754_nan /\ g <> S754_nan.
Proof. destruct f as [[]|[]| |[] ? ?], g as [[]|[]| |[] ? ?]; try done; auto. Qed.
Lemma dadd_num x y : vb F64 x = true -> vb F64 y = true -> x <> S754_nan -> is_finite_SF y = true -> dadd x y <> S754_nan.
Proof.
  intros Vx Vy Nx Fy. destruct (is_finite_SF x) eqn:Fx.
  - apply (is_rnd_num F64 (RV x + RV y)). by apply (add_rnd F64).
  - by destruct x as [|s| |], y.
Qed.
Lemma dadd_le x x' y y' : vb F64 x = true -> vb F64 x' = true -> vb F64 y = true -> vb F64 y' = true ->
  is_finite_SF y = true -> is_finite_SF y' = true -> fle x x' -> fle y y' -> fle (dadd x y) (dadd x' y').
Proof.
  intros Vx Vx' Vy Vy' Fy Fy' Hx Hy. destruct (fle_num _ _ Hx) as [N N'].
  pose proof (dadd_num x y Vx Vy N Fy) as D. pose proof (dadd_num x' y' Vx' Vy' N' Fy') as D'.
  destruct (fle_cases _ _ Hx) as [->|[->|(Fx & Fx' & Hr)]].
  - assert (dadd (S754_infinity true) y = S754_infinity true) as -> by (by destruct y). by apply fle_bot.
  - assert (dadd (S754_infinity false) y' = S754_infinity false) as -> by (by destruct y'). by apply fle_top.
  - apply (is_rnd_le F64 (RV x + RV y) (RV x' + RV y')); [by apply (add_rnd F64)|by apply (add_rnd F64)|].
    apply fle_fin in Hy; [lra|done|done].
Qed.
Lemma ddiv_le x x' c : vb F64 x = true -> vb F64 x' = true -> vb F64 c = true -> is_finite_SF c = true -> (0 < RV c)%R ->
  fle x x' -> fle (ddiv x c) (ddiv x' c).
Proof.
  intros Vx Vx' Vc Fc Hc Hx. destruct (fle_num _ _ Hx) as [N N'].
  assert (forall z, vb F64 z = true -> z <> S754_nan -> ddiv z c <> S754_nan) as Hn.
  { intros z Vz Nz. destruct (is_finite_SF z) eqn:Fz.
    - apply (is_rnd_num F64 (RV z / RV c)). by apply (div_rnd F64).
    - by destruct z as [|s| |], c. }
  assert (sign_SF c = false) as Sc.
  { pose proof (sign_of_R c Fc ltac:(lra)) as S. destruct (sign_SF c); [pose proof (proj1 S eq_refl); lra|done]. }
  assert (forall s, ddiv (S754_infinity s) c = S754_infinity s) as Hi.
  { intros s. destruct c as [sc|sc| |sc m e]; try done; cbn in Sc; subst sc; by destruct s. }
  destruct (fle_cases _ _ Hx) as [->|[->|(Fx & Fx' & Hr)]].
  - rewrite Hi. apply fle_bot. by apply Hn.
  - rewrite Hi. apply fle_top. by apply Hn.
  - apply (is_rnd_le F64 (RV x / RV c) (RV x' / RV c)); [by apply (div_rnd F64)|by apply (div_rnd F64)|].
    apply Rmult_le_compat_r; [|done]. by apply Rlt_le, Rinv_0_lt_compat.
Qed.
Lemma conv_le t f g : fle f g -> fle (flt_conv t f) (flt_conv t g).
Proof.
  intros H. destruct (fle_num _ _ H) as [N N'].
  assert (forall z, z <> S754_nan -> flt_conv t z <> S754_nan) as Hn.
  { intros z Nz. destruct (is_finite_SF z) eqn:Fz; [|by destruct z]. apply (is_rnd_num t (RV z)). by apply conv_rnd. }
  destruct (fle_cases _ _ H) as [->|[->|(Ff & Fg & Hr)]].
  - apply fle_bot. by apply Hn.
  - apply fle_top. by apply Hn.
  - apply (is_rnd_le t (RV f) (RV g)); [by apply conv_rnd|by apply conv_rnd|done].
Qed.
Lemma int_bounds t z : is_float t = false -> tmin t <= z <= tmax t -> INT64_MIN <= z <= 2 ^ 64.
Proof.
  intros Hf Hz. assert (INT64_MIN <= tmin t /\ tmax t <= 2 ^ 64) by (destruct t; try done; vm_compute; split; discriminate). lia.
Qed.
Lemma to_double_le t v w d d' : val_ok t v -> val_ok t w -> vle v w -> to_double t v = Some d -> to_double t w = Some d' -> fle d d'.
Proof.
  intros Ov Ow Hle Hd Hd'. destruct v as [a|f|], w as [b|g|]; try done; destruct Ov as [Hf Hv], Ow as [_ Hw];
    unfold to_double in *; rewrite Hf in *; injection Hd as <-; injection Hd' as <-.
  - destruct (flt_of_Z_rnd F64 a (int_bounds t a Hf Hv)) as [Fa Ra], (flt_of_Z_rnd F64 b (int_bounds t b Hf Hw)) as [Fb Rb].
    apply fle_fin; [done|done|]. change (dbl_of_Z a) with (flt_of_Z F64 a). change (dbl_of_Z b) with (flt_of_Z F64 b). rewrite Ra, Rb. apply rnd_le, IZR_le. exact Hle.
  - by apply conv_le.
Qed.
Lemma to_double_facts t v d : val_ok t v -> bounded v -> to_double t v = Some d -> vb F64 d = true /\ is_finite_SF d = true.
Proof.
  intros Ov Hb Hd. destruct v as [a|f|]; try done; destruct Ov as [Hf Hv]; unfold to_double in Hd; rewrite Hf in Hd.
  - injection Hd as <-. split; [apply (flt_of_Z_valid F64)|]. by apply (flt_of_Z_rnd F64 a (int_bounds t a Hf Hv)).
  - destruct (to_double_float t (VF f) d Hf) as (H1 & _ & H3); [done|unfold to_double; by rewrite Hf|].
    split; [done|]. apply H3. exists f. split; [done|]. by destruct f.
Qed.
Lemma of_double_le t d d' w w' : fle d d' -> of_double t d = Some w -> of_double t d' = Some w' -> vle w w'.
Proof.
  unfold of_double. intros H. destruct (is_float t).
  - intros [= <-] [= <-]. by apply conv_le.
  - assert (forall f z, flt_trunc f = Some z -> is_finite_SF f = true) as Hfin by (by intros []).
    destruct (flt_trunc d) as [z|] eqn:Hz; [|done]. destruct (flt_trunc d') as [z'|] eqn:Hz'; [|done].
    destruct (in_range t z); [|done]. destruct (in_range t z'); [|done]. intros [= <-] [= <-].
    pose proof (Hfin _ _ Hz) as F. pose proof (Hfin _ _ Hz') as F'.
    rewrite flt_trunc_ok in Hz, Hz' by done. injection Hz as <-. injection Hz' as <-. cbn. apply Ztrunc_le.
    by apply fle_fin.
Qed.

(** ** Windows *)
Definition good (d : spec_float) : Prop := vb F64 d = true /\ is_finite_SF d = true.
Lemma sum_le ds ds' : Forall2 fle ds ds' -> Forall good ds -> Forall good ds' -> forall a a', vb F64 a = true -> vb F64 a' = true -> fle a a' ->
  fle (foldl dadd a ds) (foldl dadd a' ds') /\ vb F64 (foldl dadd a ds) = true /\ vb F64 (foldl dadd a' ds') = true.
Proof.
  induction 1 as [|d d' ds ds' Hd Hds IH]; intros G G' a a' Va Va' Ha; [done|].
  apply Forall_cons in G as [[Vd Fd] G]. apply Forall_cons in G' as [[Vd' Fd'] G']. cbn [foldl].
  apply IH; [done|done|by apply (flt_op_valid F64 OpAdd)|by apply (flt_op_valid F64 OpAdd)|by apply dadd_le].
Qed.
Lemma doubles t vs ws ds ds' : Forall2 vle vs ws -> Forall (val_ok t) vs -> Forall (val_ok t) ws ->
  mapM (to_double t) vs = Some ds -> mapM (to_double t) ws = Some ds' -> Forall2 fle ds ds'.
Proof.
  intros H Hv Hw H1 H2. apply mapM_Some in H1, H2. revert ws ds' H Hw H2.
  induction H1 as [|v d vs ds Hd H1 IH]; intros ws ds' H Hw H2.
  - inversion H; subst. inversion H2; subst. constructor.
  - inversion H as [|? w ? ws' Hl H']; subst. inversion H2 as [|? d' ? ds'' Hd' H2']; subst.
    apply Forall_cons in Hv as [Hv1 Hv]. apply Forall_cons in Hw as [Hw1 Hw].
    constructor; [by apply (to_double_le t v w)|by apply (IH Hv ws')].
Qed.
Lemma doubles_good t vs ds : Forall (val_ok t) vs -> Forall bounded vs -> mapM (to_double t) vs = Some ds -> Forall good ds.
Proof.
  intros Hv Hb H. apply mapM_Some in H. induction H as [|v d vs ds Hd H IH]; [constructor|].
  apply Forall_cons in Hv as [Hv1 Hv]. apply Forall_cons in Hb as [Hb1 Hb]. constructor; [|by apply IH]. by apply (to_double_facts t v).
Qed.
Lemma pool_avg_le t n vs ws x y : 1 <= n <= INT64_MAX -> Forall2 vle vs ws -> Forall (val_ok t) vs -> Forall (val_ok t) ws ->
  Forall bounded vs -> Forall bounded ws -> pool_avg t n vs = Some x -> pool_avg t n ws = Some y -> vle x y.
Proof.
  intros Hn H Hv Hw Bv Bw. unfold pool_avg. destruct (mapM (to_double t) vs) as [ds|] eqn:Hd; [|done].
  destruct (mapM (to_double t) ws) as [ds'|] eqn:Hd'; [|done]. cbn [mbind option_bind]. apply of_double_le.
  destruct (sum_le ds ds' (doubles t vs ws ds ds' H Hv Hw Hd Hd') (doubles_good t vs ds Hv Bv Hd) (doubles_good t ws ds' Hw Bw Hd')
    fzero fzero eq_refl eq_refl ltac:(by apply fle_refl)) as (H1 & H2 & H3).
  destruct (flt_of_Z_rnd F64 n) as [Fn Rn]; [unfold INT64_MIN, INT64_MAX in *; lia|].
  apply ddiv_le; [done|done|apply (flt_of_Z_valid F64)|done| |done].
  change (dbl_of_Z n) with (flt_of_Z F64 n). rewrite Rn. apply Rlt_le_trans with (rnd F64 1); [|apply rnd_le, (IZR_le 1); lia].
  rewrite rnd_fmt; [lra|]. apply (int_fmt F64 1). done.
Qed.

Lemma fle_trans f g h : fle f g -> fle g h -> fle f h.
Proof.
  intros H1 H2. destruct (fle_num _ _ H1) as [N1 _], (fle_num _ _ H2) as [_ N2].
  destruct (fle_cases _ _ H1) as [->|[->|(F1 & F2 & R1)]]; [by apply fle_bot| |].
  - destruct (fle_cases _ _ H2) as [?|[->|(? & _ & _)]]; [done|by apply fle_top|done].
  - destruct (fle_cases _ _ H2) as [->|[->|(_ & F3 & R2)]]; [done|by apply fle_top|]. apply fle_fin; [done|done|lra].
Qed.
Definition larger (a d : spec_float) : spec_float := if SFltb a d then d else a.
Lemma larger_ub a d : vb F64 a = true -> vb F64 d = true -> a <> S754_nan -> d <> S754_nan ->
  fle a (larger a d) /\ fle d (larger a d) /\ (larger a d = a \/ larger a d = d).
Proof.
  intros Va Vd Na Nd. unfold larger.
  destruct (is_finite_SF a) eqn:Fa, (is_finite_SF d) eqn:Fd.
  - rewrite (ltb_R a d Va Vd Fa Fd). destruct (Rlt_bool_spec (RV a) (RV d)).
    + split_and!; [apply fle_fin; [done|done|lra]|by apply fle_refl|by right].
    + split_and!; [by apply fle_refl|apply fle_fin; [done|done|lra]|by left].
  - destruct d as [|[]| |]; try done.
    + assert (SFltb a (S754_infinity true) = false) as -> by (by destruct a as [|[]| |[]]).
      split_and!; [by apply fle_refl|by apply fle_bot|by left].
    + assert (SFltb a (S754_infinity false) = true) as -> by (by destruct a as [|[]| |[]]).
      split_and!; [by apply fle_top|done|by right].
  - destruct a as [|[]| |]; try done.
    + assert (SFltb (S754_infinity true) d = true) as -> by (by destruct d as [|[]| |[]]).
      split_and!; [by apply fle_bot|by apply fle_refl|by right].
    + assert (SFltb (S754_infinity false) d = false) as -> by (by destruct d as [|[]| |[]]).
      split_and!; [done|by apply fle_top|by left].
  - destruct a as [|[]| |], d as [|[]| |]; try done; cbn; auto.
Qed.
Definition number (d : spec_float) : Prop := vb F64 d = true /\ d <> S754_nan.
Lemma max_le ds ds' : Forall2 fle ds ds' -> Forall number ds -> Forall number ds' -> forall a a', number a -> number a' -> fle a a' ->
  fle (foldl larger a ds) (foldl larger a' ds').
Proof.
  induction 1 as [|d d' ds ds' Hd Hds IH]; intros G G' a a' Va Va' Ha; [done|].
  apply Forall_cons in G as [Nd G]. apply Forall_cons in G' as [Nd' G']. cbn [foldl].
  destruct (larger_ub a d (proj1 Va) (proj1 Nd) (proj2 Va) (proj2 Nd)) as (U1 & U2 & U3).
  destruct (larger_ub a' d' (proj1 Va') (proj1 Nd') (proj2 Va') (proj2 Nd')) as (U1' & U2' & U3').
  apply IH; [done|done|by destruct U3 as [-> | ->]|by destruct U3' as [-> | ->]|].
  destruct U3 as [-> | ->]; [by apply (fle_trans _ a')|by apply (fle_trans _ d')].
Qed.
Lemma doubles_valid t vs ds : mapM (to_double t) vs = Some ds -> Forall (fun d => vb F64 d = true) ds.
Proof.
  intros H. apply mapM_Some in H. induction H as [|v d vs ds Hd H IH]; [constructor|]. constructor; [|done].
  destruct v; unfold to_double in Hd; try done; destruct (is_float t); try done; injection Hd as <-;
    [apply (flt_of_Z_valid F64)|apply (flt_conv_valid F64)].
Qed.
Lemma number_l ds ds' : Forall2 fle ds ds' -> Forall (fun d => vb F64 d = true) ds -> Forall (fun d => vb F64 d = true) ds' ->
  Forall number ds /\ Forall number ds'.
Proof.
  induction 1 as [|d d' ds ds' Hd Hds IH]; intros G G'; [done|]. apply Forall_cons in G as [Vd G]. apply Forall_cons in G' as [Vd' G'].
  destruct (IH G G'), (fle_num _ _ Hd). done || (split; constructor; try done; by split).
Qed.
Lemma pool_max_le t vs ws x y : Forall2 vle vs ws -> Forall (val_ok t) vs -> Forall (val_ok t) ws ->
  pool_max0 t vs = Some x -> pool_max0 t ws = Some y -> vle x y.
Proof.
  intros H Hv Hw. unfold pool_max0. destruct (mapM (to_double t) vs) as [ds|] eqn:Hd; [|done].
  destruct (mapM (to_double t) ws) as [ds'|] eqn:Hd'; [|done]. cbn [mbind option_bind]. apply of_double_le.
  pose proof (doubles t vs ws ds ds' H Hv Hw Hd Hd') as Hle.
  destruct (number_l _ _ Hle (doubles_valid _ _ _ Hd) (doubles_valid _ _ _ Hd')) as [N N'].
  apply (max_le ds ds' Hle N N' fzero fzero); [done|done|by apply fle_refl].
Qed.

(** ** Tensors *)
Lemma below_at A B c : valid A -> valid B -> below A B -> in_box (a_dims A) c -> vle (at_ A c) (at_ B c).
Proof.
  intros VA VB (_ & Hd & Hv) Hc. unfold at_. rewrite <-Hd.
  assert (Z.to_nat (ravel (a_dims A) c) < length (a_vals A))%nat as [v Hl]%lookup_lt_is_Some.
  { pose proof (valid_len _ VA). pose proof (ravel_bound (a_dims A) c Hc). lia. }
  destruct (Forall2_lookup_l _ _ _ _ _ Hv Hl) as (w & Hw & Hle). by rewrite Hl, Hw.
Qed.
Lemma below_window A B nb nc sd ks ss ps ls b c x : valid A -> valid B -> below A B -> a_dims A = nb :: nc :: sd ->
  0 <= b < nb -> 0 <= c < nc -> Forall2 vle (window A ks ss ps ls b c x) (window B ks ss ps ls b c x).
Proof.
  intros VA VB HAB Hd Hb Hc. unfold window. pose proof HAB as (_ & Hd' & _). rewrite <-Hd'.
  induction (coords ks) as [|w l IH]; [constructor|]. cbn [omap list_omap].
  destruct (decide (in_box (drop 2 (a_dims A)) (win_coord ss ps ls x w))) as [Hi|Hi]; [|exact IH].
  constructor; [|exact IH]. apply below_at; [done..|]. rewrite Hd in *. constructor; [done|]. constructor; [done|exact Hi].
Qed.
Lemma below_tab A B : valid A -> valid B -> a_type A = a_type B -> a_dims A = a_dims B ->
  (forall c, in_box (a_dims A) c -> vle (at_ A c) (at_ B c)) -> below A B.
Proof.
  intros VA VB Ht Hd H. split; [done|]. split; [done|]. rewrite <-(tab_at _ VA), <-(tab_at _ VB), <-Hd.
  apply Forall2_same_length_lookup_2; [by rewrite !tab_length|].
  intros i v w Hv Hw. pose proof (lookup_lt_Some _ _ _ Hv) as Hl. rewrite tab_length in Hl.
  rewrite tab_lookup in Hv, Hw by done. injection Hv as <-. injection Hw as <-.
  apply H. apply unravel_in_box. apply prodZ_pos_inv; [apply VA|lia].
Qed.
