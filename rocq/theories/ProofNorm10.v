(** * ProofNorm10: src/nn/batch_norm.c, a denominator that does not exist *)
From stdpp Require Import gmap list.
From Coq Require Import ZArith Lia Floats.SpecFloat.
From Coq Require Import ZifyBool ZifyNat.
From Verif Require Import Base Mem Spec SpecReal SpecNN SpecNorm ModelCore ModelBasic ModelMath ModelNN Logic
  ProofCore ProofCore2 ProofCore3 ProofIndex ProofKernel ProofKernel2 ProofBasic ProofSqueeze ProofSlice ProofFrame
  ProofMatmul ProofMath ProofCast ProofSqrt ProofDot3 ProofSoftmax ProofExact ProofOwn ProofNorm ProofNorm2 ProofNorm3 ProofNorm4
  ProofNorm5 ProofNorm6 ProofNorm7 ProofNorm8 ProofNorm9.
Open Scope Z_scope.

Ltac Zify.zify_post_hook ::= Z.div_mod_to_equations.

(** A run that ends in the undefined behaviour [u], or with MATH_ERROR *)
Definition ends {A} (x : option ub) (r : res (ctl A status)) : Prop :=
  match x with Some u => r = UB u | None => exists s', r = Done (Return MATH_ERROR) s' end.

Lemma e_bind {A B} (m : M B) (k : B -> M (ctl A status)) E s x (Q : B -> st -> Prop) :
  wp m E s Q -> (forall a s', Q a s' -> ends x (k a E s')) -> ends x (bind m k E s).
Proof. intros H Hk. apply wp_elim in H as (a & s' & Hm & HQ). erewrite bind_done by exact Hm. by apply Hk. Qed.
Lemma e_step {A B} (m : M B) (k : B -> M (ctl A status)) E s x a s' :
  m E s = Done a s' -> ends x (k a E s') -> ends x (bind m k E s).
Proof. intros H Hk. by erewrite bind_done by exact H. Qed.
Lemma e_now {A B} (m : M (ctl B status)) (k : ctl B status -> M (ctl A status)) E s x :
  ends x (m E s) -> (forall e s', k (Return e) E s' = Done (Return e) s') -> ends x (bind m k E s).
Proof.
  intros H Hk. destruct x as [u|]; cbn in *.
  - by apply bind_UB.
  - destruct H as [s' H]. exists s'. erewrite bind_done by exact H. apply Hk.
Qed.
Section steps.
Context {E : env} {s0 : st} (HA : alloc_all E) {A : Type} {x : option ub}.
Lemma e_scr (k : hval -> M (ctl A status)) n L s : 0 <= n <= PTRDIFF_MAX -> own E s0 L s ->
  (forall b s', own E s0 (IB b :: L) s' -> ends x (k (HPtr b) E s')) -> ends x (bind (scratch n) k E s).
Proof using HA.
  intros Hn HO Hk. eapply (e_bind _ _ _ _ _ (fun h s' => exists b, h = HPtr b /\ own E s0 (IB b :: L) s')).
  - apply wp_unbind. eapply own_scr; [done|exact Hn|exact HO|]. intros b s' O. apply wp_ret. eauto.
  - intros h s' (b & -> & O). by apply Hk.
Qed.
Lemma e_try m (k : hval -> M (ctl A status)) L s T : own E s0 L s -> makes m E s T ->
  (forall p s', own E s0 (IT p T :: L) s' -> ends x (k (HPtr p) E s')) -> ends x (try_ m k E s).
Proof using Type.
  intros HO Hm Hk. unfold try_.
  eapply (e_bind _ _ _ _ _ (fun r s' => exists p, r = (SUCCESS, HPtr p) /\ own E s0 (IT p T :: L) s')).
  - apply wp_unbind. eapply own_make; [exact HO|exact Hm|]. intros p s' O. apply wp_ret. eauto.
  - intros r s' (p & -> & O). cbv beta match. rewrite bool_decide_eq_true_2 by done. by apply Hk.
Qed.
End steps.

(** ** The sums va + eps *)
Definition sums_bad (t : tcode) (e : val) (x : option ub) (vs : list val) : Prop :=
  match x with
  | Some u => u = UB_overflow /\ Exists (fun v => bin_val t OpAdd v e = None) vs
  | None => Forall (fun v => bin_val t OpAdd v e <> None) vs /\
            Exists (fun v => exists a, bin_val t OpAdd v e = Some a /\ negative a) vs
  end.
Lemma den_bad {E s0} (HA : alloc_all E) {A : Type} x
    (k : hval -> hval -> M (ctl A status)) L s pv pe Vt Ep t dev pd e :
  own E s0 L s -> holds (heap s) pv Vt -> holds (heap s) pe Ep ->
  a_type Vt = t -> a_type Ep = t -> a_dev Vt = dev -> dev_type dev = 0 -> dev_type (a_dev Ep) = 0 ->
  a_dims Vt = pd -> a_dims Ep = pd -> prodZ pd <= INT_MAX ->
  a_vals Ep = replicate (Z.to_nat (prodZ pd)) e -> val_ok t e ->
  init Vt -> sums_bad t e x (a_vals Vt) ->
  ends x (try_ (aitisa_add (HPtr pv) (HPtr pe) HUndef) (fun temp =>
      try_ (aitisa_sqrt temp HUndef) (fun de => k temp de)) E s).
Proof.
  intros HO HV HP Tv Te Dv Cv Ce Iv Ie Hmax Hve He Hin Hbad.
  pose proof (valid_len_nat _ (holds_valid _ _ _ HV)) as Hl. rewrite Iv in Hl.
  assert (wf s) as Hwf by by eapply own_wf.
  assert (Forall (val_ok t) (replicate (Z.to_nat (prodZ pd)) e)) as Hre by by apply Forall_replicate.
  assert (init Ep) as HiE by (unfold init; by rewrite Te, Hve).
  unfold init in Hin. rewrite Tv in Hin. rewrite Hl in Hve, Hre.
  destruct x as [u|]; cbn [sums_bad] in Hbad.
  - destruct Hbad as [-> Hex]. cbn [ends]. apply ub_try_now.
    eapply (binary_stuck OpAdd pv pe Vt Ep); try done; try congruence.
    { unfold init. by rewrite Tv. }
    intros [_ Hd]. rewrite Tv, Hve in Hd. destruct (bin_vals _ _ _ _ Hin Hre Hd) as [ws Hws].
    apply Exists_exists in Hex as (v & Hv & Hn). apply elem_of_list_lookup in Hv as [i Hi].
    pose proof (lookup_lt_Some _ _ _ Hi) as Hlt.
    destruct (Forall3_at _ _ _ _ i v e Hws Hi) as (w & _ & Hw); [by apply lookup_replicate_2|]. congruence.
  - destruct Hbad as [Hall Hex].
    set (as_ := (fun v => default VU (bin_val t OpAdd v e)) <$> a_vals Vt).
    assert (Forall3 (fun v y w => bin_val t OpAdd v y = Some w) (a_vals Vt) (replicate (length (a_vals Vt)) e) as_) as H3.
    { unfold as_. clear -Hall. induction Hall as [|v vs Hv H IH]; [constructor|]. cbn. constructor; [by apply some_default|done]. }
    assert (Forall (val_ok t) as_) as Has.
    { apply Forall_lookup. intros i w Hw. unfold as_ in Hw. rewrite list_lookup_fmap in Hw.
      destruct (a_vals Vt !! i) as [v|] eqn:Hi; [|done]. cbn in Hw. injection Hw as <-.
      pose proof (Forall_lookup_1 _ _ _ _ Hall Hi) as Hs. cbv beta in Hs. apply (some_default _ VU) in Hs.
      exact (bin_val_ok _ _ _ _ _ (Forall_lookup_1 _ _ _ _ Hin Hi) He Hs). }
    eapply e_try; [exact HO| |].
    { apply (binary_rule OpAdd pv pe Vt Ep as_); try done; try congruence.
      by rewrite Tv, Hve. }
    intros qt s1 O1. rewrite Tv, Dv, Iv in O1.
    destruct (sqrt_negative qt (AT t dev pd as_) HUndef E s1) as ([r h] & s2 & Hr & _ & Hm).
    + by eapply own_wf.
    + eapply own_holds; [exact O1|left].
    + exact Has.
    + apply Exists_exists. apply Exists_exists in Hex as (v & Hv & a & Ha & Hneg). exists a. split; [|done].
      cbn [a_vals]. unfold as_. apply elem_of_list_fmap. exists v. by rewrite Ha.
    + cbn [fst] in Hm. destruct Hm as [->|[Hno _]]; [|by destruct Hno].
      exists s2. unfold try_. erewrite bind_done by exact Hr. done.
Qed.

(** ** One channel *)
Section params.
Context {E : env} {s0 : st} (HA : alloc_all E) (HE : hooks_ok E) (x : option ub).
Context (pS pB pM pV : nat) (Sc Bi Me Va : atensor) (t : tcode) (dev : device) (ch : Z) (pdims : list Z) (e : val).
Context (HS : holds (heap s0) pS Sc) (HB : holds (heap s0) pB Bi) (HM : holds (heap s0) pM Me) (HV : holds (heap s0) pV Va).
Context (TS : a_type Sc = t) (TB : a_type Bi = t) (TM : a_type Me = t) (TV : a_type Va = t).
Context (DS : a_dims Sc = [ch]) (DB : a_dims Bi = [ch]) (DM : a_dims Me = [ch]) (DV : a_dims Va = [ch]).
Context (Cd : dev_type dev = 0) (Hin : init Va) (He : val_ok t e).
Context (Hfit : fits (tsz t) pdims) (Hpos : 0 < prodZ pdims) (Hmax : prodZ pdims <= INT_MAX)
  (Hp32 : Z.of_nat (tsz t) * prodZ pdims <= 2 ^ 32) (Hc32 : Z.of_nat (tsz t) * ch <= 2 ^ 32).
Notation N := (Z.to_nat (prodZ pdims)).
Notation spr := (spr t dev pdims).

Lemma params_bad L s pe c : 0 <= c < ch -> sums_bad t e x [at_ Va [c]] -> own E s0 L s -> IT pe (spr e) ∈ L ->
  ends x (bn_parameters (dtype_of t) dev pdims (Z.of_nat (length pdims)) (HPtr pS) (HPtr pB) (HPtr pM) (HPtr pV)
        (HPtr pe) (prodZ pdims) (Z.of_nat (tsz t)) c E s).
Proof using All.
  intros Hc Hbad HO HIn. unfold bn_parameters.
  assert (forall P p0, holds (heap s0) p0 P -> a_dims P = [ch] -> a_vals P !! Z.to_nat c = Some (at_ P [c])) as Hat.
  { intros P p0 HP DP. apply (vec_at ch); [by destruct HP|done|done]. }
  assert (Z.of_nat (tsz t) * (c + 1) <= 2 ^ 32) as Hcc by (pose proof (tsz_range t); nia).
  eapply e_try; [exact HO|apply create_makes; [by eapply own_wf|done|done]|]. intros me s1 O1.
  eapply e_try; [exact O1|apply create_makes; [by eapply own_wf|done|done]|]. intros sc s2 O2.
  eapply e_try; [exact O2|apply create_makes; [by eapply own_wf|done|done]|]. intros bi s3 O3.
  eapply e_try; [exact O3|apply create_makes; [by eapply own_wf|done|done]|]. intros va s4 O4.
  set (U := AT t dev pdims (replicate N VU)) in *.
  (* mean *)
  assert (own E s0 (IT me U :: IT va U :: IT bi U :: IT sc U :: L) s4) as O4'.
  { eapply own_perm; [exact O4|]. symmetry. apply (Permutation_middle [IT va U; IT bi U; IT sc U] L (IT me U)). }
  eapply e_bind.
  { eapply (spread_ok _ _ me t dev pdims _ pM Me); [exact O4'|exact HM|done|lia|by eapply Hat|done|done|done|done]. }
  intros _r5 s5 O5. cbv beta in O5. fold (spr (at_ Me [c])) in O5. clear _r5.
  assert (own E s0 (IT sc U :: IT me (spr (at_ Me [c])) :: IT va U :: IT bi U :: L) s5) as O5'.
  { eapply own_perm; [exact O5|]. symmetry. apply (Permutation_middle [_; _; _] L (IT sc U)). }
  eapply e_bind.
  { eapply (spread_ok _ _ sc t dev pdims _ pS Sc); [exact O5'|exact HS|done|lia|by eapply Hat|done|done|done|done]. }
  intros _r6 s6 O6. cbv beta in O6. fold (spr (at_ Sc [c])) in O6. clear _r6.
  assert (own E s0 (IT bi U :: IT sc (spr (at_ Sc [c])) :: IT me (spr (at_ Me [c])) :: IT va U :: L) s6) as O6'.
  { eapply own_perm; [exact O6|]. symmetry. apply (Permutation_middle [_; _; _] L (IT bi U)). }
  eapply e_bind.
  { eapply (spread_ok _ _ bi t dev pdims _ pB Bi); [exact O6'|exact HB|done|lia|by eapply Hat|done|done|done|done]. }
  intros _r7 s7 O7. cbv beta in O7. fold (spr (at_ Bi [c])) in O7. clear _r7.
  assert (own E s0 (IT va U :: IT bi (spr (at_ Bi [c])) :: IT sc (spr (at_ Sc [c])) :: IT me (spr (at_ Me [c])) :: L) s7) as O7'.
  { eapply own_perm; [exact O7|]. symmetry. apply (Permutation_middle [_; _; _] L (IT va U)). }
  eapply e_bind.
  { eapply (spread_ok _ _ va t dev pdims _ pV Va); [exact O7'|exact HV|done|lia|by eapply Hat|done|done|done|done]. }
  intros _r8 s8 O8. cbv beta in O8. fold (spr (at_ Va [c])) in O8. clear _r8.
  eapply (den_bad HA x _ _ s8 va pe (spr (at_ Va [c])) (spr e) t dev pdims e);
    [exact O8| | |done|done|done|done|done|done|done|done|done|done| |].
  - eapply own_holds; [exact O8|left].
  - eapply own_holds; [exact O8|]. by do 4 right.
  - cbn. apply Forall_replicate. unfold init in Hin. rewrite TV in Hin. rewrite Forall_lookup in Hin.
    eapply (Hin (Z.to_nat c)). by eapply Hat.
  - cbn [a_vals spr ProofNorm4.spr]. assert (at_ Va [c] ∈ replicate N (at_ Va [c])) as Hel.
    { apply elem_of_replicate. split; [done|lia]. }
    destruct x as [u|]; cbn [sums_bad] in *; destruct Hbad as [H1 H2].
    + split; [done|]. apply Exists_cons in H2 as [H2|H2]; [|by inversion H2]. apply Exists_exists. eauto.
    + apply Forall_cons in H1 as [H1 _]. split; [by apply Forall_replicate|].
      apply Exists_cons in H2 as [H2|H2]; [|by inversion H2]. apply Exists_exists. eauto.
Qed.
End params.

(** ** All channels *)
Lemma iter_ret_ends {S} (I : nat -> S -> st -> Prop) E n i0 (body : Z -> S -> M (ctl S status)) y s x j :
  I O y s -> (j < n)%nat ->
  (forall k y s, (k < j)%nat -> I k y s ->
     wp (body (i0 + Z.of_nat k) y) E s (fun c s' => exists y', c = Next y' /\ I (Datatypes.S k) y' s')) ->
  (forall y s, I j y s -> ends x (body (i0 + Z.of_nat j) y E s)) ->
  ends x (iter_ret n i0 body y E s).
Proof.
  revert I i0 y s j. induction n as [|n IH]; intros I i0 y s j H0 Hj Hs Hb; [lia|]. simpl.
  destruct j as [|j].
  - specialize (Hb y s H0). rewrite Z.add_0_r in Hb. eapply e_now; [exact Hb|]. done.
  - eapply e_bind; [pose proof (Hs O y s ltac:(lia) H0) as H1; rewrite Z.add_0_r in H1; exact H1|].
    intros c s' (y' & -> & Hy). apply (IH (fun k => I (Datatypes.S k)) (i0 + 1) y' s' j); [done|lia| |].
    + intros k y2 s2 Hk Hy2. replace (i0 + 1 + Z.of_nat k) with (i0 + Z.of_nat (Datatypes.S k)) by lia.
      apply Hs; [lia|done].
    + intros y2 s2 Hy2. replace (i0 + 1 + Z.of_nat j) with (i0 + Z.of_nat (Datatypes.S j)) by lia. by apply Hb.
Qed.

Section inter.
Context {E : env} {s0 : st} (HA : alloc_all E) (HE : hooks_ok E) (x : option ub).
Context (p pS pB pM pV : nat) (T Sc Bi Me Va : atensor) (t : tcode) (dev : device) (nb ch : Z) (b1 b2 : list Z)
  (eps : spec_float) (axis : Z).
Context (HT : holds (heap s0) p T) (Tt : a_type T = t) (Vt : a_dev T = dev) (Dt : a_dims T = bn_dims nb ch b1 b2).
Context (Hax : axis = Z.of_nat (S (length b1))).
Context (Hends : b1 = [] \/ b2 = []) (Hrank : (1 <= length (b1 ++ b2) <= 3)%nat).
Context (HS : holds (heap s0) pS Sc) (HB : holds (heap s0) pB Bi) (HM : holds (heap s0) pM Me) (HV : holds (heap s0) pV Va).
Context (TS : a_type Sc = t) (TB : a_type Bi = t) (TM : a_type Me = t) (TV : a_type Va = t).
Context (DS : a_dims Sc = [ch]) (DB : a_dims Bi = [ch]) (DM : a_dims Me = [ch]) (DV : a_dims Va = [ch]).
Context (Cd : dev_type dev = 0) (Hin : init Va).
Notation pdims := (b1 ++ b2).
Context (Hfit : fits (tsz t) pdims) (Hpos : 0 < prodZ pdims) (Hmax : prodZ pdims <= INT_MAX)
  (Hp32 : Z.of_nat (tsz t) * prodZ pdims <= 2 ^ 32) (Hc32 : Z.of_nat (tsz t) * ch <= 2 ^ 32) (Hch : 0 < ch <= INT_MAX).
Notation spr := (spr t dev pdims).

Lemma inter_bad ds L s : own E s0 L s ->
  match of_double t eps with
  | None => x = Some UB_fconv
  | Some e => exists j, 0 <= j < ch /\ (forall c, 0 <= c < j -> bn_den t eps (at_ Va [c]) (ds c)) /\ sums_bad t e x [at_ Va [j]]
  end ->
  ends x (bn_intermediate (HPtr p) axis (HPtr pS) (HPtr pB) (HPtr pM) (HPtr pV) eps E s).
Proof using All.
  intros HO Hbad. unfold bn_intermediate.
  pose proof (own_base _ _ _ _ HO HT) as (_ & bx & tg & ex & V & _). rewrite Tt, Vt, Dt in V.
  assert (length (bn_dims nb ch b1 b2) = (length pdims + 2)%nat) as Hlen.
  { unfold bn_dims. cbn [length]. rewrite !app_length. cbn. lia. }
  eapply e_step; [by eapply tensor_ndim_ok|].
  eapply e_step; [by eapply tensor_dtype_ok|].
  eapply e_step; [by eapply tensor_device_ok|].
  eapply e_step; [by eapply tensor_dims_ok|].
  assert (bn_dims nb ch b1 b2 !! Z.to_nat axis = Some ch) as Hchd.
  { rewrite Hax, Nat2Z.id. unfold bn_dims. rewrite lookup_cons_ne_0 by done. cbn [Nat.pred]. by rewrite list_lookup_middle. }
  eapply e_step; [eapply tensor_dim_ok; [exact V|lia|exact Hchd]|].
  cbv zeta.
  replace (Z.of_nat (length (bn_dims nb ch b1 b2)) - 2) with (Z.of_nat (length pdims)) by lia.
  eapply (e_scr HA); [llia|exact HO|]. intros x1 s1 O1. cbn [is_null].
  eapply e_step.
  { instantiate (1 := s1). instantiate (1 := pdims). destruct (Z.eqb_spec axis 1) as [Ha|Ha].
    - assert (b1 = []) as Hb1 by (destruct b1; [done|cbn in Hax; lia]). rewrite Hb1 in *. 
      erewrite (segment_ok _ _ _ (length b2)); [|lia|rewrite Hlen; cbn [app]; lia|rewrite Hlen; cbn [app]; lia].
      f_equal. unfold bn_dims. cbn [app Z.to_nat Pos.to_nat Pos.iter_op Init.Nat.add drop]. by rewrite firstn_all.
    - assert (b2 = []) as Hb2 by (destruct Hends as [->| ->]; [cbn in Hax; lia|done]).
      rewrite Hb2 in *. rewrite app_nil_r in *.
      erewrite (segment_ok _ _ _ (length b1)); [|lia|rewrite Hlen; lia|rewrite Hlen; cbn; lia].
      f_equal. unfold bn_dims. change (Z.to_nat 1) with 1%nat. cbn [drop]. rewrite drop_0. by rewrite take_app_alt. }
  destruct (of_double t eps) as [e|] eqn:He.
  2:{ subst x. apply ub_try_now. apply full_unfit; [by eapply own_wf|done|done|done]. }
  destruct Hbad as (j & Hj & Hden & Hbad).
  eapply e_try; [exact O1| |].
  { eapply (makes_or_nomem_alloc _ _ _ HUndef); [done|]. apply (full_rule t dev pdims eps e); [by eapply own_wf|done|done|done]. }
  intros pe s2 O2. change (AT t dev pdims (replicate (Z.to_nat (prodZ pdims)) e)) with (spr e) in O2.
  eapply e_step. { apply size_of_dims_ok; [eapply fits_prefixes; [apply tsz_pos|exact Hfit]|done|llia]. }
  eapply (e_scr HA); [llia|exact O2|]. intros xm s3 O3.
  eapply (e_scr HA); [llia|exact O3|]. intros xs s4 O4.
  eapply (e_scr HA); [llia|exact O4|]. intros xb s5 O5.
  eapply (e_scr HA); [llia|exact O5|]. intros xd s6 O6.
  eapply (e_scr HA); [llia|exact O6|]. intros xt s7 O7.
  eapply (e_scr HA); [llia|exact O7|]. intros xv s8 O8. cbn [is_null orb].
  set (R := IB xv :: IB xt :: IB xd :: IB xb :: IB xs :: IB xm :: IT pe (spr e) :: IB x1 :: L) in *.
  unfold ctl_u32. replace (2 ^ 32 <=? ch) with false by llia.
  set (Fs i := spr (at_ Sc [Z.of_nat i])). set (Fb i := spr (at_ Bi [Z.of_nat i])). set (Fm i := spr (at_ Me [Z.of_nat i])).
  set (Fd i := spr (ds (Z.of_nat i))).
  apply e_now; [|done].
  apply (iter_ret_ends (fun k x s' => exists ms ss bs dn tl,
      x = (HPtr <$> ms, HPtr <$> ss, HPtr <$> bs, HPtr <$> dn, (fun y => HPtr (fst y)) <$> tl) /\
      length ms = k /\ length ss = k /\ length bs = k /\ length dn = k /\ length tl = k /\
      own E s0 (fam Fm ms ++ fam Fs ss ++ fam Fb bs ++ fam Fd dn ++ temps t dev pdims tl ++ R) s') _ _ _ _ _ _ _ (Z.to_nat j)).
    - exists [], [], [], [], []. split_and!; try done.
    - lia.
    - intros k y s' Hk (ms & ss & bs & dn & tl & -> & Lm & Ls & Lb & Ld & Lt & O). rewrite Z.add_0_l.
      eapply wp_step. { eapply own_touch; [exact O|]. rewrite !elem_of_app. do 5 right. right. left. }
      apply wp_bind. eapply wp_mono.
      { eapply (params_ok HA HE pS pB pM pV Sc Bi Me Va t dev ch pdims eps e ds); try done; [lia|apply Hden; lia|].
        rewrite !elem_of_app. do 5 right. do 6 right. left. }
      intros r s'' (me & sc & bi & de & tm & as_ & -> & O'). cbv match.
      apply wp_ret. eexists. split; [reflexivity|].
      exists (ms ++ [me]), (ss ++ [sc]), (bs ++ [bi]), (dn ++ [de]), (tl ++ [(tm, as_)]).
      split_and!; try (rewrite app_length; cbn; lia).
      + by rewrite !fmap_app.
      + rewrite !fam_snoc. unfold temps at 1. rewrite fmap_app. cbn [fmap list_fmap fst snd]. fold (temps t dev pdims tl).
        rewrite Lm, Ls, Lb, Ld. eapply own_perm; [exact O'|]. apply perm5.
    - intros y s' (ms & ss & bs & dn & tl & -> & Lm & Ls & Lb & Ld & Lt & O). rewrite Z.add_0_l, Z2Nat.id by lia.
      eapply e_step. { eapply own_touch; [exact O|]. rewrite !elem_of_app. do 5 right. right. left. }
      apply e_now; [|done].
      eapply (params_bad HA HE x pS pB pM pV Sc Bi Me Va t dev ch pdims e); try done; [by eapply of_double_ok|].
      rewrite !elem_of_app. do 5 right. do 6 right. left.
Qed.
End inter.
