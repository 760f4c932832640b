(** * ProofNorm4: src/nn/batch_norm.c, three to five axes *)
From stdpp Require Import gmap list.
From Coq Require Import ZArith Lia Floats.SpecFloat.
From Coq Require Import ZifyBool ZifyNat.
From Verif Require Import Base Mem Spec SpecReal SpecNN SpecNorm ModelCore ModelBasic ModelMath ModelNN Logic
  ProofCore ProofCore2 ProofCore3 ProofIndex ProofKernel ProofKernel2 ProofBasic ProofSqueeze ProofSlice ProofFrame
  ProofMatmul ProofMath ProofCast ProofSqrt ProofDot3 ProofSoftmax ProofOwn ProofNorm ProofNorm2 ProofNorm3.
Open Scope Z_scope.

Ltac Zify.zify_post_hook ::= Z.div_mod_to_equations.

(** ** Spreading one parameter element over a tensor *)
Lemma spread_ok {E s0} L s d t dev dims vs p P w c n :
  own E s0 (IT d (AT t dev dims vs) :: L) s -> holds (heap s0) p P -> a_type P = t ->
  0 <= c -> a_vals P !! Z.to_nat c = Some w -> n = prodZ dims -> n <= INT_MAX ->
  Z.of_nat (tsz t) * n <= 2 ^ 32 -> Z.of_nat (tsz t) * (c + 1) <= 2 ^ 32 ->
  wp (bn_spread (HPtr d) (HPtr p) n (Z.of_nat (tsz t)) c) E s
    (fun r s' => own E s0 (IT d (AT t dev dims (replicate (Z.to_nat n) w)) :: L) s').
Proof.
  intros HO HP TP Hc Hw -> Hmax Hn32 Hc32. pose proof HO as (_ & _ & Hrp & _).
  pose proof (own_holds _ _ _ _ HO ltac:(left)) as (HvD & _).
  destruct (own_open _ _ _ _ HO) as (pd & pm & ps & px & rest & Ht & Hpool). cbn [a_type a_dev a_dims a_vals] in Ht.
  pose proof (valid_len _ HvD) as Hl. pose proof (valid_fits _ HvD) as Hfit. cbn [a_dims a_vals a_type] in Hl, Hfit.
  pose proof (holds_mono _ _ _ _ (pool_sub _ _ Hpool) HP) as HP1.
  pose proof HP1 as (_ & sx & tg & ex & Vp & Hx). rewrite TP in Hx.
  assert (forall s' bytes, tnew (e_alloc E) (ctr s0) rest s' d pd pm ps px (dtype_of t) dev dims bytes ->
            heap s' !! sx = Some (Blk tg (CData (cells t (a_vals P) ++ ex)))) as Hsrc.
  { intros s' bytes Ht'. eapply tnew_lookup; [exact Ht'|done]. }
  unfold bn_spread.
  eapply wp_step; [by eapply tensor_data_ok, tnew_view|].
  eapply wp_step. { eapply tensor_data_ok. eapply view_mono; [by eapply tnew_base|exact Vp]. }
  unfold ctl_u32. replace (2 ^ 32 <=? prodZ dims) with false by llia.
  pose proof (tsz_range t) as Htr. pose proof (lookup_lt_Some _ _ _ Hw) as Hcl.
  eapply wp_mono.
  { apply (iter_ret_rule (fun k _ s' =>
      tnew (e_alloc E) (ctr s0) rest s' d pd pm ps px (dtype_of t) dev dims
        (cells t (replicate k w ++ drop k vs)) /\ rpos s' = rpos s0)).
    - done.
    - intros k [] s' Hk [Ht' Hr']. rewrite Z.add_0_l.
      assert (Z.of_nat k * Z.of_nat (tsz t) < 2 ^ 32) by nia.
      assert (c * Z.of_nat (tsz t) < 2 ^ 32) by nia.
      assert (0 <= Z.of_nat k * Z.of_nat (tsz t)) by lia. assert (0 <= c * Z.of_nat (tsz t)) by nia.
      rewrite !Z.mod_small by lia.
      pose proof (tnew_px _ _ Ht') as Hpx.
      eapply wp_step.
      { eapply (memcpy_cell px sx E s' _ tg t _ [] (a_vals P) ex w k (Z.to_nat c)).
        - by eapply Hsrc.
        - by rewrite app_nil_r.
        - rewrite app_length, replicate_length, drop_length. lia.
        - done.
        - done.
        - lia.
        - done. }
      apply wp_ret. exists tt. split; [done|]. split; [|done].
      replace (replicate (S k) w ++ drop (S k) vs) with (<[k := w]> (replicate k w ++ drop k vs)).
      + rewrite app_nil_r. by eapply tnew_upd.
      + rewrite insert_app_r_alt by (rewrite replicate_length; lia). rewrite replicate_length, Nat.sub_diag.
        destruct (lookup_lt_is_Some_2 vs k) as [v Hv]; [lia|]. rewrite (drop_S vs v k Hv).
        rewrite replicate_S_end, <-app_assoc. done. }
  intros r s' ([] & -> & Ht' & Hr').
  eapply own_close; [|exact Hpool| |done].
  - cbn [a_type a_dev a_dims a_vals]. rewrite drop_ge, app_nil_r in Ht' by lia. exact Ht'.
  - split; [done|]. cbn. rewrite replicate_length. lia.
Qed.

Lemma create_makes t dev dims o E s : wf s -> fits (tsz t) dims -> alloc_all E ->
  makes (aitisa_create (dtype_of t) dev dims (Z.of_nat (length dims)) HNull 0 o) E s
    (AT t dev dims (replicate (Z.to_nat (prodZ dims)) VU)).
Proof.
  intros Hwf Hfit HA. destruct (create_t_ok t dev dims o E s Hwf Hfit HA) as (s' & p & pd & pm & ps & px & Hc & Ht & Hr).
  exists s', p. split; [done|]. eapply tnew_makes; [done| |exact Ht|done].
  split; [done|]. cbn. rewrite replicate_length. pose proof (fits_nonneg _ _ Hfit). lia.
Qed.

(** ** The five tensors of one channel *)
Section params.
Context {E : env} {s0 : st} (HA : alloc_all E) (HE : hooks_ok E).
Context (pS pB pM pV : nat) (Sc Bi Me Va : atensor) (t : tcode) (dev : device) (ch : Z) (pdims : list Z) (eps : spec_float) (e : val).
Context (ds : Z -> val).
Context (HS : holds (heap s0) pS Sc) (HB : holds (heap s0) pB Bi) (HM : holds (heap s0) pM Me) (HV : holds (heap s0) pV Va).
Context (TS : a_type Sc = t) (TB : a_type Bi = t) (TM : a_type Me = t) (TV : a_type Va = t).
Context (DS : a_dims Sc = [ch]) (DB : a_dims Bi = [ch]) (DM : a_dims Me = [ch]) (DV : a_dims Va = [ch]).
Context (Cd : dev_type dev = 0) (Hin : init Va) (He : of_double t eps = Some e).
Context (Hfit : fits (tsz t) pdims) (Hmax : prodZ pdims <= INT_MAX) (Hp32 : Z.of_nat (tsz t) * prodZ pdims <= 2 ^ 32)
  (Hc32 : Z.of_nat (tsz t) * ch <= 2 ^ 32).
Notation N := (Z.to_nat (prodZ pdims)).
Definition spr (v : val) : atensor := AT t dev pdims (replicate N v).

Lemma vec_at U c : valid U -> a_dims U = [ch] -> 0 <= c < ch -> a_vals U !! Z.to_nat c = Some (at_ U [c]).
Proof using Type.
  clear. intros HU DU Hc. rewrite (at_vec U ch (Z.to_nat c) HU DU) by lia. by rewrite Z2Nat.id by lia.
Qed.

Lemma params_ok L s pe c : 0 <= c < ch -> bn_den t eps (at_ Va [c]) (ds c) -> own E s0 L s -> IT pe (spr e) ∈ L ->
  wp (bn_parameters (dtype_of t) dev pdims (Z.of_nat (length pdims)) (HPtr pS) (HPtr pB) (HPtr pM) (HPtr pV)
        (HPtr pe) (prodZ pdims) (Z.of_nat (tsz t)) c) E s
    (fun r s' => exists me sc bi de tm as_, r = Next (HPtr me, HPtr sc, HPtr bi, HPtr de, HPtr tm) /\
       own E s0 (IT me (spr (at_ Me [c])) :: IT sc (spr (at_ Sc [c])) :: IT bi (spr (at_ Bi [c])) ::
                 IT de (spr (ds c)) :: IT tm (AT t dev pdims as_) :: L) s').
Proof using All.
  intros Hc Hd HO HIn. unfold bn_parameters.
  assert (forall P p0, holds (heap s0) p0 P -> a_dims P = [ch] -> a_vals P !! Z.to_nat c = Some (at_ P [c])) as Hat.
  { intros P p0 HP DP. apply vec_at; [by destruct HP|done|done]. }
  assert (Z.of_nat (tsz t) * (c + 1) <= 2 ^ 32) as Hcc by (pose proof (tsz_range t); nia).
  eapply own_try; [exact HO|apply create_makes; [by eapply own_wf|done|done]|]. intros me s1 O1.
  eapply own_try; [exact O1|apply create_makes; [by eapply own_wf|done|done]|]. intros sc s2 O2.
  eapply own_try; [exact O2|apply create_makes; [by eapply own_wf|done|done]|]. intros bi s3 O3.
  eapply own_try; [exact O3|apply create_makes; [by eapply own_wf|done|done]|]. intros va s4 O4.
  set (U := AT t dev pdims (replicate N VU)) in *.
  (* mean *)
  assert (own E s0 (IT me U :: IT va U :: IT bi U :: IT sc U :: L) s4) as O4'.
  { eapply own_perm; [exact O4|]. symmetry. apply (Permutation_middle [IT va U; IT bi U; IT sc U] L (IT me U)). }
  apply wp_bind. eapply wp_mono.
  { eapply (spread_ok _ _ me t dev pdims _ pM Me); [exact O4'|exact HM|done|lia|by eapply Hat|done|done|done|done]. }
  intros _r5 s5 O5. cbv beta in O5. fold (spr (at_ Me [c])) in O5. clear _r5.
  assert (own E s0 (IT sc U :: IT me (spr (at_ Me [c])) :: IT va U :: IT bi U :: L) s5) as O5'.
  { eapply own_perm; [exact O5|]. symmetry. apply (Permutation_middle [_; _; _] L (IT sc U)). }
  apply wp_bind. eapply wp_mono.
  { eapply (spread_ok _ _ sc t dev pdims _ pS Sc); [exact O5'|exact HS|done|lia|by eapply Hat|done|done|done|done]. }
  intros _r6 s6 O6. cbv beta in O6. fold (spr (at_ Sc [c])) in O6. clear _r6.
  assert (own E s0 (IT bi U :: IT sc (spr (at_ Sc [c])) :: IT me (spr (at_ Me [c])) :: IT va U :: L) s6) as O6'.
  { eapply own_perm; [exact O6|]. symmetry. apply (Permutation_middle [_; _; _] L (IT bi U)). }
  apply wp_bind. eapply wp_mono.
  { eapply (spread_ok _ _ bi t dev pdims _ pB Bi); [exact O6'|exact HB|done|lia|by eapply Hat|done|done|done|done]. }
  intros _r7 s7 O7. cbv beta in O7. fold (spr (at_ Bi [c])) in O7. clear _r7.
  assert (own E s0 (IT va U :: IT bi (spr (at_ Bi [c])) :: IT sc (spr (at_ Sc [c])) :: IT me (spr (at_ Me [c])) :: L) s7) as O7'.
  { eapply own_perm; [exact O7|]. symmetry. apply (Permutation_middle [_; _; _] L (IT va U)). }
  apply wp_bind. eapply wp_mono.
  { eapply (spread_ok _ _ va t dev pdims _ pV Va); [exact O7'|exact HV|done|lia|by eapply Hat|done|done|done|done]. }
  intros _r8 s8 O8. cbv beta in O8. fold (spr (at_ Va [c])) in O8. clear _r8.
  eapply (den_ok HA _ _ s8 va pe (spr (at_ Va [c])) (spr e) t dev pdims eps e (replicate N (ds c)));
    [exact O8| | |done|done|done|done|done|done|done|done|done|done| | |].
  - eapply own_holds; [exact O8|left].
  - eapply own_holds; [exact O8|]. by do 4 right.
  - cbn. apply Forall_replicate. unfold init in Hin. rewrite TV in Hin. rewrite Forall_lookup in Hin.
    eapply (Hin (Z.to_nat c)). by eapply Hat.
  - cbn. by apply Forall2_replicate.
  - intros qt qd s9 as_ O9.
    eapply (own_drop va _ [_; _] (_ :: _)); [done|exact O9|]. intros s10 O10. cbn [app] in O10.
    apply wp_ret. exists me, sc, bi, qd, qt, as_. split; [done|].
    eapply own_perm; [exact O10|]. fold (spr (ds c)).
    set (a := IT qd _). set (b := IT qt _). set (x := IT bi _). set (y := IT sc _). set (z := IT me _).
    change (a :: b :: x :: y :: z :: L) with ([a; b; x; y; z] ++ L).
    change (z :: y :: x :: a :: b :: L) with ([z; y; x; a; b] ++ L). apply Permutation_app_tail.
    apply (Permutation_trans (Permutation_app_comm [a; b] [x; y; z])). cbn.
    change [x; y; z; a; b] with ([x; y; z] ++ [a; b]). change [z; y; x; a; b] with ([z; y; x] ++ [a; b]).
    apply Permutation_app_tail. apply (Permutation_rev [x; y; z]).
Qed.
End params.

(** ** Families of tensors, one per channel *)
Definition fam (F : nat -> atensor) (l : list nat) : list item := imap (fun i p => IT p (F i)) l.
Definition temps (t : tcode) (dev : device) (dims : list Z) (l : list (nat * list val)) : list item :=
  (fun x => IT (fst x) (AT t dev dims (snd x))) <$> l.
Lemma fam_snoc F l p : fam F (l ++ [p]) = fam F l ++ [IT p (F (length l))].
Proof. unfold fam. rewrite imap_app. cbn. by rewrite Nat.add_0_r. Qed.
Lemma fam_drop F l i p : l !! i = Some p -> drop i (fam F l) = IT p (F i) :: drop (S i) (fam F l).
Proof. intros H. apply drop_S. unfold fam. rewrite list_lookup_imap, H. done. Qed.
Lemma fam_in F l i p : l !! i = Some p -> IT p (F i) ∈ fam F l.
Proof. intros H. apply elem_of_list_lookup. exists i. unfold fam. by rewrite list_lookup_imap, H. Qed.
Lemma fam_length F l : length (fam F l) = length l.
Proof. apply imap_length. Qed.

Lemma perm5 {A} (a b c d e : A) A' B C D F R :
  a :: b :: c :: d :: e :: A' ++ B ++ C ++ D ++ F ++ R
  ≡ₚ (A' ++ [a]) ++ (B ++ [b]) ++ (C ++ [c]) ++ (D ++ [d]) ++ (F ++ [e]) ++ R.
Proof.
  rewrite <-!app_assoc. cbn [app].
  rewrite <-(Permutation_middle A'). constructor.
  rewrite (app_assoc A' B (b :: _)), <-(Permutation_middle (A' ++ B)), <-app_assoc. constructor.
  rewrite (app_assoc B C (c :: _)), (app_assoc A' (B ++ C) (c :: _)), <-(Permutation_middle (A' ++ B ++ C)), <-!app_assoc.
  constructor.
  rewrite (app_assoc C D (d :: _)), (app_assoc B _ (d :: _)), (app_assoc A' _ (d :: _)), <-Permutation_middle, <-!app_assoc.
  constructor.
  rewrite (app_assoc D F (e :: _)), (app_assoc C _ (e :: _)), (app_assoc B _ (e :: _)), (app_assoc A' _ (e :: _)),
    <-Permutation_middle, <-!app_assoc. done.
Qed.

(** Copying a segment of an int64_t array *)
Lemma segment_ok (l : list Z) lo hi n E s : 0 <= lo -> Z.to_nat (hi - lo) = n ->
  (Z.to_nat lo + n <= length l)%nat ->
  for64 lo hi (fun i acc => let* d := aget l i in ret (acc ++ [d])) [] E s
  = Done (take n (drop (Z.to_nat lo) l)) s.
Proof.
  intros Hlo Hn Hl.
  rewrite (for64_pure (fun k => take k (drop (Z.to_nat lo) l)) _ _ _ n); [done|by rewrite take_0|done|].
  intros k Hk. destruct (lookup_lt_is_Some_2 l (Z.to_nat lo + k)%nat) as [x Hx]; [lia|].
  erewrite bind_done by (apply aget_Z; [lia|]; replace (Z.to_nat (lo + Z.of_nat k)) with (Z.to_nat lo + k)%nat by lia; exact Hx).
  unfold ret. f_equal. symmetry. apply take_S_r. by rewrite lookup_drop.
Qed.

Section inter.
Context {E : env} {s0 : st} (HA : alloc_all E) (HE : hooks_ok E).
Context (p pS pB pM pV : nat) (T Sc Bi Me Va : atensor) (t : tcode) (dev : device) (nb ch : Z) (b1 b2 : list Z)
  (eps : spec_float) (e : val) (axis : Z).
Context (ds : Z -> val).
Context (HT : holds (heap s0) p T) (Tt : a_type T = t) (Vt : a_dev T = dev) (Dt : a_dims T = bn_dims nb ch b1 b2).
Context (Hax : axis = Z.of_nat (S (length b1))).
Context (Hends : b1 = [] \/ b2 = []) (Hrank : (1 <= length (b1 ++ b2) <= 3)%nat).
Context (HS : holds (heap s0) pS Sc) (HB : holds (heap s0) pB Bi) (HM : holds (heap s0) pM Me) (HV : holds (heap s0) pV Va).
Context (TS : a_type Sc = t) (TB : a_type Bi = t) (TM : a_type Me = t) (TV : a_type Va = t).
Context (DS : a_dims Sc = [ch]) (DB : a_dims Bi = [ch]) (DM : a_dims Me = [ch]) (DV : a_dims Va = [ch]).
Context (Cd : dev_type dev = 0) (Hin : init Va) (He : of_double t eps = Some e).
Notation pdims := (b1 ++ b2).
Context (Hfit : fits (tsz t) pdims) (Hmax : prodZ pdims <= INT_MAX) (Hp32 : Z.of_nat (tsz t) * prodZ pdims <= 2 ^ 32)
  (Hc32 : Z.of_nat (tsz t) * ch <= 2 ^ 32) (Hch : 0 < ch <= INT_MAX).
Context (Hden : forall c, 0 <= c < ch -> bn_den t eps (at_ Va [c]) (ds c)).
Notation spr := (spr t dev pdims).
Definition Fs (i : nat) := spr (at_ Sc [Z.of_nat i]).
Definition Fb (i : nat) := spr (at_ Bi [Z.of_nat i]).
Definition Fm (i : nat) := spr (at_ Me [Z.of_nat i]).
Definition Fd (i : nat) := spr (ds (Z.of_nat i)).
Definition arrays ss bs ms dn (xs xb xm xd : nat) : list item :=
  fam Fs ss ++ fam Fb bs ++ fam Fm ms ++ fam Fd dn ++ [IB xs; IB xb; IB xm; IB xd].

Lemma inter_ok L s : own E s0 L s ->
  wp (bn_intermediate (HPtr p) axis (HPtr pS) (HPtr pB) (HPtr pM) (HPtr pV) eps) E s
    (fun r s' => exists ss bs ms dn xs xb xm xd,
       r = Next (BnArrays (HPtr xs) (HPtr xb) (HPtr xm) (HPtr xd) (HPtr <$> ss) (HPtr <$> bs) (HPtr <$> ms) (HPtr <$> dn)) /\
       length ss = Z.to_nat ch /\ length bs = Z.to_nat ch /\ length ms = Z.to_nat ch /\ length dn = Z.to_nat ch /\
       own E s0 (arrays ss bs ms dn xs xb xm xd ++ L) s').
Proof using All.
  intros HO. unfold bn_intermediate.
  pose proof (own_base _ _ _ _ HO HT) as (_ & bx & tg & ex & V & _). rewrite Tt, Vt, Dt in V.
  assert (length (bn_dims nb ch b1 b2) = (length pdims + 2)%nat) as Hlen.
  { unfold bn_dims. cbn [length]. rewrite !app_length. cbn. lia. }
  eapply wp_step; [by eapply tensor_ndim_ok|].
  eapply wp_step; [by eapply tensor_dtype_ok|].
  eapply wp_step; [by eapply tensor_device_ok|].
  eapply wp_step; [by eapply tensor_dims_ok|].
  assert (bn_dims nb ch b1 b2 !! Z.to_nat axis = Some ch) as Hchd.
  { rewrite Hax, Nat2Z.id. unfold bn_dims. rewrite lookup_cons_ne_0 by done. cbn [Nat.pred]. by rewrite list_lookup_middle. }
  eapply wp_step; [eapply tensor_dim_ok; [exact V|lia|exact Hchd]|].
  cbv zeta.
  replace (Z.of_nat (length (bn_dims nb ch b1 b2)) - 2) with (Z.of_nat (length pdims)) by lia.
  eapply own_scr; [done|llia|exact HO|]. intros x1 s1 O1. cbn [is_null].
  eapply wp_step.
  { instantiate (1 := s1). instantiate (1 := pdims). destruct (Z.eqb_spec axis 1) as [Ha|Ha].
    - assert (b1 = []) as Hb1 by (destruct b1; [done|cbn in Hax; lia]). rewrite Hb1 in *. 
      erewrite (segment_ok _ _ _ (length b2)); [|lia|rewrite Hlen; cbn [app]; lia|rewrite Hlen; cbn [app]; lia].
      f_equal. unfold bn_dims. cbn [app Z.to_nat Pos.to_nat Pos.iter_op Init.Nat.add drop]. by rewrite firstn_all.
    - assert (b2 = []) as Hb2 by (destruct Hends as [->| ->]; [cbn in Hax; lia|done]).
      rewrite Hb2 in *. rewrite app_nil_r in *.
      erewrite (segment_ok _ _ _ (length b1)); [|lia|rewrite Hlen; lia|rewrite Hlen; cbn; lia].
      f_equal. unfold bn_dims. change (Z.to_nat 1) with 1%nat. cbn [drop]. rewrite drop_0. by rewrite take_app_alt. }
  eapply own_try; [exact O1| |].
  { eapply (makes_or_nomem_alloc _ _ _ HUndef); [done|]. apply (full_rule t dev pdims eps e); [by eapply own_wf|done|done|done]. }
  intros pe s2 O2. change (AT t dev pdims (replicate (Z.to_nat (prodZ pdims)) e)) with (spr e) in O2.
  eapply wp_step. { apply size_of_dims_ok; [eapply fits_prefixes; [apply tsz_pos|exact Hfit]|done|llia]. }
  eapply own_scr; [done|llia|exact O2|]. intros xm s3 O3.
  eapply own_scr; [done|llia|exact O3|]. intros xs s4 O4.
  eapply own_scr; [done|llia|exact O4|]. intros xb s5 O5.
  eapply own_scr; [done|llia|exact O5|]. intros xd s6 O6.
  eapply own_scr; [done|llia|exact O6|]. intros xt s7 O7.
  eapply own_scr; [done|llia|exact O7|]. intros xv s8 O8. cbn [is_null orb].
  set (R := IB xv :: IB xt :: IB xd :: IB xb :: IB xs :: IB xm :: IT pe (spr e) :: IB x1 :: L) in *.
  unfold ctl_u32. replace (2 ^ 32 <=? ch) with false by llia.
  apply wp_bind. eapply wp_mono.
  { apply (iter_ret_rule (fun k x s' => exists ms ss bs dn tl,
      x = (HPtr <$> ms, HPtr <$> ss, HPtr <$> bs, HPtr <$> dn, (fun y => HPtr (fst y)) <$> tl) /\
      length ms = k /\ length ss = k /\ length bs = k /\ length dn = k /\ length tl = k /\
      own E s0 (fam Fm ms ++ fam Fs ss ++ fam Fb bs ++ fam Fd dn ++ temps t dev pdims tl ++ R) s')).
    - exists [], [], [], [], []. split_and!; try done.
    - intros k x s' Hk (ms & ss & bs & dn & tl & -> & Lm & Ls & Lb & Ld & Lt & O). rewrite Z.add_0_l.
      eapply wp_step. { eapply own_touch; [exact O|]. rewrite !elem_of_app. do 5 right. right. left. }
      apply wp_bind. eapply wp_mono.
      { eapply (params_ok HA HE pS pB pM pV Sc Bi Me Va t dev ch pdims eps e ds); try done; [lia|apply Hden; lia|].
        rewrite !elem_of_app. do 5 right. do 6 right. left. }
      intros r s'' (me & sc & bi & de & tm & as_ & -> & O'). cbv match.
      apply wp_ret. eexists. split; [reflexivity|].
      exists (ms ++ [me]), (ss ++ [sc]), (bs ++ [bi]), (dn ++ [de]), (tl ++ [(tm, as_)]).
      split_and!; try (rewrite app_length; cbn; lia).
      + by rewrite !fmap_app.
      + rewrite !fam_snoc. unfold temps at 1. rewrite fmap_app. cbn [fmap list_fmap fst snd]. fold (temps t dev pdims tl).
        rewrite Lm, Ls, Lb, Ld. eapply own_perm; [exact O'|]. apply perm5. }
  intros r s9 (x & -> & ms & ss & bs & dn & tl & -> & Lm & Ls & Lb & Ld & Lt & O9). cbv match.
  (* destroy eps, var, dims *)
  set (A := fam Fm ms ++ fam Fs ss ++ fam Fb bs ++ fam Fd dn) in *.
  assert (own E s0 ((A ++ temps t dev pdims tl ++ [IB xv; IB xt; IB xd; IB xb; IB xs; IB xm]) ++ IT pe (spr e) :: IB x1 :: L) s9) as O9'.
  { unfold A, R in *. rewrite <-!app_assoc. cbn [app]. exact O9. }
  eapply (own_drop pe); [done|exact O9'|]. intros s10 O10.
  assert (own E s0 ((A ++ temps t dev pdims tl) ++ IB xv :: [IB xt; IB xd; IB xb; IB xs; IB xm] ++ IB x1 :: L) s10) as O10'.
  { rewrite <-!app_assoc in *. cbn [app] in *. exact O10. }
  eapply (own_dealloc xv); [done|exact O10'|]. intros s11 O11.
  assert (own E s0 (((A ++ temps t dev pdims tl) ++ [IB xt; IB xd; IB xb; IB xs; IB xm]) ++ IB x1 :: L) s11) as O11'.
  { rewrite <-!app_assoc in *. cbn [app] in *. exact O11. }
  eapply (own_dealloc x1); [done|exact O11'|]. intros s12 O12.
  set (R2 := [IB xt; IB xd; IB xb; IB xs; IB xm] ++ L) in *.
  assert (own E s0 (temps t dev pdims tl ++ A ++ R2) s12) as O12'.
  { unfold R2. eapply own_perm; [exact O12|]. rewrite <-!app_assoc.
    rewrite (app_assoc A), (app_assoc (temps _ _ _ _) A). apply Permutation_app_tail, Permutation_app_comm. }
  apply wp_bind. eapply wp_mono.
  { apply (for64_rule (fun i _ s' => own E s0 (drop i (temps t dev pdims tl) ++ A ++ R2) s') _ _ _ (Z.to_nat ch)).
    - lia.
    - done.
    - intros i [] s' Hi O. rewrite Z.add_0_l. destruct (lookup_lt_is_Some_2 tl i) as [[tm as_] Htm]; [lia|].
      eapply wp_step. { apply aget_nat. rewrite list_lookup_fmap, Htm. reflexivity. } cbn [fst].
      assert (drop i (temps t dev pdims tl) = IT tm (AT t dev pdims as_) :: drop (S i) (temps t dev pdims tl)) as Hdr.
      { apply drop_S. unfold temps. by rewrite list_lookup_fmap, Htm. }
      rewrite Hdr in O. eapply (own_drop tm _ []); [done|exact O|]. intros s'' O'. by apply wp_ret. }
  intros [] s13 O13. rewrite drop_ge in O13 by (unfold temps; rewrite fmap_length; lia). cbn [app] in O13.
  eapply (own_dealloc xt); [done|exact O13|]. intros s14 O14.
  apply wp_ret. exists ss, bs, ms, dn, xs, xb, xm, xd. split_and!; [done|done|done|done|done|].
  eapply own_perm; [exact O14|]. unfold A, arrays. rewrite <-!app_assoc. cbn [app].
  etrans; [apply Permutation_app_swap_app|]. apply Permutation_app_head.
  etrans; [apply Permutation_app_swap_app|]. do 3 apply Permutation_app_head.
  change ([IB xd; IB xb; IB xs; IB xm] ++ L ≡ₚ [IB xs; IB xb; IB xm; IB xd] ++ L). apply Permutation_app_tail.
  etrans; [apply (Permutation_app_comm [IB xd; IB xb; IB xs] [IB xm])|]. cbn.
  etrans; [apply (Permutation_app_comm [IB xm; IB xd; IB xb] [IB xs])|]. cbn. constructor.
  etrans; [apply (Permutation_app_comm [IB xm; IB xd] [IB xb])|]. done.
Qed.
End inter.
