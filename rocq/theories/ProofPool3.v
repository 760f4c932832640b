(** * ProofPool3: the values pooling computes, and the calls it refuses *)
From stdpp Require Import gmap list.
From Coq Require Import ZArith Lia Reals Lra Floats.SpecFloat.
From Coq Require Import ZifyBool ZifyNat.
From Flocq Require Core.
From Flocq Require Import IEEE754.BinarySingleNaN.
From Verif Require Import Base Mem Spec SpecReal SpecNN ModelCore ModelBasic ModelMath ModelNN Logic ProofCore ProofCore2
  ProofCore3 ProofIndex ProofBasic ProofBasic2 ProofSlice ProofMatmul ProofKernel ProofKernel2 ProofFrame ProofLayout ProofFloat ProofFloat2 ProofFloat4 ProofFloat5 ProofCast
  ProofMatmul3 ProofDropout ProofSoftmax ProofWindow ProofPool ProofPool2.
Open Scope Z_scope.

Ltac Zify.zify_post_hook ::= Z.div_mod_to_equations.

(** ** elements as doubles *)
Lemma exact_double t v : val_ok t v -> exact_val v -> exists d,
  to_double t v = Some d /\ vb F64 d = true /\ is_finite_SF d = true /\ RV d = val_real v /\
  of_double t d = Some v.
Proof.
  intros Hok Hex. destruct v as [z|f|]; cbn in Hok, Hex; [| |done]; destruct Hok as [Ht Hr].
  - exists (dbl_of_Z z). pose proof (dbl_of_Z_ok z Hex) as Hd. cbn. rewrite Ht.
    split_and!; [done|by eapply is64_valid|by eapply is64_finite|by eapply is64_R|].
    unfold of_double. rewrite Ht, (trunc_ok _ _ Hd), Raux.Ztrunc_IZR.
    by rewrite (proj2 (in_range_spec t z) Hr).
  - exists (flt_conv F64 f). cbn. rewrite Ht. split_and!; [done|apply flt_conv_valid| | |].
    + destruct f as [b|b| |b m e]; try done.
      destruct (flt_conv_exact F64 b m e) as (H1 & H2 & H3); [| |done].
      * eapply (fmt_incl t); [by destruct t| |by apply fmt_val]. by destruct t.
      * eapply Rlt_le_trans; [by apply (val_small t)|]. apply Raux.bpow_le. by destruct t.
    + destruct f as [b|b| |b m e]; try done.
      destruct (flt_conv_exact F64 b m e) as (H1 & H2 & H3); [| |done].
      * eapply (fmt_incl t); [by destruct t| |by apply fmt_val]. by destruct t.
      * eapply Rlt_le_trans; [by apply (val_small t)|]. apply Raux.bpow_le. by destruct t.
    + unfold of_double. rewrite Ht. do 2 f_equal. apply flt_conv_back; by destruct t.
Qed.
Lemma zero_double t : of_double t fzero = Some (zero_val t).
Proof. by destruct t. Qed.
Lemma zero_real t : val_real (zero_val t) = 0%R.
Proof. by destruct t. Qed.

Lemma exact_doubles t vs : Forall (val_ok t) vs -> Forall exact_val vs -> exists ds,
  mapM (to_double t) vs = Some ds /\
  Forall2 (fun v d => vb F64 d = true /\ is_finite_SF d = true /\ RV d = val_real v /\ of_double t d = Some v) vs ds.
Proof.
  induction 1 as [|v vs Hv _ IH]; intros He; [exists []; repeat constructor|].
  apply Forall_cons in He as [Hv' He]. destruct (IH He) as (ds & Hds & H2).
  destruct (exact_double t v Hv Hv') as (d & Hd & H1). exists (d :: ds).
  split; [by apply mapM_cons_some|by constructor].
Qed.

(** the loop of max pooling keeps the larger of two numbers *)
Lemma max_fold t vs ds u a :
  vb F64 a = true -> is_finite_SF a = true -> RV a = val_real u -> of_double t a = Some u ->
  Forall2 (fun v d => vb F64 d = true /\ is_finite_SF d = true /\ RV d = val_real v /\ of_double t d = Some v) vs ds ->
  exists v, of_double t (foldl (fun a d => if SFltb a d then d else a) a ds) = Some v /\ is_max (u :: vs) v.
Proof.
  intros Ha1 Ha2 Ha3 Ha4 H. revert u a Ha1 Ha2 Ha3 Ha4.
  induction H as [|v d vs ds (Hd1 & Hd2 & Hd3 & Hd4) _ IH]; intros u a Ha1 Ha2 Ha3 Ha4.
  { exists u. split; [done|]. split; [exists u; split; [left|done]|].
    intros x Hx. apply elem_of_list_singleton in Hx as ->. apply Rle_refl. }
  cbn [foldl]. rewrite ltb_R by done. rewrite Ha3, Hd3.
  destruct (Raux.Rlt_bool_spec (val_real u) (val_real v)) as [Hlt|Hle].
  - destruct (IH v d Hd1 Hd2 Hd3 Hd4) as (w & Hw & (x & Hx & Hxw) & Hmax). exists w. split; [done|]. split.
    + exists x. split; [by right|done].
    + intros y Hy. apply elem_of_cons in Hy as [->|Hy]; [|by apply Hmax].
      specialize (Hmax v ltac:(left)). lra.
  - destruct (IH u a Ha1 Ha2 Ha3 Ha4) as (w & Hw & (x & Hx & Hxw) & Hmax). exists w. split; [done|]. split.
    + exists x. split; [|done]. apply elem_of_cons in Hx as [->|Hx]; [left|right; by right].
    + intros y Hy. apply elem_of_cons in Hy as [->|Hy]; [by apply Hmax; left|].
      apply elem_of_cons in Hy as [->|Hy]; [|apply Hmax; by right].
      specialize (Hmax u ltac:(left)). lra.
Qed.
Lemma pool_max0_ok t vs : Forall (val_ok t) vs -> Forall exact_val vs ->
  exists v, pool_max0 t vs = Some v /\ is_max (zero_val t :: vs) v.
Proof.
  intros Hok Hex. destruct (exact_doubles t vs Hok Hex) as (ds & Hds & H2).
  unfold pool_max0. rewrite Hds. cbn. apply max_fold; [done|done|by rewrite zero_real|apply zero_double|done].
Qed.
Lemma is_max_zero t vs v : is_max (zero_val t :: vs) v ->
  ((exists u, u ∈ vs /\ (0 <= val_real u)%R) -> is_max vs v) /\
  ((forall u, u ∈ vs -> (val_real u < 0)%R) -> val_real v = 0%R /\ ~ is_max vs v).
Proof.
  intros [(x & Hx & Hxv) Hmax]. rewrite <-(zero_real t). split.
  - intros (u & Hu & Hu0). split; [|intros y Hy; apply Hmax; by right].
    apply elem_of_cons in Hx as [->|Hx]; [|eauto].
    exists u. split; [done|]. specialize (Hmax u ltac:(by right)). lra.
  - intros Hneg. assert (val_real v = val_real (zero_val t)) as E.
    { apply elem_of_cons in Hx as [->|Hx]; [done|]. specialize (Hneg x Hx). specialize (Hmax (zero_val t) ltac:(left)). lra. }
    split; [done|]. intros [(y & Hy & Hyv) _]. specialize (Hneg y Hy). lra.
Qed.

(** ** the elements of a window are elements of the tensor *)
Lemma at_elem T c : valid T -> in_box (a_dims T) c -> at_ T c ∈ a_vals T.
Proof.
  intros HT Hc. pose proof (ravel_bound _ _ Hc). pose proof (valid_len _ HT). unfold at_.
  destruct (lookup_lt_is_Some_2 (a_vals T) (Z.to_nat (ravel (a_dims T) c))) as [v Hv]; [lia|].
  rewrite Hv. by eapply elem_of_list_lookup_2.
Qed.
Lemma window_forall (P : val -> Prop) T nb nc sd ks ss ps ls b c x : valid T -> a_dims T = nb :: nc :: sd ->
  0 <= b < nb -> 0 <= c < nc -> Forall P (a_vals T) -> Forall P (window T ks ss ps ls b c x).
Proof.
  intros HT Hd Hb Hc HP. apply Forall_forall. intros v Hv. unfold window in Hv.
  apply elem_of_list_omap in Hv as (w & _ & Hw). cbv zeta in Hw.
  destruct (decide _) as [Hx|]; [|done]. rewrite Hd in Hx. change (drop 2 (nb :: nc :: sd)) with sd in Hx.
  injection Hw as <-. rewrite Forall_forall in HP. apply HP. apply at_elem; [done|]. rewrite Hd.
  constructor; [done|]. constructor; done.
Qed.
Lemma window_count T ks ss ps ls b c x : 0 <= prodZ ks ->
  Z.of_nat (length (window T ks ss ps ls b c x)) <= prodZ ks.
Proof.
  intros Hk. assert (Z.of_nat (length (coords ks)) = prodZ ks) as <-.
  { unfold coords. rewrite fmap_length, seq_length. lia. }
  unfold window. apply Nat2Z.inj_le. generalize (coords ks). intros l.
  induction l as [|w l IH]; [done|]. cbn [omap list_omap]. destruct (decide _); cbn; lia.
Qed.

(** ** whole calls *)
Section calls.
Context {p : nat} {T : atensor} {nb nc : Z} {sd ks ss ps ls : list Z} {E : env} {s : st} {o : hval}.
Let os := win_outs sd ks ss ps ls.
Context (Hwf : wf s) (HE : alloc_all E) (HH : hooks_ok E) (HT : holds (heap s) p T)
  (Hdim : a_dims T = nb :: nc :: sd) (Hrank : (1 <= length sd <= 3)%nat) (Hok : win_ok sd ks ss ps ls)
  (Hks : prodZ ks <= INT64_MAX) (Hos : prodZ os <= INT_MAX)
  (Hf1 : (Z.to_nat (prodZ ks) <= e_fuel E)%nat) (Hf2 : (Z.to_nat (prodZ os) <= e_fuel E)%nat)
  (Hfit : fits (tsz (a_type T)) (nb :: nc :: os)).

Lemma pooling_choose m : m <> POther ->
  (forall b c x, 0 <= b < nb -> 0 <= c < nc ->
     is_Some (pool_value m (a_type T) (prodZ ks) (window T ks ss ps ls b c x))) ->
  exists T3, a_type T3 = a_type T /\ a_dev T3 = a_dev T /\ a_dims T3 = nb :: nc :: os /\ valid T3 /\
    (forall b c x, in_box (a_dims T3) (b :: c :: x) ->
       pool_value m (a_type T) (prodZ ks) (window T ks ss ps ls b c x) = Some (at_ T3 (b :: c :: x))) /\
    makes (aitisa_pooling (HPtr p) m ks ss ps ls o) E s T3.
Proof using Hwf HE HH HT Hdim Hrank Hok Hks Hos Hf1 Hf2 Hfit.
  intros Hm Hsome.
  destruct (tab_choose (a_type T) (a_dev T) (nb :: nc :: os)
    (fun x => pool_value m (a_type T) (prodZ ks)
      (window T ks ss ps ls (default 0 (x !! 0%nat)) (default 0 (x !! 1%nat)) (drop 2 x))) Hfit)
    as (T3 & Hv & Ht & Hdv & Hds & H3).
  { intros x Hx. inversion Hx as [|? b ? y Hb Hy]; subst. inversion Hy as [|? c ? z Hc Hz]; subst. by apply Hsome. }
  assert (forall b c x, in_box (a_dims T3) (b :: c :: x) ->
       pool_value m (a_type T) (prodZ ks) (window T ks ss ps ls b c x) = Some (at_ T3 (b :: c :: x))) as Hval.
  { intros b c x Hx. rewrite Hds in Hx. exact (H3 _ Hx). }
  exists T3. split_and!; [done..|]. by eapply pooling_rule.
Qed.

Lemma pooling_avg_float : is_float (a_type T) = true -> init T ->
  exists T3, a_type T3 = a_type T /\ a_dev T3 = a_dev T /\ a_dims T3 = nb :: nc :: os /\ valid T3 /\
    (forall b c x, in_box (a_dims T3) (b :: c :: x) ->
       pool_avg (a_type T) (prodZ ks) (window T ks ss ps ls b c x) = Some (at_ T3 (b :: c :: x))) /\
    makes (aitisa_pooling (HPtr p) PAvg ks ss ps ls o) E s T3.
Proof using Hwf HE HH HT Hdim Hrank Hok Hks Hos Hf1 Hf2 Hfit.
  intros Hf Hin. apply (pooling_choose PAvg); [done|]. intros b c x Hb Hc.
  pose proof (window_forall _ T nb nc sd ks ss ps ls b c x (holds_valid _ _ _ HT) Hdim Hb Hc Hin) as Hw.
  unfold pool_value.
  destruct (mapM_total (to_double (a_type T)) (fun _ => True) (window T ks ss ps ls b c x)) as (ds & -> & _).
  { eapply Forall_impl; [exact Hw|]. intros [z|f|] Hx; [destruct Hx; congruence| |done].
    unfold to_double. rewrite Hf. eauto. }
  cbn. unfold of_double. rewrite Hf. eauto.
Qed.

Lemma pooling_max_exact : init T -> Forall exact_val (a_vals T) ->
  exists T3, a_type T3 = a_type T /\ a_dev T3 = a_dev T /\ a_dims T3 = nb :: nc :: os /\ valid T3 /\
    (forall b c x, in_box (a_dims T3) (b :: c :: x) ->
       is_max (zero_val (a_type T) :: window T ks ss ps ls b c x) (at_ T3 (b :: c :: x))) /\
    makes (aitisa_pooling (HPtr p) PMax ks ss ps ls o) E s T3.
Proof using Hwf HE HH HT Hdim Hrank Hok Hks Hos Hf1 Hf2 Hfit.
  intros Hin Hex. pose proof (holds_valid _ _ _ HT) as HvT.
  assert (forall b c x, 0 <= b < nb -> 0 <= c < nc -> exists v,
    pool_max0 (a_type T) (window T ks ss ps ls b c x) = Some v /\
    is_max (zero_val (a_type T) :: window T ks ss ps ls b c x) v) as Hmax.
  { intros b c x Hb Hc. apply pool_max0_ok; by eapply window_forall. }
  destruct (pooling_choose PMax) as (T3 & H1 & H2 & H3 & H4 & H5 & H6); [done| |].
  { intros b c x Hb Hc. destruct (Hmax b c x Hb Hc) as (v & Hv & _). exists v. exact Hv. }
  exists T3. split_and!; [done..| |done]. intros b c x Hx. specialize (H5 b c x Hx).
  rewrite H3 in Hx. inversion Hx as [|? ? ? ? Hb Hy]; subst. inversion Hy as [|? ? ? ? Hc Hz]; subst.
  destruct (Hmax b c x Hb Hc) as (v & Hv & Hm). unfold pool_max0 in Hv. unfold pool_value in H5.
  cbn in H5. change (pfin PMax (prodZ ks)) with (fun x : spec_float => x) in H5.
  assert (Some (at_ T3 (b :: c :: x)) = Some v) as Heq by (rewrite <-H5; exact Hv).
  injection Heq as ->. exact Hm.
Qed.
Lemma pooling_max_partial : init T -> Forall exact_val (a_vals T) ->
  exists T3, a_type T3 = a_type T /\ a_dev T3 = a_dev T /\ a_dims T3 = nb :: nc :: os /\ valid T3 /\
    (forall b c x, in_box (a_dims T3) (b :: c :: x) ->
       let w := window T ks ss ps ls b c x in
       let v := at_ T3 (b :: c :: x) in
       ((exists u, u ∈ w /\ (0 <= val_real u)%R) -> is_max w v) /\
       ((forall u, u ∈ w -> (val_real u < 0)%R) -> val_real v = 0%R /\ ~ is_max w v)) /\
    makes (aitisa_pooling (HPtr p) PMax ks ss ps ls o) E s T3.
Proof using Hwf HE HH HT Hdim Hrank Hok Hks Hos Hf1 Hf2 Hfit.
  intros Hin Hex. destruct (pooling_max_exact Hin Hex) as (T3 & H1 & H2 & H3 & H4 & H5 & H6).
  exists T3. split_and!; [done..| |done]. intros b c x Hx. cbv zeta. eapply is_max_zero. by apply H5.
Qed.
End calls.

(** ** averages of integers *)
Definition sumabs (zs : list Z) : Z := foldr (fun z a => Z.abs z + a) 0 zs.
Lemma sum_fold zs a z0 : is64 a (IZR z0) -> Z.abs z0 + sumabs zs <= 2 ^ 53 ->
  is64 (foldl dadd a (dbl_of_Z <$> zs)) (IZR (z0 + sumZ zs)).
Proof.
  revert a z0. induction zs as [|z zs IH]; intros a z0 Ha Hb; cbn.
  { by rewrite Z.add_0_r. }
  cbn in Hb. fold (sumabs zs) in Hb. fold (sumZ zs).
  assert (0 <= sumabs zs) by (clear; unfold sumabs; induction zs; cbn; lia).
  rewrite Z.add_assoc. apply IH; [|lia]. apply iadd_ok; [done|apply dbl_of_Z_ok; lia|lia].
Qed.
Lemma div_trunc x z n : is64 x (IZR z) -> Z.abs z < 2 ^ 52 -> 1 <= n <= 2 ^ 52 ->
  flt_trunc (ddiv x (dbl_of_Z n)) = Some (Z.quot z n).
Proof.
  intros Hx Hz Hn. pose proof (dbl_of_Z_ok n ltac:(lia)) as Hy.
  assert (IZR n <> 0%R) as Hn0 by (apply not_0_IZR; lia).
  destruct (Z.le_gt_cases 0 z) as [H0|H0].
  - pose proof (ddiv_ok _ _ _ _ Hx Hy Hn0 (rnd64_small z n ltac:(lia) ltac:(lia))) as Hd.
    rewrite (trunc_ok _ _ Hd). f_equal. rewrite Raux.Ztrunc_floor.
    + rewrite floor_quot by lia. symmetry. apply Z.quot_div_nonneg; lia.
    + rewrite <-(rnd64_int 0) by lia. apply rnd64_le.
      apply Rmult_le_pos; [by apply IZR_le|]. left. apply Rinv_0_lt_compat, IZR_lt. lia.
  - assert (rnd64 (IZR z / IZR n) = - rnd64 (IZR (- z) / IZR n))%R as Hopp.
    { unfold rnd64. rewrite <-Round_NE.round_NE_opp. f_equal. rewrite opp_IZR. field. done. }
    pose proof (rnd64_small (- z) n ltac:(lia) ltac:(lia)) as Hs.
    assert (is64 (ddiv x (dbl_of_Z n)) (rnd64 (IZR z / IZR n))) as Hd.
    { apply ddiv_ok; [done|done|done|]. rewrite Hopp, Rabs_Ropp. done. }
    rewrite (trunc_ok _ _ Hd). f_equal. rewrite Hopp, Raux.Ztrunc_opp, Raux.Ztrunc_floor.
    + rewrite floor_quot by lia. rewrite <-Z.quot_div_nonneg by lia.
      rewrite Z.quot_opp_l by lia. lia.
    + rewrite <-(rnd64_int 0) by lia. apply rnd64_le.
      apply Rmult_le_pos; [apply IZR_le; lia|]. left. apply Rinv_0_lt_compat, IZR_lt. lia.
Qed.
Lemma sum_range t zs n : is_float t = false -> Forall (fun z => tmin t <= z <= tmax t) zs -> Z.of_nat (length zs) <= n ->
  1 <= n -> tmin t <= Z.quot (sumZ zs) n <= tmax t.
Proof.
  intros Hf Hr Hl Hn.
  assert (tmin t <= 0 <= tmax t) as Ht by (by destruct t).
  assert (tmin t * Z.of_nat (length zs) <= sumZ zs <= tmax t * Z.of_nat (length zs)) as Hs.
  { clear Hl. induction Hr as [|z zs Hz _ IH]; [cbn; lia|]. cbn [sumZ foldr length]. fold (sumZ zs). lia. }
  assert (tmin t * n <= sumZ zs <= tmax t * n) as Hs' by nia.
  split.
  - rewrite <-(Z.quot_mul (tmin t) n) by lia. apply Z.quot_le_mono; lia.
  - rewrite <-(Z.quot_mul (tmax t) n) by lia. apply Z.quot_le_mono; lia.
Qed.
Lemma pool_avg_int t n zs : is_float t = false -> Forall (fun z => tmin t <= z <= tmax t) zs ->
  Z.of_nat (length zs) <= n -> 1 <= n <= 2 ^ 52 -> sumabs zs < 2 ^ 52 ->
  pool_avg t n (VI <$> zs) = Some (VI (Z.quot (sumZ zs) n)).
Proof.
  intros Hf Hr Hl Hn Hs. unfold pool_avg.
  assert (mapM (to_double t) (VI <$> zs) = Some (dbl_of_Z <$> zs)) as ->.
  { clear -Hf. induction zs as [|z zs IH]; [done|]. cbn [fmap list_fmap]. apply mapM_cons_some; [|done].
    cbn. by rewrite Hf. }
  cbn. unfold of_double. rewrite Hf.
  assert (Z.abs (sumZ zs) <= sumabs zs) as Ha by (clear; unfold sumabs, sumZ; induction zs; cbn; lia).
  rewrite (div_trunc _ (sumZ zs)); [|exact (sum_fold zs fzero 0 (dbl_of_Z_ok 0 ltac:(lia)) ltac:(lia))|lia|lia].
  by rewrite (proj2 (in_range_spec t _) (sum_range t zs n Hf Hr Hl ltac:(lia))).
Qed.
Lemma int_vals t vs B : is_float t = false -> Forall (val_ok t) vs ->
  Forall (fun v => (Rabs (val_real v) <= IZR B)%R) vs ->
  exists zs, vs = VI <$> zs /\ Forall (fun z => tmin t <= z <= tmax t) zs /\ sumabs zs <= B * Z.of_nat (length zs).
Proof.
  intros Hf Hok. induction Hok as [|v vs Hv _ IH]; intros HB.
  { exists []. repeat split; [constructor|cbn; lia]. }
  apply Forall_cons in HB as [Hb HB]. destruct (IH HB) as (zs & -> & Hr & Hs).
  destruct v as [z|f|]; [|destruct Hv; congruence|done]. exists (z :: zs).
  split; [done|]. split; [constructor; [apply Hv|done]|].
  cbn in Hb. rewrite <-abs_IZR in Hb. apply le_IZR in Hb. cbn [sumabs foldr length]. fold (sumabs zs). lia.
Qed.
Lemma pooling_avg_int p T nb nc sd ks ss ps ls B o E s :
  wf s -> alloc_all E -> hooks_ok E -> holds (heap s) p T ->
  a_dims T = nb :: nc :: sd -> (1 <= length sd <= 3)%nat -> win_ok sd ks ss ps ls ->
  prodZ (win_outs sd ks ss ps ls) <= INT_MAX ->
  (Z.to_nat (prodZ ks) <= e_fuel E)%nat -> (Z.to_nat (prodZ (win_outs sd ks ss ps ls)) <= e_fuel E)%nat ->
  fits (tsz (a_type T)) (nb :: nc :: win_outs sd ks ss ps ls) ->
  is_float (a_type T) = false -> init T ->
  Forall (fun v => (Rabs (val_real v) <= IZR B)%R) (a_vals T) -> 1 <= B -> B * prodZ ks < 2 ^ 52 ->
  exists T3, a_type T3 = a_type T /\ a_dev T3 = a_dev T /\ a_dims T3 = nb :: nc :: win_outs sd ks ss ps ls /\ valid T3 /\
    (forall b c x, in_box (a_dims T3) (b :: c :: x) -> exists zs,
       window T ks ss ps ls b c x = VI <$> zs /\ at_ T3 (b :: c :: x) = VI (Z.quot (sumZ zs) (prodZ ks))) /\
    makes (aitisa_pooling (HPtr p) PAvg ks ss ps ls o) E s T3.
Proof.
  intros Hwf HE HH HT Hdim Hrank Hok Hos Hf1 Hf2 Hfit Hf Hin HB HB1 HBk.
  pose proof (holds_valid _ _ _ HT) as HvT.
  pose proof (prodZ_pos _ (win_ks_pos _ _ _ _ _ Hok)) as Hkp.
  assert (forall b c x, 0 <= b < nb -> 0 <= c < nc -> exists zs,
    window T ks ss ps ls b c x = VI <$> zs /\
    pool_avg (a_type T) (prodZ ks) (window T ks ss ps ls b c x) = Some (VI (Z.quot (sumZ zs) (prodZ ks)))) as Hw.
  { intros b c x Hb Hc.
    destruct (int_vals (a_type T) (window T ks ss ps ls b c x) B Hf) as (zs & Hzs & Hr & Hs); [by eapply window_forall..|].
    exists zs. split; [done|]. rewrite Hzs.
    pose proof (window_count T ks ss ps ls b c x ltac:(lia)) as Hl. rewrite Hzs, fmap_length in Hl.
    apply pool_avg_int; [done|done|done|nia|nia]. }
  destruct (pooling_choose Hwf HE HH HT Hdim Hrank Hok ltac:(llia) Hos Hf1 Hf2 Hfit (o := o) PAvg)
    as (T3 & H1 & H2 & H3 & H4 & H5 & H6); [done| |].
  { intros b c x Hb Hc. destruct (Hw b c x Hb Hc) as (zs & _ & Hv). eexists. exact Hv. }
  exists T3. split_and!; [done..| |done]. intros b c x Hx. specialize (H5 b c x Hx).
  rewrite H3 in Hx. inversion Hx as [|? ? ? ? Hb Hy]; subst. inversion Hy as [|? ? ? ? Hc Hz]; subst.
  destruct (Hw b c x Hb Hc) as (zs & Hzs & Hv). exists zs. split; [done|].
  assert (Some (at_ T3 (b :: c :: x)) = Some (VI (Z.quot (sumZ zs) (prodZ ks)))) as Heq by (rewrite <-H5; exact Hv).
  by injection Heq.
Qed.

(** ** refusals *)
Lemma pooling_rank m p T ks ss ps ls o E s : holds (heap s) p T ->
  (length (a_dims T) < 3 \/ 5 < length (a_dims T))%nat ->
  aitisa_pooling (HPtr p) m ks ss ps ls o E s = Done (DIMENSIONS_MISMATCH, o) s.
Proof.
  intros (_ & bA & tgA & exA & Hv & Hx) Hr. unfold aitisa_pooling.
  erewrite bind_done by (by eapply tensor_ndim_ok).
  replace ((2 <? Z.of_nat (length (a_dims T))) && (Z.of_nat (length (a_dims T)) <? 6)) with false by lia. done.
Qed.

Lemma iter_ret_find {R} (g : Z -> bool) (r : R) E s n i0 (body : Z -> unit -> M (ctl unit R)) :
  (forall k, (k < n)%nat -> body (i0 + Z.of_nat k) tt E s
     = Done (if g (i0 + Z.of_nat k) then Return r else Next tt) s) ->
  (exists k, (k < n)%nat /\ g (i0 + Z.of_nat k) = true) ->
  iter_ret n i0 body tt E s = Done (Return r) s.
Proof.
  revert i0. induction n as [|n IH]; intros i0 Hb (k & Hk & Hg); [lia|]. cbn [iter_ret].
  pose proof (Hb 0%nat ltac:(lia)) as H0. rewrite Z.add_0_r in H0.
  erewrite bind_done by exact H0. destruct (g i0) eqn:Hg0; [done|]. apply IH.
  - intros j Hj. specialize (Hb (S j) ltac:(lia)). by replace (i0 + 1 + Z.of_nat j) with (i0 + Z.of_nat (S j)) by lia.
  - destruct k as [|k]; [rewrite Z.add_0_r in Hg; congruence|]. exists k. split; [lia|].
    by replace (i0 + 1 + Z.of_nat k) with (i0 + Z.of_nat (S k)) by lia.
Qed.
Lemma frame_size tag L (base h : gmap nat block) : frame tag L base h -> size h = (length L + size base)%nat.
Proof.
  intros (m & -> & Hdj & Hnd & Hd & _). rewrite map_size_disj_union by done. f_equal.
  rewrite <-size_dom. replace (dom m) with (list_to_set L : gset nat).
  - by apply size_list_to_set.
  - apply set_eq. intros b. rewrite elem_of_list_to_set, elem_of_dom. symmetry. apply Hd.
Qed.

Lemma pooling_too_large m p T nb nc sd ks ss ps ls o E s :
  wf s -> alloc_all E -> holds (heap s) p T ->
  a_dims T = nb :: nc :: sd -> (1 <= length sd <= 3)%nat -> Forall (fun d => d <= 2 ^ 62) sd ->
  length ks = length sd -> length ps = length sd -> length ls = length sd ->
  (forall i k q l, ks !! i = Some k -> ps !! i = Some q -> ls !! i = Some l -> sane1 k q l) ->
  (exists i d k q l, sd !! i = Some d /\ ks !! i = Some k /\ ps !! i = Some q /\ ls !! i = Some l /\
     d + 2 * q < l * (k - 1) + 1) ->
  exists s', aitisa_pooling (HPtr p) m ks ss ps ls o E s = Done (INVALID_ARGUMENT, o) s' /\
    heap s ⊆ heap s' /\ size (heap s') = (6 + size (heap s))%nat.
Proof.
  intros Hwf HE HT Hdim Hrank Hsmall L1 L2 L3 Hsane (j & d & k & q & l & Hd & Hk & Hq & Hl & Hbig).
  pose proof (holds_valid _ _ _ HT) as [Hfit _].
  destruct HT as (_ & bA & tgA & exA & Hv & Hx). rewrite Hdim in Hv, Hfit.
  assert (Forall (fun d => 0 <= d) (nb :: nc :: sd)) as Hnn by apply Hfit.
  apply Forall_cons in Hnn as [Hn0 Hnn]. apply Forall_cons in Hnn as [Hn1 Hnn].
  unfold aitisa_pooling. erewrite bind_done by (by eapply tensor_ndim_ok).
  replace ((2 <? Z.of_nat (length (nb :: nc :: sd))) && (Z.of_nat (length (nb :: nc :: sd)) <? 6)) with true
    by (cbn [length]; lia).
  unfold pooling_double.
  erewrite bind_done by (by eapply tensor_ndim_ok).
  erewrite bind_done by (by eapply tensor_dims_ok).
  set (n := Z.of_nat (length (nb :: nc :: sd))).
  assert (0 <= 8 * n <= PTRDIFF_MAX) as Hsz by (unfold n; cbn [length]; llia).
  match goal with |- exists s', ?mm E s = _ /\ _ =>
    assert (wp mm E s (fun r s' => r = (INVALID_ARGUMENT, o) /\ heap s ⊆ heap s' /\ size (heap s') = (6 + size (heap s))%nat))
      as Hw; [|unfold wp in Hw; destruct (mm E s) as [r s'| | |]; [|done|done|done];
               destruct Hw as (-> & H1 & H2); eauto] end.
  eapply wp_scr0; [done|done|done|apply frame_nil|]. intros c1 s1 W1 F1 R1 C1 S1.
  eapply wp_scr0; [done|done|done|exact F1|]. intros c2 s2 W2 F2 R2 C2 S2.
  eapply wp_scr0; [done|done|done|exact F2|]. intros c3 s3 W3 F3 R3 C3 S3.
  eapply wp_scr0; [done|done|done|exact F3|]. intros c4 s4 W4 F4 R4 C4 S4.
  eapply wp_scr0; [done|done|done|exact F4|]. intros c5 s5 W5 F5 R5 C5 S5.
  eapply wp_scr0; [done|done|done|exact F5|]. intros c6 s6 W6 F6 R6 C6 S6.
  eapply wp_step.
  { apply (iter_ret_find (fun i => default 0 (sd !! Z.to_nat i) + 2 * default 0 (ps !! Z.to_nat i) <?
        default 0 (ls !! Z.to_nat i) * (default 0 (ks !! Z.to_nat i) - 1) + 1) INVALID_ARGUMENT).
    - intros i Hi. rewrite Z.add_0_l. assert (i < length sd)%nat as Hi' by (unfold n in Hi; cbn [length] in Hi; lia).
      destruct (lookup_lt_is_Some_2 sd i Hi') as [di Hdi].
      destruct (lookup_lt_is_Some_2 ks i ltac:(lia)) as [ki Hki].
      destruct (lookup_lt_is_Some_2 ps i ltac:(lia)) as [qi Hqi].
      destruct (lookup_lt_is_Some_2 ls i ltac:(lia)) as [li Hli].
      destruct (Hsane i ki qi li Hki Hqi Hli) as (H1 & H2 & H3 & H4 & H5).
      pose proof (Forall_lookup_1 _ _ _ _ Hsmall Hdi) as H6. pose proof (Forall_lookup_1 _ _ _ _ Hnn Hdi) as H7.
      cbv beta in H6, H7. assert (ki <= INT_MAX /\ 0 <= li * (ki - 1)) as [H8 H9] by nia.
      erewrite bind_done by (by apply aget_nat).
      erewrite bind_done by (by apply aget_nat).
      erewrite bind_done by (apply ck32_ok; llia).
      erewrite bind_done by (apply ck32_ok; llia).
      erewrite bind_done by (apply ck32_ok; llia).
      erewrite bind_done by (by apply aget_nat).
      erewrite bind_done by (apply ck32_ok; llia).
      replace (Z.of_nat i + 2) with (Z.of_nat (S (S i))) by lia.
      erewrite bind_done by (by apply aget_nat).
      erewrite bind_done by (apply ck64_ok; llia).
      rewrite !Nat2Z.id, Hdi, Hki, Hqi, Hli. cbn [default]. unfold id.
      replace (2 * qi + di <? (ki - 1) * li + 1) with (di + 2 * qi <? li * (ki - 1) + 1) by lia.
      by destruct (_ <? _).
    - exists j. assert (j < length sd)%nat as Hj by (by eapply lookup_lt_Some).
      split; [unfold n; cbn [length]; lia|]. rewrite Z.add_0_l, Nat2Z.id, Hd, Hk, Hq, Hl. unfold default, from_option, id. by apply Z.ltb_lt. }
  cbv beta match. apply wp_ret. split; [done|]. split; [by eapply frame_sub|].
  by rewrite (frame_size _ _ _ _ F6).
Qed.
