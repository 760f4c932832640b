(** * ProofLaws: relations between the results of different calls *)
From stdpp Require Import gmap list.
From Coq Require Import ZArith Znumtheory Lia Floats.SpecFloat Reals.
From Coq Require Import ZifyBool ZifyNat.
From Flocq Require Import Core BinarySingleNaN.
From Verif Require Import Base Mem Spec SpecReal SpecNN ModelCore ModelBasic ModelMath ModelNN.
From Verif Require Import Logic ProofCore ProofCore2 ProofCast ProofFloat2 ProofFloat3 ProofMatmul ProofSqrt ProofKernel2 ProofSlice ProofNorm3.
From Verif Require Import PropBasic PropBasic2 PropMath PropDot PropNN.
Open Scope Z_scope.

Lemma makes_enough E (HE : alloc_all E) m s o T : makes_or_nomem m E s o T -> makes m E s T.
Proof. by intros [H|[H _]]. Qed.

(** ** Elementwise arithmetic *)
Lemma comm_spec t o a b w : o = OpAdd \/ o = OpMul -> bin_spec t o a b w -> bin_spec t o b a w.
Proof.
  intros Ho. destruct a as [x|x|], b as [y|y|]; cbn [bin_spec]; try done.
  - assert (e : op_int o y x = op_int o x y) by (destruct Ho as [->| ->]; cbn; lia).
    assert (d : int_defined t o y x <-> int_defined t o x y).
    { unfold int_defined. rewrite e. destruct Ho as [->| ->]; (split; intros [_ ?]; (split; [discriminate|done])). }
    rewrite e, d. done.
  - assert (e1 : op_special o y x = op_special o x y).
    { destruct Ho as [->| ->]; destruct x as [[|]|[|]| |[|] ? ?], y as [[|]|[|]| |[|] ? ?]; reflexivity. }
    assert (e2 : op_real o (RV y) (RV x) = op_real o (RV x) (RV y)) by (destruct Ho as [->| ->]; cbn; ring).
    assert (e3 : forall e, op_sign o y x e = op_sign o x y e).
    { intros e. destruct Ho as [->| ->]; cbn; [by rewrite andb_comm|by rewrite xorb_comm]. }
    rewrite e1, e2. intros (r & H1 & H2 & H3). exists r. split_and!; [done..|]. destruct (op_special o x y); [done|].
    cbv zeta in *. by rewrite e3.
Qed.
Lemma defined_comm t o a b : o = OpAdd \/ o = OpMul -> op_defined t o a b -> op_defined t o b a.
Proof.
  intros Ho. destruct a as [x|x|], b as [y|y|]; cbn [op_defined]; try done.
  assert (e : op_int o y x = op_int o x y) by (destruct Ho as [->| ->]; cbn; lia).
  unfold int_defined. rewrite e. destruct Ho as [->| ->]; (intros [_ ?]; (split; [discriminate|done])).
Qed.

Lemma pointwise t o (xs ys ws zs : list val) :
  Forall3 (fun x y w => bin_spec t o x y (Some w)) xs ys ws ->
  Forall3 (fun x y w => bin_spec t o x y (Some w)) xs ys zs -> ws = zs.
Proof.
  intros H. revert zs. induction H as [|x y w xs ys ws H1 H2 IH]; intros zs H3; inversion H3; subst; [done|].
  f_equal; [|by apply IH]. pose proof (bin_spec_unique _ _ _ _ _ _ H1 H7). congruence.
Qed.

Lemma commute o p1 p2 T1 T2 o1 o2 E s : o = OpAdd \/ o = OpMul ->
  wf s -> alloc_all E -> holds (heap s) p1 T1 -> holds (heap s) p2 T2 ->
  a_type T2 = a_type T1 -> a_dims T2 = a_dims T1 -> dev_type (a_dev T1) = 0 -> dev_type (a_dev T2) = 0 ->
  prodZ (a_dims T1) <= INT_MAX -> init T1 -> init T2 -> Forall2 (op_defined (a_type T1) o) (a_vals T1) (a_vals T2) ->
  exists ws, makes (aitisa_binary_op o (HPtr p1) (HPtr p2) o1) E s (AT (a_type T1) (a_dev T1) (a_dims T1) ws) /\
             makes (aitisa_binary_op o (HPtr p2) (HPtr p1) o2) E s (AT (a_type T1) (a_dev T2) (a_dims T1) ws).
Proof.
  intros Ho W HE H1 H2 Ht Hd D1 D2 Hn I1 I2 Hdef.
  destruct (C26_arithmetic o p1 p2 T1 T2 o1 E s) as (ws & K1 & K2); [done..|].
  destruct (C26_arithmetic o p2 p1 T2 T1 o2 E s) as (zs & L1 & L2); [try done..|].
  { by rewrite Hd. }
  { rewrite Ht. apply Forall2_flip. eapply Forall2_impl; [exact Hdef|]. intros a b. by apply defined_comm. }
  exists ws. split; [done|]. rewrite Ht, Hd in L2. rewrite Ht in L1.
  replace ws with zs; [done|]. eapply pointwise; [exact L1|].
  clear -K1 Ho. induction K1; constructor; [by apply comm_spec|done].
Qed.

Lemma on_self o p T f o1 E s : wf s -> alloc_all E -> holds (heap s) p T -> dev_type (a_dev T) = 0 ->
  prodZ (a_dims T) <= INT_MAX -> init T ->
  Forall (fun v => op_defined (a_type T) o v v /\ bin_spec (a_type T) o v v (Some (f v))) (a_vals T) ->
  makes (aitisa_binary_op o (HPtr p) (HPtr p) o1) E s (AT (a_type T) (a_dev T) (a_dims T) (f <$> a_vals T)).
Proof.
  intros W HE H D Hn I F.
  destruct (C26_arithmetic o p p T T o1 E s) as (ws & K1 & K2); [done..| |].
  { clear -F. induction F as [|v vs [? ?] ? IH]; by constructor. }
  replace (f <$> a_vals T) with ws; [done|]. eapply pointwise; [exact K1|].
  clear -F. induction F as [|v vs [? ?] ? IH]; by constructor.
Qed.

Lemma sub_self_int p T o E s : wf s -> alloc_all E -> holds (heap s) p T -> dev_type (a_dev T) = 0 ->
  prodZ (a_dims T) <= INT_MAX -> init T -> is_float (a_type T) = false ->
  makes (aitisa_sub (HPtr p) (HPtr p) o) E s (AT (a_type T) (a_dev T) (a_dims T) (replicate (length (a_vals T)) (VI 0))).
Proof.
  intros W HE H D Hn I Hf.
  replace (replicate (length (a_vals T)) (VI 0)) with ((fun _ => VI 0) <$> a_vals T).
  2: { clear. induction (a_vals T); [done|]. cbn. by f_equal. }
  apply on_self; [done..|]. eapply Forall_impl; [exact I|]. intros [x|x|] V; [|destruct V as [V _]; by rewrite Hf in V|done].
  cbn [op_defined bin_spec].
  assert (int_defined (a_type T) OpSub x x).
  { split; [done|]. cbn. rewrite Z.sub_diag. by destruct (a_type T). }
  split; [done|]. split; [|done]. intros _. exists 0. cbn. rewrite Z.sub_diag. split; [done|]. split; [|done].
  unfold tmin, tmax, bits. by destruct (a_type T).
Qed.

Lemma sub_self_float p T o E s : wf s -> alloc_all E -> holds (heap s) p T -> dev_type (a_dev T) = 0 ->
  prodZ (a_dims T) <= INT_MAX -> init T -> Forall (fun v => exists f, v = VF f /\ is_finite_SF f = true) (a_vals T) ->
  makes (aitisa_sub (HPtr p) (HPtr p) o) E s (AT (a_type T) (a_dev T) (a_dims T) (replicate (length (a_vals T)) (VF (S754_zero false)))).
Proof.
  intros W HE H D Hn I Hf.
  replace (replicate (length (a_vals T)) (VF (S754_zero false))) with ((fun _ => VF (S754_zero false)) <$> a_vals T).
  2: { clear. induction (a_vals T); [done|]. cbn. by f_equal. }
  apply on_self; [done..|]. eapply Forall_impl; [exact Hf|]. intros v (f & -> & V).
  split; [done|]. cbn [bin_spec]. exists (S754_zero false). split; [done|]. split; [done|].
  assert (op_special OpSub f f = None) as -> by (by destruct f). cbn [op_real op_sign].
  rewrite Rminus_diag_eq by done. unfold rnd. rewrite round_0 by apply valid_rnd_N. rewrite Rabs_R0.
  split.
  - intros _. split; [done|]. split; [done|]. cbn. rewrite Req_bool_true by done. by destruct (sign_SF f).
  - intros Hb. exfalso. apply (Rlt_not_le _ _ (bpow_gt_0 radix2 (femax (a_type T)))). exact Hb.
Qed.

Lemma add_sub1 t x y w : val_ok t x -> val_ok t y -> is_float t = false -> bin_spec t OpAdd x y (Some w) ->
  op_defined t OpAdd x y -> val_ok t w /\ op_defined t OpSub w y /\ bin_spec t OpSub w y (Some x).
Proof.
  destruct x as [x|x|], y as [y|y|]; try done; [|by intros [-> _]..].
  intros [_ Vx] [_ Vy] Ht [H _] Hd. destruct (H Hd) as (r & [= ->] & Hr & Hm). cbn [op_defined bin_spec op_int] in *.
  assert (Hs : int_defined t OpSub r y).
  { split; [done|]. destruct Hd as [_ Hd]. cbn [op_int] in *.
    assert (t = I32 \/ t = I64 -> r = x + y) as K.
    { intros K. rewrite <-(wrap_id t r Hr), (wrap_eqm t r (x + y)) by done. apply wrap_id.
      unfold tmin, tmax, bits. destruct K as [->| ->]; cbn in *; lia. }
    clear Hm H. unfold tmin, tmax, bits in *. destruct t; try done; cbn in *; try lia; rewrite K by auto; lia. }
  split; [done|]. split; [done|]. split; [|done]. intros _. exists x. split; [done|]. split; [done|].
  rewrite Zminus_mod, Hm, <-Zminus_mod. f_equal. lia.
Qed.
Lemma add_sub p1 p2 T1 T2 o E s :
  wf s -> alloc_all E -> holds (heap s) p1 T1 -> holds (heap s) p2 T2 ->
  a_type T2 = a_type T1 -> a_dims T2 = a_dims T1 -> dev_type (a_dev T1) = 0 -> dev_type (a_dev T2) = 0 ->
  prodZ (a_dims T1) <= INT_MAX -> init T1 -> init T2 -> is_float (a_type T1) = false ->
  Forall2 (op_defined (a_type T1) OpAdd) (a_vals T1) (a_vals T2) ->
  exists T3, makes (aitisa_add (HPtr p1) (HPtr p2) o) E s T3 /\
    forall p3 p2' o' E' s', wf s' -> alloc_all E' -> holds (heap s') p3 T3 -> holds (heap s') p2' T2 ->
      makes (aitisa_sub (HPtr p3) (HPtr p2') o') E' s' T1.
Proof.
  intros W HE H1 H2 Ht Hd D1 D2 Hn I1 I2 Hf Hdef.
  destruct (C26_arithmetic OpAdd p1 p2 T1 T2 o E s) as (ws & K1 & K2); [done..|].
  eexists. split; [exact K2|]. intros p3 p2' o' E' s' W' HE' H3 H2'.
  assert (F : init (AT (a_type T1) (a_dev T1) (a_dims T1) ws) /\
    Forall2 (op_defined (a_type T1) OpSub) ws (a_vals T2) /\
    Forall3 (fun x y w => bin_spec (a_type T1) OpSub x y (Some w)) ws (a_vals T2) (a_vals T1)).
  { unfold init in *. cbn [a_type a_vals]. rewrite Ht in I2. clear -K1 I1 I2 Hdef Hf.
    revert I1 I2 Hdef. induction K1 as [|x y w xs ys ws H1 H2 IH]; intros I1 I2 Hdef; [split_and!; constructor|].
    inversion I1; subst. inversion I2; subst. inversion Hdef; subst.
    destruct (add_sub1 _ _ _ _ H3 H5 Hf H1) as (A1 & A2 & A3); [done|]. destruct IH as (B1 & B2 & B3); [done..|].
    split_and!; by constructor. }
  destruct F as (F1 & F2 & F3).
  destruct (C26_arithmetic OpSub p3 p2' (AT (a_type T1) (a_dev T1) (a_dims T1) ws) T2 o' E' s') as (zs & L1 & L2); [done..|].
  cbn [a_type a_dev a_dims a_vals] in *. rewrite (pointwise _ _ _ _ _ _ L1 F3) in L2. by destruct T1.
Qed.

Lemma div_self p T o E s : wf s -> alloc_all E -> holds (heap s) p T -> dev_type (a_dev T) = 0 ->
  prodZ (a_dims T) <= INT_MAX -> init T -> is_float (a_type T) = false -> VI 0 ∉ a_vals T ->
  makes (aitisa_div (HPtr p) (HPtr p) o) E s (AT (a_type T) (a_dev T) (a_dims T) (replicate (length (a_vals T)) (VI 1))).
Proof.
  intros W HE H D Hn I Hf Hz.
  replace (replicate (length (a_vals T)) (VI 1)) with ((fun _ => VI 1) <$> a_vals T).
  2: { clear. induction (a_vals T); [done|]. cbn. by f_equal. }
  apply on_self; [done..|]. apply Forall_forall. intros v Hv. unfold init in I. rewrite Forall_forall in I. specialize (I v Hv).
  destruct v as [x|x|]; [|destruct I as [V _]; by rewrite Hf in V|done].
  assert (x <> 0) by (intros ->; by apply Hz). cbn [op_defined bin_spec].
  assert (int_defined (a_type T) OpDiv x x).
  { split; [done|]. cbn. rewrite Z.quot_same by done. by destruct (a_type T). }
  split; [done|]. split; [|done]. intros _. exists 1. cbn. rewrite Z.quot_same by done. split; [done|]. split; [|done].
  unfold tmin, tmax, bits. by destruct (a_type T).
Qed.

(** ** Conversions and shapes *)
Lemma wrap_wrap t u z : bits t <= bits u -> wrap t (wrap u z) = wrap t z.
Proof.
  intros Hb. apply wrap_eqm. pose proof (wrap_congr u z) as H.
  assert (0 <= bits t) by (by destruct t).
  assert (D : (2 ^ bits t | 2 ^ bits u)) by (exists (2 ^ (bits u - bits t)); rewrite <-Z.pow_add_r by lia; f_equal; lia).
  rewrite (Zmod_div_mod (2 ^ bits t) (2 ^ bits u) (wrap u z)), H, <-Zmod_div_mod; try done; apply Z.pow_pos_nonneg; lia.
Qed.

Lemma cast_cast p T t2 t3 o E s : wf s -> alloc_all E -> holds (heap s) p T -> init T ->
  is_float (a_type T) = false -> is_float t2 = false -> is_float t3 = false -> bits t3 <= bits t2 ->
  t2 <> a_type T -> t3 <> t2 -> fits (tsz t2) (a_dims T) ->
  exists T2 ws, makes (aitisa_cast (HPtr p) (dtype_of t2) o) E s T2 /\
    (forall p' o' E' s', wf s' -> alloc_all E' -> holds (heap s') p' T2 ->
       makes (aitisa_cast (HPtr p') (dtype_of t3) o') E' s' (AT t3 (a_dev T) (a_dims T) ws)) /\
    (t3 <> a_type T -> forall p' o' E' s', wf s' -> alloc_all E' -> holds (heap s') p' T ->
       makes (aitisa_cast (HPtr p') (dtype_of t3) o') E' s' (AT t3 (a_dev T) (a_dims T) ws)) /\
    (t3 = a_type T -> ws = a_vals T).
Proof.
  intros W HE H I F1 F2 F3 Hb N2 N3 Hfit.
  set (g (t : tcode) (v : val) := match v with VI z => VI (wrap t z) | _ => v end).
  assert (C : forall t vs, is_float t = false -> Forall (val_ok (a_type T)) vs ->
    Forall2 (fun v w => cast_val (a_type T) t v = Some w) vs (g t <$> vs)).
  { intros t vs Ft Hvs. induction Hvs as [|v vs Hv Hvs IH]; [constructor|]. cbn. constructor; [|done].
    destruct v as [z|f|]; cbn [val_ok] in Hv; [|by rewrite F1 in Hv; destruct Hv|done]. cbn. by rewrite F1, Ft. }
  assert (Hfit3 : fits (tsz t3) (a_dims T)).
  { destruct Hfit as (f1 & f2 & f3). split_and!; [done..|]. unfold bits in Hb.
    assert (0 <= prodZ (Z.max 1 <$> a_dims T)); [|nia]. apply Z.lt_le_incl, prodZ_pos. apply Forall_fmap, Forall_forall. intros d _. cbn. lia. }
  exists (AT t2 (a_dev T) (a_dims T) (g t2 <$> a_vals T)), (g t3 <$> a_vals T). split_and!.
  - apply (makes_enough E HE _ _ o). apply C16_cast; [done..|by apply C].
  - intros p' o' E' s' W' HE' H'. apply (makes_enough E' HE' _ _ o').
    apply (C16_cast E' s' p' (AT t2 (a_dev T) (a_dims T) (g t2 <$> a_vals T)) t3 o' (g t3 <$> a_vals T)); [done..|].
    cbn [a_type a_vals]. clear -I F1 F2 F3 Hb. unfold init in I. induction I as [|v vs Hv Hvs IH]; [constructor|]. cbn. constructor; [|done].
    destruct v as [z|f|]; cbn [val_ok] in Hv; [|by rewrite F1 in Hv; destruct Hv|done]. cbn. rewrite F2, F3. by rewrite wrap_wrap.
  - intros N p' o' E' s' W' HE' H'. apply (makes_enough E' HE' _ _ o'). apply C16_cast; [done..|by apply C].
  - intros ->. clear -I F1. unfold init in I. induction I as [|v vs Hv Hvs IH]; [done|]. cbn. f_equal; [|done].
    destruct v as [z|f|]; cbn [val_ok] in Hv; [|by rewrite F1 in Hv; destruct Hv|done]. cbn. rewrite wrap_id; [done|apply Hv].
Qed.

Lemma reshape_reshape p T d1 d2 o E s : wf s -> alloc_all E -> holds (heap s) p T ->
  fits (tsz (a_type T)) d1 -> fits (tsz (a_type T)) d2 -> prodZ d1 = prodZ (a_dims T) -> prodZ d2 = prodZ (a_dims T) ->
  exists T1 T2, makes (aitisa_reshape (HPtr p) d1 (Z.of_nat (length d1)) o) E s T1 /\
    makes (aitisa_reshape (HPtr p) d2 (Z.of_nat (length d2)) o) E s T2 /\ (d2 = a_dims T -> T2 = T) /\
    forall p' o' E' s', wf s' -> alloc_all E' -> holds (heap s') p' T1 ->
      makes (aitisa_reshape (HPtr p') d2 (Z.of_nat (length d2)) o') E' s' T2.
Proof.
  intros W HE H f1 f2 e1 e2.
  exists (AT (a_type T) (a_dev T) d1 (a_vals T)), (AT (a_type T) (a_dev T) d2 (a_vals T)). split_and!.
  - apply (makes_enough E HE _ _ o). by apply C19_reshape.
  - apply (makes_enough E HE _ _ o). by apply C19_reshape.
  - intros ->. by destruct T.
  - intros p' o' E' s' W' HE' H'. apply (makes_enough E' HE' _ _ o').
    apply (C19_reshape p' (AT (a_type T) (a_dev T) d1 (a_vals T))); [done..|]. cbn. lia.
Qed.

Lemma cast_reshape p T t2 d o E s ws : wf s -> alloc_all E -> holds (heap s) p T -> t2 <> a_type T ->
  fits (tsz (a_type T)) d -> fits (tsz t2) d -> fits (tsz t2) (a_dims T) -> prodZ d = prodZ (a_dims T) ->
  Forall2 (fun v w => cast_val (a_type T) t2 v = Some w) (a_vals T) ws ->
  exists T1 T2 T3, makes (aitisa_cast (HPtr p) (dtype_of t2) o) E s T1 /\
    makes (aitisa_reshape (HPtr p) d (Z.of_nat (length d)) o) E s T2 /\
    (forall p' o' E' s', wf s' -> alloc_all E' -> holds (heap s') p' T1 ->
       makes (aitisa_reshape (HPtr p') d (Z.of_nat (length d)) o') E' s' T3) /\
    (forall p' o' E' s', wf s' -> alloc_all E' -> holds (heap s') p' T2 ->
       makes (aitisa_cast (HPtr p') (dtype_of t2) o') E' s' T3).
Proof.
  intros W HE H N f1 f2 f3 e F.
  exists (AT t2 (a_dev T) (a_dims T) ws), (AT (a_type T) (a_dev T) d (a_vals T)), (AT t2 (a_dev T) d ws). split_and!.
  - apply (makes_enough E HE _ _ o). by apply C16_cast.
  - apply (makes_enough E HE _ _ o). by apply C19_reshape.
  - intros p' o' E' s' W' HE' H'. apply (makes_enough E' HE' _ _ o').
    by apply (C19_reshape p' (AT t2 (a_dev T) (a_dims T) ws)).
  - intros p' o' E' s' W' HE' H'. apply (makes_enough E' HE' _ _ o').
    by apply (C16_cast E' s' p' (AT (a_type T) (a_dev T) d (a_vals T))).
Qed.

(** Removing the unit axes is a reshape. *)
Lemma prodZ_filter ds : prodZ (filter (fun d => d <> 1) ds) = prodZ ds.
Proof. induction ds as [|d ds IH]; [done|]. rewrite filter_cons, prodZ_cons. case_decide as Hd; rewrite ?prodZ_cons, IH; [done|]. replace d with 1 by lia. lia. Qed.
Lemma fits_filter n ds : fits n ds -> fits n (filter (fun d => d <> 1) ds).
Proof.
  intros (f1 & f2 & f3). split_and!.
  - apply Forall_forall. intros d [_ Hd]%elem_of_list_filter. rewrite Forall_forall in f1. by apply f1.
  - pose proof (filter_length (fun d => d <> 1) ds). lia.
  - replace (prodZ (Z.max 1 <$> filter (fun d => d <> 1) ds)) with (prodZ (Z.max 1 <$> ds)); [done|].
    clear. induction ds as [|d ds IH]; [done|]. rewrite filter_cons. cbn [fmap list_fmap]. rewrite prodZ_cons, IH.
    case_decide as Hd; cbn [fmap list_fmap]; rewrite ?prodZ_cons; [done|]. replace d with 1 by lia. apply Z.mul_1_l.
Qed.
Lemma squeeze_reshape p T o o' E s : wf s -> alloc_all E -> hooks_ok E -> holds (heap s) p T -> Forall (fun d => d <> 0) (a_dims T) ->
  let d := filter (fun d => d <> 1) (a_dims T) in
  exists T2, makes (aitisa_squeeze (HPtr p) [] 0 o) E s T2 /\ makes (aitisa_reshape (HPtr p) d (Z.of_nat (length d)) o') E s T2.
Proof.
  intros W HE HK H F d. eexists. split.
  - apply (makes_enough E HE _ _ o). by apply C20_squeeze_all.
  - apply (makes_enough E HE _ _ o'). pose proof (proj1 (proj1 H)) as Hfit. apply C19_reshape; [done..|by apply fits_filter|apply prodZ_filter].
Qed.

(** ** Slices *)
Lemma slice_full p T o o' E s : wf s -> alloc_all E -> hooks_ok E -> holds (heap s) p T -> a_dims T <> [] ->
  Forall (fun d => 0 < d <= INT_MAX) (a_dims T) -> prodZ (a_dims T) <= INT_MAX ->
  let n := length (a_dims T) in
  makes (aitisa_slice (HPtr p) (replicate n 0) (a_dims T) (replicate n 1) o) E s T /\
  makes (aitisa_duplicate (HPtr p) o') E s T.
Proof.
  intros W HE HK H Hne F Hn n. split; [|by apply C25_duplicate].
  assert (F1 : Forall (fun d => d <> 0) (a_dims T)) by (eapply Forall_impl; [exact F|]; cbn; lia).
  assert (e : slice_dims (a_dims T) (replicate n 1) = a_dims T) by (by apply slice_dims_ones).
  pose proof (C22_slice p T (replicate n 0) (a_dims T) (replicate n 1) o E s) as K. rewrite e in K.
  rewrite (tab_ext _ _ (at_ T)) in K.
  - rewrite tab_at in K by apply H. replace (AT _ _ _ _) with T in K by (by destruct T). apply K; [done..| |done].
    apply slice_ok_full; (eapply Forall_impl; [exact F|]; cbn; lia).
  - intros c Hc. f_equal. assert (Hl : length c = n) by (symmetry; by eapply Forall2_length).
    rewrite slice_src_ones; [|done|by rewrite replicate_length|done]. clear -Hl. subst n.
    revert c Hl. induction (length (a_dims T)) as [|k IH]; intros [|x c] Hl; try done. cbn. f_equal. apply IH. cbn in Hl. lia.
  - eapply Forall_impl; [exact F|]. cbn. lia.
Qed.

(** Slicing a slice is slicing once. *)
Fixpoint comp_begin (b1 t1 b2 : list Z) : list Z :=
  match b1, t1, b2 with b :: b1, t :: t1, c :: b2 => b + t * c :: comp_begin b1 t1 b2 | _, _, _ => [] end.
Definition comp_size (t1 s2 : list Z) : list Z := zip_with (fun t s => t * (s - 1) + 1) t1 s2.
Definition comp_step (t1 t2 : list Z) : list Z := zip_with Z.mul t1 t2.
Lemma cdiv_pos s t : 0 < s -> 0 < t -> cdiv s t = (s - 1) / t + 1.
Proof.
  intros Hs Ht. unfold cdiv. pose proof (Z.div_mod (s - 1) t ltac:(lia)). pose proof (Z.mod_pos_bound (s - 1) t Ht).
  replace (- s / t) with (- ((s - 1) / t + 1)); [lia|].
  apply (Z.div_unique _ _ _ (t - 1 - (s - 1) mod t)); [left; lia|]. lia.
Qed.
Lemma comp_ok ds b1 s1 t1 b2 s2 t2 : slice_ok ds b1 s1 t1 -> Forall (fun s => 0 < s) s1 -> Forall (fun s => 0 < s) s2 ->
  slice_ok (slice_dims s1 t1) b2 s2 t2 -> Forall (fun t => t <= INT_MAX) (comp_step t1 t2) ->
  slice_ok ds (comp_begin b1 t1 b2) (comp_size t1 s2) (comp_step t1 t2) /\
  slice_dims (comp_size t1 s2) (comp_step t1 t2) = slice_dims s2 t2 /\
  forall c, in_box (slice_dims s2 t2) c ->
    in_box (slice_dims s1 t1) (slice_src b2 s2 t2 c) /\
    slice_src (comp_begin b1 t1 b2) (comp_size t1 s2) (comp_step t1 t2) c = slice_src b1 s1 t1 (slice_src b2 s2 t2 c).
Proof.
  revert b1 s1 t1 b2 s2 t2. induction ds as [|d ds IH]; intros [|b b1] [|s s1] [|t t1] b2 s2 t2; try done.
  - cbn. destruct b2, s2, t2; try done. intros. split_and!; [done..|]. intros c Hc. inversion Hc; subst. split; [constructor|done].
  - cbn [slice_ok slice_dims]. intros [K1 K2] P1 P2 K3 K4. apply Forall_cons in P1 as [P1 P1'].
    replace (s =? 0) with false in * by lia. destruct b2 as [|b' b2], s2 as [|s' s2], t2 as [|t' t2]; try done.
    cbn [slice_ok] in K3. destruct K3 as [K3 K3']. apply Forall_cons in P2 as [P2 P2'].
    cbn [comp_step zip_with] in K4. apply Forall_cons in K4 as [K4 K4'].
    destruct (IH b1 s1 t1 b2 s2 t2 K2 P1' P2' K3' K4') as (I1 & I2 & I3).
    rewrite cdiv_pos in K3 by lia. cbn [comp_begin comp_size comp_step zip_with slice_ok slice_dims slice_src].
    fold (comp_size t1 s2) (comp_step t1 t2).
    pose proof (Z.div_mod (s - 1) t ltac:(lia)). pose proof (Z.mod_pos_bound (s - 1) t ltac:(lia)).
    set (q := (s - 1) / t) in *. set (m := (s - 1) mod t) in *.
    replace (t * (s' - 1) + 1 =? 0) with false by nia. replace (s' =? 0) with false by lia. replace (s =? 0) with false by lia.
    split_and!; [nia..|done| |].
    + rewrite I2. f_equal. rewrite !cdiv_pos by nia. f_equal. replace (t * (s' - 1) + 1 - 1) with (t * (s' - 1)) by lia. apply Z.div_mul_cancel_l; lia.
    + intros c Hc. inversion Hc as [|? i ? c' Hi Hc']; subst. destruct (I3 c' Hc') as [J1 J2]. rewrite cdiv_pos in Hi by lia.
      pose proof (Z.div_mod (s' - 1) t' ltac:(lia)). pose proof (Z.mod_pos_bound (s' - 1) t' ltac:(lia)). set (q' := (s' - 1) / t') in *.
      split.
      * constructor; [|done]. rewrite cdiv_pos by lia. fold q. nia.
      * rewrite J2. f_equal. ring.
Qed.
Lemma slice_slice p T b1 s1 t1 b2 s2 t2 o o' E s :
  wf s -> alloc_all E -> hooks_ok E -> holds (heap s) p T -> a_dims T <> [] ->
  slice_ok (a_dims T) b1 s1 t1 -> Forall (fun s => 0 < s) s1 -> prodZ (slice_dims s1 t1) <= INT_MAX ->
  slice_ok (slice_dims s1 t1) b2 s2 t2 -> Forall (fun s => 0 < s) s2 -> prodZ (slice_dims s2 t2) <= INT_MAX ->
  Forall (fun t => t <= INT_MAX) (comp_step t1 t2) ->
  exists T1 T2, makes (aitisa_slice (HPtr p) b1 s1 t1 o) E s T1 /\
    makes (aitisa_slice (HPtr p) (comp_begin b1 t1 b2) (comp_size t1 s2) (comp_step t1 t2) o') E s T2 /\
    forall p' o' E' s', wf s' -> alloc_all E' -> hooks_ok E' -> holds (heap s') p' T1 ->
      makes (aitisa_slice (HPtr p') b2 s2 t2 o') E' s' T2.
Proof.
  intros W HE HK H Hne O1 P1 N1 O2 P2 N2 O3.
  destruct (comp_ok _ _ _ _ _ _ _ O1 P1 P2 O2 O3) as (C1 & C2 & C3).
  eexists _, (AT (a_type T) (a_dev T) (slice_dims s2 t2) (tab (slice_dims s2 t2) (fun c => at_ T (slice_src b1 s1 t1 (slice_src b2 s2 t2 c))))).
  split_and!.
  - by apply C22_slice.
  - pose proof (C22_slice p T (comp_begin b1 t1 b2) (comp_size t1 s2) (comp_step t1 t2) o' E s) as K. rewrite C2 in K.
    rewrite (tab_ext _ _ (fun c => at_ T (slice_src b1 s1 t1 (slice_src b2 s2 t2 c)))) in K; [by apply K| |].
    + intros c Hc. f_equal. by apply C3.
    + eapply Forall_impl; [by eapply slice_dims_pos|]. cbn. lia.
  - intros p' o1 E' s' W' HE' HK' H'.
    set (T1 := AT _ _ _ _) in H'. pose proof (C22_slice p' T1 b2 s2 t2 o1 E' s') as K. cbn [a_type a_dev a_dims T1] in K.
    rewrite (tab_ext _ _ (fun c => at_ T (slice_src b1 s1 t1 (slice_src b2 s2 t2 c)))) in K.
    + apply K; [done..| |done|done]. destruct b1, s1, t1, (a_dims T); try done. cbn. cbn in O1. apply Forall_cons in P1 as [P1 _].
      by replace (z0 =? 0) with false by lia.
    + intros c Hc. unfold T1. rewrite at_tab; [done|]. by apply C3.
    + eapply Forall_impl; [by eapply slice_dims_pos|]. cbn. lia.
Qed.
