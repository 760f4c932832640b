(** * ProofScale: scaling by an integer scalar, without a bound on the scalar *)
From stdpp Require Import gmap list.
From Coq Require Import ZArith Lia Reals Lra Floats.SpecFloat.
From Coq Require Import ZifyBool ZifyNat.
From Flocq Require Import Core IEEE754.BinarySingleNaN.
From Verif Require Import Base Mem Spec SpecReal SpecExact SpecScale ModelCore ModelBasic ModelMath Logic ProofCore ProofCore2 ProofCore3
  ProofIndex ProofKernel ProofKernel2 ProofBasic ProofMath ProofFloat ProofFloat2 ProofFloat3 ProofCast ProofSqrt ProofMatmul ProofDot ProofDot2 ProofExact.
From Verif Require ProofNorm2.
Open Scope Z_scope.

(** ** Integers as doubles *)
Lemma rnd_rnd64 x : rnd F64 x = rnd64 x. Proof. reflexivity. Qed.
Lemma round_int z : exists w, nearest_double z w.
Proof.
  unfold nearest_double. rewrite rnd_rnd64. destruct (Z_le_gt_dec (Z.abs z) (2 ^ 53)) as [H|H].
  - exists z. symmetry. by apply rnd64_int.
  - assert (IZR z <> 0)%R as Hnz by (apply not_0_IZR; lia).
    assert (54 <= mag radix2 (IZR z)) as Hm.
    { apply mag_ge_bpow. rewrite <-abs_IZR, bpow_IZR by lia. apply IZR_le. change (54 - 1) with 53. lia. }
    set (e := cexp radix2 (SpecFloat.fexp 53 1024) (IZR z)).
    assert (0 <= e) as He by (unfold e, cexp, SpecFloat.fexp, SpecFloat.emin; lia).
    exists (ZnearestE (scaled_mantissa radix2 (SpecFloat.fexp 53 1024) (IZR z)) * 2 ^ e).
    unfold rnd64, round, Defs.F2R. cbn [Defs.Fnum Defs.Fexp]. fold e. rewrite mult_IZR, bpow_IZR by done. reflexivity.
Qed.
Lemma nearest_unique z w w' : nearest_double z w -> nearest_double z w' -> w = w'.
Proof. unfold nearest_double. intros H1 H2. apply eq_IZR. congruence. Qed.
Lemma nearest_small z : Z.abs z <= 2 ^ 53 -> nearest_double z z.
Proof. intros H. unfold nearest_double. rewrite rnd_rnd64. symmetry. by apply rnd64_int. Qed.
Lemma nearest_mono z z' w w' : nearest_double z w -> nearest_double z' w' -> z <= z' -> w <= w'.
Proof.
  unfold nearest_double. intros H1 H2 Hz. apply le_IZR. rewrite H1, H2, !rnd_rnd64.
  pose proof fexp64_valid. apply round_le; [apply _|apply _|]. by apply IZR_le.
Qed.
Lemma nearest_lit z w : INT64_MIN <= z <= 2 ^ 64 -> RV (flt_of_Z F64 z) = IZR w -> nearest_double z w.
Proof. intros Hz H. unfold nearest_double. rewrite <-H. apply flt_of_Z_rnd. done. Qed.

(** The values that stop fitting. *)
Lemma nearest_i64 z w : INT64_MIN <= z <= 2 ^ 63 - 1 -> nearest_double z w -> (w <= 2 ^ 63 - 1 <-> z < 2 ^ 63 - 512).
Proof.
  intros Hz Hw.
  assert (nearest_double (2 ^ 63 - 512) (2 ^ 63)) as H1.
  { apply nearest_lit; [by vm_compute|]. replace (flt_of_Z F64 (2 ^ 63 - 512)) with (S754_finite false 4503599627370496 11) by (vm_compute; reflexivity).
    unfold SF2R, Defs.F2R. cbn [Defs.Fnum Defs.Fexp cond_Zopp]. rewrite bpow_IZR, <-mult_IZR by lia. reflexivity. }
  assert (nearest_double (2 ^ 63 - 513) (2 ^ 63 - 1024)) as H2.
  { apply nearest_lit; [by vm_compute|]. replace (flt_of_Z F64 (2 ^ 63 - 513)) with (S754_finite false 9007199254740991 10) by (vm_compute; reflexivity).
    unfold SF2R, Defs.F2R. cbn [Defs.Fnum Defs.Fexp cond_Zopp]. rewrite bpow_IZR, <-mult_IZR by lia. reflexivity. }
  split; intros H.
  - destruct (Z_lt_ge_dec z (2 ^ 63 - 512)) as [?|Hge]; [done|]. pose proof (nearest_mono _ _ _ _ H1 Hw ltac:(lia)). lia.
  - pose proof (nearest_mono _ _ _ _ Hw H2 ltac:(lia)). lia.
Qed.
Lemma nearest_u64 z w : 0 <= z <= 2 ^ 64 - 1 -> nearest_double z w -> (w <= 2 ^ 64 - 1 <-> z < 2 ^ 64 - 1024).
Proof.
  intros Hz Hw.
  assert (nearest_double (2 ^ 64 - 1024) (2 ^ 64)) as H1.
  { apply nearest_lit; [by vm_compute|]. replace (flt_of_Z F64 (2 ^ 64 - 1024)) with (S754_finite false 4503599627370496 12) by (vm_compute; reflexivity).
    unfold SF2R, Defs.F2R. cbn [Defs.Fnum Defs.Fexp cond_Zopp]. rewrite bpow_IZR, <-mult_IZR by lia. reflexivity. }
  assert (nearest_double (2 ^ 64 - 1025) (2 ^ 64 - 2048)) as H2.
  { apply nearest_lit; [by vm_compute|]. replace (flt_of_Z F64 (2 ^ 64 - 1025)) with (S754_finite false 9007199254740991 11) by (vm_compute; reflexivity).
    unfold SF2R, Defs.F2R. cbn [Defs.Fnum Defs.Fexp cond_Zopp]. rewrite bpow_IZR, <-mult_IZR by lia. reflexivity. }
  split; intros H.
  - destruct (Z_lt_ge_dec z (2 ^ 64 - 1024)) as [?|Hge]; [done|]. pose proof (nearest_mono _ _ _ _ H1 Hw ltac:(lia)). lia.
  - pose proof (nearest_mono _ _ _ _ Hw H2 ltac:(lia)). lia.
Qed.
Lemma nearest_low z w : INT64_MIN <= z -> nearest_double z w -> INT64_MIN <= w.
Proof.
  intros Hz Hw. assert (nearest_double INT64_MIN INT64_MIN) as H1.
  { apply nearest_lit; [by vm_compute|]. replace (flt_of_Z F64 INT64_MIN) with (S754_finite true 4503599627370496 11) by (vm_compute; reflexivity).
    unfold SF2R, Defs.F2R. cbn [Defs.Fnum Defs.Fexp cond_Zopp]. rewrite bpow_IZR, <-mult_IZR by lia. reflexivity. }
  by eapply nearest_mono.
Qed.
Lemma nearest_pos z w : 0 <= z -> nearest_double z w -> 0 <= w.
Proof. intros Hz Hw. by eapply (nearest_mono 0 z 0 w); [apply nearest_small|..]. Qed.
(** Which scalars fit, for every type. *)
Lemma nearest_fits t z w : is_float t = false -> tmin t <= z <= tmax t -> nearest_double z w ->
  (tmin t <= w <= tmax t <-> match t with I64 => z < 2 ^ 63 - 512 | U64 => z < 2 ^ 64 - 1024 | _ => True end).
Proof.
  intros Ht Hz Hw. assert (t = I64 \/ t = U64 \/ (t <> I64 /\ t <> U64)) as [->|[->|[H1 H2]]] by (destruct t; auto; right; right; done).
  - change (tmin I64) with INT64_MIN in *. change (tmax I64) with (2 ^ 63 - 1) in *.
    pose proof (nearest_low z w ltac:(lia) Hw). pose proof (nearest_i64 z w ltac:(lia) Hw). tauto.
  - change (tmin U64) with 0 in *. change (tmax U64) with (2 ^ 64 - 1) in *.
    pose proof (nearest_pos z w ltac:(lia) Hw). pose proof (nearest_u64 z w ltac:(lia) Hw). tauto.
  - assert (val_ok t (VI z)) as Hv by (split; done).
    pose proof (small_ints t (VI z) Hv H1 H2 z eq_refl) as Hs.
    rewrite (nearest_unique _ _ _ Hw (nearest_small z Hs)). destruct t; try done; tauto.
Qed.

Lemma double_scalar t z w : is_float t = false -> tmin t <= z <= tmax t -> nearest_double z w ->
  to_double t (VI z) = Some (dbl_of_Z z) /\ of_double t (dbl_of_Z z) = if in_range t w then Some (VI w) else None.
Proof.
  intros Ht Hz Hw. cbn [to_double]. rewrite Ht. split; [done|]. unfold of_double. rewrite Ht.
  change (dbl_of_Z z) with (flt_of_Z F64 z).
  destruct (flt_of_Z_rnd F64 z) as [Hf Hr].
  { revert Hz. unfold tmin, tmax, INT64_MIN, bits. destruct t; try done; cbn; lia. }
  rewrite flt_trunc_ok by done. rewrite Hr, <-Hw, Ztrunc_IZR. done.
Qed.

(** ** The call *)
Section scale.
Context (p1 p2 : nat) (T1 T2 : atensor) (o : hval) (E : env) (s : st).
Context (Hwf : wf s) (HA : alloc_all E) (HE : hooks_ok E)
  (H1 : holds (heap s) p1 T1) (H2 : holds (heap s) p2 T2)
  (Hty : a_type T2 = a_type T1)
  (Hc1 : dev_type (a_dev T1) = 0) (Hc2 : dev_type (a_dev T2) = 0).
Let t := a_type T1.

(** What remains after the scalar has been read. *)
Definition rest (big : nat) (TB : atensor) (x : spec_float) : M (status * hval) :=
  let* (s, new) := aitisa_full (dtype_of t) (a_dev T1) (a_dims TB) (Z.of_nat (length (a_dims TB))) x HUndef in
  if negb (bool_decide (s = SUCCESS)) then ret (s, o)
  else
    let* (s, o) := aitisa_mul new (HPtr big) o in
    let* _ := aitisa_destroy new in
    ret (s, o).
Lemma scalar_read big small TB TS x v :
  holds (heap s) big TB -> holds (heap s) small TS -> a_type TS = t ->
  a_vals TS = [v] -> to_double t v = Some x ->
  (let* out_ndim := tensor_ndim (HPtr big) in
    let* out_dims := tensor_dims (HPtr big) in
    let* (s, value) := dot_get_value (HPtr small) 0 in
    if negb (bool_decide (s = SUCCESS)) then ret (s, o)
    else
      let* (s, new) := aitisa_full (dtype_of t) (a_dev T1) out_dims out_ndim value HUndef in
      if negb (bool_decide (s = SUCCESS)) then ret (s, o)
      else
        let* (s, o) := aitisa_mul new (HPtr big) o in
        let* _ := aitisa_destroy new in
        ret (s, o)) E s = rest big TB x E s.
Proof using Type.
  intros HB HS HtS HvS Hx.
  open_holds HB HvB HxB. open_holds HS HvS' HxS.
  erewrite bind_done by (by eapply tensor_ndim_ok).
  erewrite bind_done by (by eapply tensor_dims_ok).
  assert (dot_get_value (HPtr small) 0 E s = Done (SUCCESS, x) s) as Hg.
  { unfold dot_get_value. erewrite bind_done by (by eapply tensor_dtype_ok).
    rewrite dispatch_all_t. erewrite bind_done by (by eapply tensor_data_ok).
    erewrite bind_done.
    2:{ change 0 with (Z.of_nat 0). eapply loadi_cells; [exact HxS|]. by rewrite HvS. }
    erewrite bind_done by (apply opt_ok; rewrite HtS; exact Hx). done. }
  erewrite bind_done by exact Hg. cbv beta match. rewrite bool_decide_eq_true_2 by done. cbn [negb]. reflexivity.
Qed.
Lemma enter_left x v : a_dims T1 = [] -> a_vals T1 = [v] -> to_double t v = Some x ->
  aitisa_dot (HPtr p1) (HPtr p2) o E s = rest p2 T2 x E s.
Proof using All.
  intros D1 Hv Hx.
  rewrite (dot_unfold p1 p2 T1 T2) by done. rewrite D1. cbn [length].
  change (Z.of_nat 0 =? 1) with false. change (Z.of_nat 0 =? 2) with false.
  change (Z.of_nat 0 =? 0) with true. cbn [andb orb]. unfold scalar_tensor_mul.
  rewrite <-(scalar_read p2 p1 T2 T1 x v H2 H1 eq_refl Hv Hx).
  open_holds H1 Hv1 Hx1. open_holds H2 Hv2 Hx2.
  erewrite bind_done by (by eapply tensor_ndim_ok).
  erewrite bind_done by (by eapply tensor_ndim_ok).
  erewrite bind_done by (by eapply tensor_dtype_ok).
  erewrite bind_done by (by eapply tensor_device_ok). cbv zeta.
  rewrite D1. cbn [length]. replace (Z.of_nat (length (a_dims T2)) <? Z.of_nat 0) with false by lia. reflexivity.
Qed.
Lemma enter_right x v : a_dims T2 = [] -> a_dims T1 <> [] -> a_vals T2 = [v] -> to_double t v = Some x ->
  aitisa_dot (HPtr p1) (HPtr p2) o E s = rest p1 T1 x E s.
Proof using All.
  intros D2 D1 Hv Hx.
  assert (0 < Z.of_nat (length (a_dims T1))) as Hl by (destruct (a_dims T1); [done|cbn; lia]).
  rewrite (dot_unfold p1 p2 T1 T2) by done. rewrite D2. cbn [length].
  change (Z.of_nat 0 =? 1) with false. change (Z.of_nat 0 =? 2) with false.
  change (Z.of_nat 0 =? 0) with true. rewrite !andb_false_r, orb_true_r. unfold scalar_tensor_mul.
  rewrite <-(scalar_read p1 p2 T1 T2 x v H1 H2 Hty Hv Hx).
  open_holds H1 Hv1 Hx1. open_holds H2 Hv2 Hx2.
  erewrite bind_done by (by eapply tensor_ndim_ok).
  erewrite bind_done by (by eapply tensor_ndim_ok).
  erewrite bind_done by (by eapply tensor_dtype_ok).
  erewrite bind_done by (by eapply tensor_device_ok). cbv zeta.
  rewrite D2. cbn [length]. replace (Z.of_nat 0 <? Z.of_nat (length (a_dims T1))) with true by lia. reflexivity.
Qed.

Lemma rest_range big TB x : holds (heap s) big TB -> a_type TB = t -> of_double t x = None -> rest big TB x E s = UB UB_fconv.
Proof using Hwf HA.
  intros HB HtB Hx. pose proof (valid_fits _ (holds_valid _ _ _ HB)) as Hfit. rewrite HtB in Hfit.
  unfold rest, bind. by rewrite (full_unfit t (a_dev T1) (a_dims TB) x HUndef E s Hwf Hfit HA Hx).
Qed.
Lemma defined_replicate op v ys : Forall2 (op_defined t op) (replicate (length ys) v) ys <-> Forall (op_defined t op v) ys.
Proof using Type.
  induction ys as [|y ys IH]; cbn; [by split; constructor|]. split.
  - intros H. inversion H; subst. constructor; [done|]. by apply IH.
  - intros H. inversion H; subst. constructor; [done|]. by apply IH.
Qed.
Lemma rest_overflow big TB x v : holds (heap s) big TB -> a_type TB = t -> dev_type (a_dev TB) = 0 -> init TB ->
  of_double t x = Some v -> ~ (prodZ (a_dims TB) <= INT_MAX /\ Forall (op_defined t OpMul v) (a_vals TB)) ->
  rest big TB x E s = UB UB_overflow.
Proof using Hwf HA Hc1.
  intros HB HtB Hcb Hi Hx Hn. pose proof (holds_valid _ _ _ HB) as HvB. pose proof (valid_fits _ HvB) as Hfit. rewrite HtB in Hfit.
  destruct (Z_lt_le_dec INT_MAX (prodZ (a_dims TB))) as [Hbig|Hmax].
  { unfold rest, bind. by rewrite (full_too_big t (a_dev T1) (a_dims TB) x v HUndef E s Hwf Hfit HA Hx Hbig). }
  unfold rest.
  destruct (makes_or_nomem_alloc _ _ _ HUndef _ _ HA
    (full_rule t (a_dev T1) (a_dims TB) x v HUndef E s Hwf Hfit Hmax Hx)) as (s1 & q & Hm & Hc).
  erewrite bind_done by exact Hm. cbv beta match. rewrite bool_decide_eq_true_2 by done. cbn [negb].
  pose proof (created_wf _ _ _ _ _ _ Hwf Hc) as Hwf1.
  pose proof (created_holds _ _ _ _ _ _ Hc) as HN.
  pose proof (holds_mono _ _ _ _ (created_sub _ _ _ _ _ _ Hc) HB) as HB1.
  unfold bind. unfold aitisa_mul. rewrite (binary_stuck OpMul q big _ TB o E s1 Hwf1 HA HN HB1); try done.
  - unfold init. cbn [a_type a_vals]. apply Forall_replicate. by eapply ProofNorm2.of_double_ok.
  - cbn [a_vals a_dims a_type]. rewrite (valid_len_nat _ HvB), defined_replicate. done.
Qed.
End scale.

Lemma scale_left p1 p2 T1 T2 o E s z w :
  wf s -> alloc_all E -> hooks_ok E -> holds (heap s) p1 T1 -> holds (heap s) p2 T2 ->
  a_type T2 = a_type T1 -> dev_type (a_dev T1) = 0 -> dev_type (a_dev T2) = 0 ->
  a_dims T1 = [] -> a_vals T1 = [VI z] -> init T1 -> init T2 -> nearest_double z w ->
  scales (aitisa_dot (HPtr p1) (HPtr p2) o) E s (a_type T1) (a_dev T1) T2 w.
Proof.
  intros Hwf HA HE H1 H2 Hty Hc1 Hc2 D1 Hv Hi1 Hi2 Hw.
  assert (val_ok (a_type T1) (VI z)) as [Ht Hz] by (unfold init in Hi1; rewrite Hv in Hi1; by apply Forall_cons_1, proj1 in Hi1).
  destruct (double_scalar _ _ _ Ht Hz Hw) as [Hx Hx'].
  split.
  - intros Hr Hmax Hd. apply in_range_spec in Hr as Hr'. rewrite Hr' in Hx'. unfold init in Hi2. rewrite Hty in Hi2.
    destruct (scale_vals T1 (VI w) (a_vals T2) ltac:(done) Hi2 Hd) as (ws & Hw1 & Hw2).
    exists ws. split; [done|]. by eapply scalar_left.
  - intros Hr Hn. apply in_range_spec in Hr as Hr'. rewrite Hr' in Hx'.
    rewrite (enter_left p1 p2 T1 T2 o E s) with (x := dbl_of_Z z) (v := VI z) by done. by eapply rest_overflow.
  - intros Hr. destruct (in_range (a_type T1) w) eqn:Hir; [by apply in_range_spec in Hir|].
    rewrite (enter_left p1 p2 T1 T2 o E s) with (x := dbl_of_Z z) (v := VI z) by done. by eapply rest_range.
Qed.
Lemma scale_right p1 p2 T1 T2 o E s z w :
  wf s -> alloc_all E -> hooks_ok E -> holds (heap s) p1 T1 -> holds (heap s) p2 T2 ->
  a_type T2 = a_type T1 -> dev_type (a_dev T1) = 0 -> dev_type (a_dev T2) = 0 ->
  a_dims T2 = [] -> a_dims T1 <> [] -> a_vals T2 = [VI z] -> init T1 -> init T2 -> nearest_double z w ->
  scales (aitisa_dot (HPtr p1) (HPtr p2) o) E s (a_type T1) (a_dev T1) T1 w.
Proof.
  intros Hwf HA HE H1 H2 Hty Hc1 Hc2 D2 D1 Hv Hi1 Hi2 Hw.
  assert (val_ok (a_type T1) (VI z)) as [Ht Hz] by (unfold init in Hi2; rewrite Hv, Hty in Hi2; by apply Forall_cons_1, proj1 in Hi2).
  destruct (double_scalar _ _ _ Ht Hz Hw) as [Hx Hx'].
  split.
  - intros Hr Hmax Hd. apply in_range_spec in Hr as Hr'. rewrite Hr' in Hx'. unfold init in Hi1.
    destruct (scale_vals T1 (VI w) (a_vals T1) ltac:(done) Hi1 Hd) as (ws & Hw1 & Hw2).
    exists ws. split; [done|]. by eapply scalar_right.
  - intros Hr Hn. apply in_range_spec in Hr as Hr'. rewrite Hr' in Hx'.
    rewrite (enter_right p1 p2 T1 T2 o E s) with (x := dbl_of_Z z) (v := VI z) by done. by eapply rest_overflow.
  - intros Hr. destruct (in_range (a_type T1) w) eqn:Hir; [by apply in_range_spec in Hir|].
    rewrite (enter_right p1 p2 T1 T2 o E s) with (x := dbl_of_Z z) (v := VI z) by done. by eapply rest_range.
Qed.
