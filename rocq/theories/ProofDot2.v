(** * ProofDot2: scaling by a scalar *)
From stdpp Require Import gmap list.
From Coq Require Import ZArith Lia Floats.SpecFloat.
From Coq Require Import ZifyBool ZifyNat.
From Verif Require Import Base Mem Spec SpecReal ModelCore ModelBasic ModelMath Logic ProofCore ProofCore2 ProofCore3
  ProofIndex ProofKernel ProofKernel2 ProofBasic ProofMath ProofFloat2 ProofCast ProofSqrt ProofMatmul ProofDot.
Open Scope Z_scope.

Lemma of_to_double t v : val_ok t v -> (forall z, v = VI z -> Z.abs z <= 2 ^ 53) ->
  exists x, to_double t v = Some x /\ of_double t x = Some v.
Proof.
  intros Hv Hz. destruct v as [z|f|]; [| |done]; destruct Hv as [Ht Hr]; cbn [to_double]; rewrite Ht.
  - eexists. split; [done|]. unfold of_double. rewrite Ht.
    change (dbl_of_Z z) with (flt_of_Z F64 z).
    rewrite flt_of_Z_trunc by (by apply Hz).
    assert (in_range t z = true) as -> by (by apply in_range_spec). done.
  - eexists. split; [done|]. unfold of_double. rewrite Ht. do 2 f_equal.
    by apply flt_conv_back; destruct t.
Qed.

Section scalar.
Context (p1 p2 : nat) (T1 T2 : atensor) (o : hval) (E : env) (s : st).
Context (Hwf : wf s) (HA : alloc_all E) (HE : hooks_ok E)
  (H1 : holds (heap s) p1 T1) (H2 : holds (heap s) p2 T2)
  (Hty : a_type T2 = a_type T1)
  (Hc1 : dev_type (a_dev T1) = 0) (Hc2 : dev_type (a_dev T2) = 0).
Let t := a_type T1.

(** [TB] is scaled by the only element of [TS]. *)
Lemma scalar_core big small TB TS x v v' ws :
  holds (heap s) big TB -> holds (heap s) small TS -> a_type TB = t -> a_type TS = t ->
  dev_type (a_dev TB) = 0 ->
  prodZ (a_dims TB) <= INT_MAX -> a_vals TS = [v] ->
  to_double t v = Some x -> of_double t x = Some v' ->
  Forall2 (fun y w => bin_val t OpMul v' y = Some w) (a_vals TB) ws ->
  makes (let* out_ndim := tensor_ndim (HPtr big) in
    let* out_dims := tensor_dims (HPtr big) in
    let* (s, value) := dot_get_value (HPtr small) 0 in
    if negb (bool_decide (s = SUCCESS)) then ret (s, o)
    else
      let* (s, new) := aitisa_full (dtype_of t) (a_dev T1) out_dims out_ndim value HUndef in
      if negb (bool_decide (s = SUCCESS)) then ret (s, o)
      else
        let* (s, o) := aitisa_mul new (HPtr big) o in
        let* _ := aitisa_destroy new in
        ret (s, o)) E s (AT t (a_dev T1) (a_dims TB) ws).
Proof using Hwf HA HE Hc1.
  intros HB HS HtB HtS Hcb Hmax HvS Hx Hv' Hws.
  open_holds HB HvB HxB. open_holds HS HvS' HxS.
  pose proof (valid_fits _ HvT) as Hfit. rewrite HtB in Hfit.
  unfold makes, makes_k.
  erewrite bind_done by (by eapply tensor_ndim_ok).
  erewrite bind_done by (by eapply tensor_dims_ok).
  assert (dot_get_value (HPtr small) 0 E s = Done (SUCCESS, x) s) as Hg.
  { unfold dot_get_value. erewrite bind_done by (by eapply tensor_dtype_ok).
    rewrite dispatch_all_t. erewrite bind_done by (by eapply tensor_data_ok).
    erewrite bind_done.
    2:{ change 0 with (Z.of_nat 0). eapply loadi_cells; [exact HxS|]. by rewrite HvS. }
    erewrite bind_done by (apply opt_ok; rewrite HtS; exact Hx). done. }
  erewrite bind_done by exact Hg. cbv beta match. rewrite bool_decide_eq_true_2 by done. cbn [negb].
  destruct (makes_or_nomem_alloc _ _ _ HUndef _ _ HA
    (full_rule t (a_dev T1) (a_dims TB) x v' HUndef E s Hwf Hfit Hmax Hv')) as (s1 & q & Hm & Hc).
  erewrite bind_done by exact Hm. cbv beta match. rewrite bool_decide_eq_true_2 by done. cbn [negb].
  pose proof (created_wf _ _ _ _ _ _ Hwf Hc) as Hwf1.
  pose proof (created_holds _ _ _ _ _ _ Hc) as HN.
  pose proof (holds_mono _ _ _ _ (created_sub _ _ _ _ _ _ Hc) HB) as HB1.
  destruct (binary_rule OpMul q big _ TB ws o E s1 Hwf1 HA HN HB1) as (s2 & r & Hm2 & Hc'); try done.
  { cbn [a_vals a_type]. rewrite (valid_len_nat _ HvT).
    clear -Hws. induction Hws; constructor; auto. }
  erewrite bind_done by exact Hm2. cbv beta match.
  destruct (destroy_older _ _ _ _ _ _ _ _ HE Hc Hc') as (s3 & Hd & Hc3 & _).
  erewrite bind_done by exact Hd. exists s3, r. split; [done|]. exact Hc3.
Qed.

(** The scalar first *)
Lemma scalar_left x v v' ws :
  a_dims T1 = [] -> prodZ (a_dims T2) <= INT_MAX -> a_vals T1 = [v] ->
  to_double t v = Some x -> of_double t x = Some v' ->
  Forall2 (fun y w => bin_val t OpMul v' y = Some w) (a_vals T2) ws ->
  makes (aitisa_dot (HPtr p1) (HPtr p2) o) E s (AT t (a_dev T1) (a_dims T2) ws).
Proof using All.
  intros D1 Hmax Hv Hx Hv' Hws. unfold makes, makes_k.
  rewrite (dot_unfold p1 p2 T1 T2) by done. rewrite D1. cbn [length].
  change (Z.of_nat 0 =? 1) with false. change (Z.of_nat 0 =? 2) with false.
  change (Z.of_nat 0 =? 0) with true. cbn [andb orb]. unfold scalar_tensor_mul.
  open_holds H1 Hv1 Hx1. open_holds H2 Hv2 Hx2.
  erewrite bind_done by (by eapply tensor_ndim_ok).
  erewrite bind_done by (by eapply tensor_ndim_ok).
  erewrite bind_done by (by eapply tensor_dtype_ok).
  erewrite bind_done by (by eapply tensor_device_ok). cbv zeta.
  rewrite D1. cbn [length]. replace (Z.of_nat (length (a_dims T2)) <? Z.of_nat 0) with false by lia.
  exact (scalar_core p2 p1 T2 T1 x v v' ws H2 H1 Hty eq_refl Hc2 Hmax Hv Hx Hv' Hws).
Qed.
Lemma scalar_right x v v' ws :
  a_dims T2 = [] -> a_dims T1 <> [] -> prodZ (a_dims T1) <= INT_MAX -> a_vals T2 = [v] ->
  to_double t v = Some x -> of_double t x = Some v' ->
  Forall2 (fun y w => bin_val t OpMul v' y = Some w) (a_vals T1) ws ->
  makes (aitisa_dot (HPtr p1) (HPtr p2) o) E s (AT t (a_dev T1) (a_dims T1) ws).
Proof using All.
  intros D2 D1 Hmax Hv Hx Hv' Hws. unfold makes, makes_k.
  assert (0 < Z.of_nat (length (a_dims T1))) as Hl by (destruct (a_dims T1); [done|cbn; lia]).
  rewrite (dot_unfold p1 p2 T1 T2) by done. rewrite D2. cbn [length].
  change (Z.of_nat 0 =? 1) with false. change (Z.of_nat 0 =? 2) with false.
  change (Z.of_nat 0 =? 0) with true. rewrite !andb_false_r, orb_true_r. unfold scalar_tensor_mul.
  open_holds H1 Hv1 Hx1. open_holds H2 Hv2 Hx2.
  erewrite bind_done by (by eapply tensor_ndim_ok).
  erewrite bind_done by (by eapply tensor_ndim_ok).
  erewrite bind_done by (by eapply tensor_dtype_ok).
  erewrite bind_done by (by eapply tensor_device_ok). cbv zeta.
  rewrite D2. cbn [length]. replace (Z.of_nat 0 <? Z.of_nat (length (a_dims T1))) with true by lia.
  exact (scalar_core p1 p2 T1 T2 x v v' ws H1 H2 eq_refl Hty Hc1 Hmax Hv Hx Hv' Hws).
Qed.

Lemma scale_vals v ys : val_ok t v -> Forall (val_ok t) ys -> Forall (op_defined t OpMul v) ys ->
  exists ws, Forall2 (fun y w => bin_val t OpMul v y = Some w) ys ws /\
             Forall2 (fun y w => bin_spec t OpMul v y (Some w)) ys ws.
Proof using Type.
  intros Hv Hy Hd.
  induction ys as [|y ys IH]; [exists []; split; constructor|].
  apply Forall_cons in Hy as [Hy1 Hy2]. apply Forall_cons in Hd as [Hd1 Hd2].
  destruct (IH Hy2 Hd2) as (ws & Hw1 & Hw2).
  destruct (bin_vals t OpMul [v] [y]) as [l Hl]; [by repeat constructor..|].
  pose proof (bin_vals_spec t OpMul [v] [y] l ltac:(by repeat constructor) ltac:(by repeat constructor) Hl) as Hs.
  inversion Hl as [|? ? w ? ? ? Hw _]; subst. inversion Hs; subst.
  exists (w :: ws). split; by constructor.
Qed.

Lemma dot_scalar_left v :
  a_dims T1 = [] -> a_vals T1 = [v] -> prodZ (a_dims T2) <= INT_MAX -> init T1 -> init T2 ->
  (forall z, v = VI z -> Z.abs z <= 2 ^ 53) -> Forall (op_defined (a_type T1) OpMul v) (a_vals T2) ->
  exists ws, Forall2 (fun y w => bin_spec (a_type T1) OpMul v y (Some w)) (a_vals T2) ws /\
    makes (aitisa_dot (HPtr p1) (HPtr p2) o) E s (AT (a_type T1) (a_dev T1) (a_dims T2) ws).
Proof using All.
  intros D1 Hv Hmax Hi1 Hi2 Hz Hd. unfold init in *. rewrite Hv in Hi1. rewrite Hty in Hi2.
  apply Forall_cons_1, proj1 in Hi1. destruct (of_to_double _ _ Hi1 Hz) as (x & Hx & Hx').
  destruct (scale_vals v (a_vals T2) Hi1 Hi2 Hd) as (ws & Hw1 & Hw2).
  exists ws. split; [done|]. by eapply scalar_left.
Qed.
Lemma dot_scalar_right v :
  a_dims T2 = [] -> a_vals T2 = [v] -> prodZ (a_dims T1) <= INT_MAX -> init T1 -> init T2 ->
  a_dims T1 <> [] ->
  (forall z, v = VI z -> Z.abs z <= 2 ^ 53) -> Forall (op_defined (a_type T1) OpMul v) (a_vals T1) ->
  exists ws, Forall2 (fun y w => bin_spec (a_type T1) OpMul v y (Some w)) (a_vals T1) ws /\
    makes (aitisa_dot (HPtr p1) (HPtr p2) o) E s (AT (a_type T1) (a_dev T1) (a_dims T1) ws).
Proof using All.
  intros D2 Hv Hmax Hi1 Hi2 Hne Hz Hd. unfold init in *. rewrite Hv, Hty in Hi2.
  apply Forall_cons_1, proj1 in Hi2. destruct (of_to_double _ _ Hi2 Hz) as (x & Hx & Hx').
  destruct (scale_vals v (a_vals T1) Hi2 Hi1 Hd) as (ws & Hw1 & Hw2).
  exists ws. split; [done|]. by eapply scalar_right.
Qed.
End scalar.

(** All types but the 64-bit integers satisfy the exactness condition. *)
Lemma small_ints t v : val_ok t v -> t <> I64 -> t <> U64 -> forall z, v = VI z -> Z.abs z <= 2 ^ 53.
Proof.
  intros Hv H1 H2 z ->. destruct Hv as [Ht Hz].
  destruct t; try done; unfold tmin, tmax, bits in Hz; cbn in Hz; lia.
Qed.
