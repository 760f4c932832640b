(** * ProofUnit2: products with a unit matrix of floats *)
From stdpp Require Import gmap list list_numbers.
From Coq Require Import ZArith Lia Reals Lra Floats.SpecFloat.
From Coq Require Import ZifyBool ZifyNat.
From Flocq Require Import Core IEEE754.BinarySingleNaN.
From Verif Require Import Base Mem Spec SpecReal SpecNN SpecRing SpecUnit ModelCore ModelBasic ModelMath.
From Verif Require Import Logic ProofCore ProofCore2 ProofFloat ProofFloat2 ProofFloat3 ProofIndex ProofKernel ProofKernel2
  ProofMatmul ProofMatmul3 ProofPool3 ProofDot4 ProofLaws ProofUnit ProofRing PropMath2.
Open Scope Z_scope.
Ltac Zify.zify_post_hook ::= idtac.

Lemma mul_comm t x y : flt_op t OpMul x y = flt_op t OpMul y x.
Proof.
  unfold flt_op, SFmul. destruct x as [s|s| |s m e], y as [s'|s'| |s' m' e']; try (by rewrite xorb_comm); try done.
  by rewrite xorb_comm, Pos.mul_comm, Z.add_comm.
Qed.
Lemma mul_one t x : is_float t = true -> vb t x = true -> flt_op t OpMul x (flt_of_Z t 1) = x.
Proof.
  intros Ht V. destruct (flt_of_Z_exact t 1) as [F1 R1]; [destruct t; done|].
  assert (vb t (flt_of_Z t 1) = true) as V1 by (destruct t; try done; by vm_compute).
  destruct x as [s|s| |s m e]; [by destruct t, s|by destruct t, s|done|].
  destruct (flt_op_spec t OpMul (S754_finite s m e) (flt_of_Z t 1) V V1 eq_refl F1 ltac:(done)) as [H _].
  cbv zeta in H. cbn [op_real] in H. rewrite R1, Rmult_1_r in H.
  rewrite rnd_fmt in H by (by apply (fmt_val t)). destruct H as [Hf Hr].
  { by apply (val_small t). }
  symmetry. apply (SF_inj_nz t); [done|by apply (flt_op_valid t OpMul)|done|done|done|]. cbn [SF2R].
  destruct s; cbn [cond_Zopp]; [apply Rlt_not_eq, F2R_lt_0|apply Rgt_not_eq, F2R_gt_0]; done.
Qed.
Lemma mul_zero t x : is_finite_SF x = true -> exists s, flt_op t OpMul x fzero = S754_zero s.
Proof. destruct x as [s|s| |s m e]; try done; intros _; eexists; reflexivity. Qed.
Lemma add_zero t x s : is_finite_SF x = true -> flt_op t OpAdd (norm x) (S754_zero s) = norm x.
Proof. destruct x as [[]|?| |? ? ?], s; done. Qed.
Lemma zero_add t x : flt_op t OpAdd fzero x = norm x.
Proof. by destruct x as [[]|[]| |? ? ?]. Qed.

Lemma inner_unit_float t k j f : is_float t = true -> 0 <= j < k ->
  (forall q, 0 <= q < k -> vb t (f q) = true /\ is_finite_SF (f q) = true) ->
  inner t k (fun q => VF (f q)) (fun q => VF (flt_of_Z t (if q =? j then 1 else 0))) = Some (VF (norm (f j))).
Proof.
  intros Hf Hj Hr. rewrite inner_psum.
  assert (forall n, (n <= Z.to_nat k)%nat -> psum t (fun q => VF (f q)) (fun q => VF (flt_of_Z t (if q =? j then 1 else 0))) n
    = Some (VF (norm (if j <? Z.of_nat n then f j else fzero)))) as H.
  { induction n as [|n IH]; intros Hn.
    - cbn. unfold zero_val. rewrite Hf. destruct (Z.ltb_spec j (Z.of_nat 0)); [lia|]. done.
    - rewrite psum_S, IH by lia. cbn [mbind option_bind]. unfold mac_val. rewrite Hf.
      destruct (Hr (Z.of_nat n) ltac:(lia)) as [Vn Fn]. destruct (Hr j Hj) as [Vj Fj]. do 2 f_equal.
      destruct (Z.eqb_spec (Z.of_nat n) j) as [Hnj|Hnj].
      + rewrite Hnj in *. rewrite mul_one by done. destruct (Z.ltb_spec j j); [lia|].
        destruct (Z.ltb_spec j (Z.of_nat (S n))); [|lia]. change (norm fzero) with fzero. apply zero_add.
      + assert (flt_of_Z t 0 = fzero) as -> by (by destruct t). destruct (mul_zero t (f (Z.of_nat n)) Fn) as [s ->].
        rewrite add_zero by (destruct (_ <? _); done). f_equal.
        destruct (Z.ltb_spec j (Z.of_nat n)), (Z.ltb_spec j (Z.of_nat (S n))); try done; lia. }
  rewrite H by lia. destruct (Z.ltb_spec j (Z.of_nat (Z.to_nat k))); [done|lia].
Qed.
Lemma inner_comm_float t k f g : inner t k (fun q => VF (f q)) (fun q => VF (g q)) = inner t k (fun q => VF (g q)) (fun q => VF (f q)).
Proof.
  rewrite !inner_psum. generalize (Z.to_nat k). intros n. induction n as [|n IH]; [done|].
  rewrite !psum_S, IH. clear IH. destruct (psum _ _ _ n) as [[z|z|]|]; try done. cbn [mbind option_bind]. unfold mac_val.
  by rewrite mul_comm.
Qed.

Definition fv (T : atensor) (c : list Z) : spec_float := match at_ T c with VF f => f | _ => S754_nan end.
Lemma fv_at T c : valid T -> init T -> Forall finite_elem (a_vals T) ->
  in_box (a_dims T) c -> at_ T c = VF (fv T c) /\ vb (a_type T) (fv T c) = true /\ is_finite_SF (fv T c) = true.
Proof.
  intros Hv Hi Hf Hc. pose proof (at_elem T c Hv Hc) as He. unfold init in Hi. rewrite Forall_forall in Hi, Hf.
  specialize (Hi _ He). specialize (Hf _ He). unfold fv. destruct (at_ T c) as [z|f|]; try done. destruct Hi as [_ Hi].
  split_and!; [done|done|by destruct f].
Qed.
Lemma at_unsign T c : at_ (AT (a_type T) (a_dev T) (a_dims T) (unsign_zero <$> a_vals T)) c = unsign_zero (at_ T c).
Proof. unfold at_. cbn [a_vals a_dims]. rewrite list_lookup_fmap. by destruct (a_vals T !! _). Qed.
Lemma valid_unsign T : valid T -> valid (AT (a_type T) (a_dev T) (a_dims T) (unsign_zero <$> a_vals T)).
Proof. intros [V1 V2]. split; [exact V1|]. cbn [a_vals a_dims a_type]. by rewrite fmap_length. Qed.
Lemma unit_r_float t A U d m n : is_float t = true -> matrix t m n A ->
  Forall finite_elem (a_vals A) ->
  unit_matrix_float t d n U -> dev_type d = 0 -> m <= INT_MAX -> n <= INT_MAX -> m * n <= INT_MAX ->
  gives aitisa_matmul A U (AT (a_type A) (a_dev A) (a_dims A) (unsign_zero <$> a_vals A)).
Proof.
  intros Hf (V & I & Y & C & S) Hfin HU Hd Hm Hn Hmn p1 p2 o E s W HE H1 H2.
  pose proof HU as (VU & YU & DU & SU & EU). pose proof (valid_unsign A V) as VA.
  eapply makes_enough; [done|]. eapply (C31_matrix_matrix p1 p2 A U _ o E s); try done; try congruence.
  - cbn [a_dims]. rewrite S, !prodZ_cons, prodZ_nil. lia.
  - intros i j Hi Hj. rewrite Y.
    assert (forall q, 0 <= q < n -> at_ A [i; q] = VF (fv A [i; q]) /\ vb t (fv A [i; q]) = true /\ is_finite_SF (fv A [i; q]) = true) as HA.
    { intros q Hq. rewrite <-Y. apply fv_at; [done|done|done|]. rewrite S. apply box2. eauto. }
    rewrite (inner_ext t n _ _ (fun q => VF (fv A [i; q])) (fun q => VF (flt_of_Z t (if q =? j then 1 else 0)))).
    + rewrite inner_unit_float by (try done; intros; by apply HA). pose proof (at_unsign A [i; j]) as Hu. rewrite Y in Hu. rewrite Hu.
      destruct (HA j Hj) as [-> _]. by destruct (fv A [i; j]).
    + intros q Hq. split; [by apply HA|by apply EU].
Qed.
Lemma unit_l_float t A U d m n : is_float t = true -> matrix t m n A ->
  Forall finite_elem (a_vals A) ->
  unit_matrix_float t d m U -> d = a_dev A -> m <= INT_MAX -> n <= INT_MAX -> m * n <= INT_MAX ->
  gives aitisa_matmul U A (AT (a_type A) (a_dev A) (a_dims A) (unsign_zero <$> a_vals A)).
Proof.
  intros Hf (V & I & Y & C & S) Hfin HU Hd Hm Hn Hmn p1 p2 o E s W HE H1 H2.
  pose proof HU as (VU & YU & DU & SU & EU). pose proof (valid_unsign A V) as VA.
  eapply makes_enough; [done|]. eapply (C31_matrix_matrix p1 p2 U A _ o E s); try done; try congruence.
  - cbn [a_type]. congruence.
  - cbn [a_dev]. congruence.
  - cbn [a_dims]. rewrite S, !prodZ_cons, prodZ_nil. lia.
  - intros i j Hi Hj. rewrite YU.
    assert (forall q, 0 <= q < m -> at_ A [q; j] = VF (fv A [q; j]) /\ vb t (fv A [q; j]) = true /\ is_finite_SF (fv A [q; j]) = true) as HA.
    { intros q Hq. rewrite <-Y. apply fv_at; [done|done|done|]. rewrite S. apply box2. eauto. }
    rewrite (inner_ext t m _ _ (fun q => VF (flt_of_Z t (if q =? i then 1 else 0))) (fun q => VF (fv A [q; j]))).
    + rewrite inner_comm_float, inner_unit_float by (try done; intros; by apply HA). rewrite at_unsign.
      destruct (HA i Hi) as [-> _]. by destruct (fv A [i; j]).
    + intros q Hq. split; [rewrite EU by done; by rewrite Z.eqb_sym|by apply HA].
Qed.
