(** * ProofNeg2: element-wise arithmetic with negated operands *)
From stdpp Require Import gmap list.
From Coq Require Import ZArith Lia Floats.SpecFloat.
From Verif Require Import Base Mem Spec SpecUnit SpecRing SpecNeg ModelCore ModelMath Logic ProofCore ProofCore2
  ProofIndex ProofKernel ProofMath ProofUnit ProofUnit2 ProofExp4 ProofNeg.
Open Scope Z_scope.

Lemma div_opp_r t x y : flt_op t OpDiv x (SFopp y) = SFopp (flt_op t OpDiv x y).
Proof.
  unfold flt_op, SFdiv. destruct x as [s|s| |s m e], y as [s'|s'| |s' m' e']; cbn [SFopp]; try (by destruct s, s'); try done.
  destruct (SFdiv_core_binary _ _ _ _ _ _) as [[mz ez] lz]. rewrite <-round_aux_opp. f_equal. by destruct s, s'.
Qed.
Lemma div_opp_l t x y : flt_op t OpDiv (SFopp x) y = SFopp (flt_op t OpDiv x y).
Proof.
  unfold flt_op, SFdiv. destruct x as [s|s| |s m e], y as [s'|s'| |s' m' e']; cbn [SFopp]; try (by destruct s, s'); try done.
  destruct (SFdiv_core_binary _ _ _ _ _ _) as [[mz ez] lz]. rewrite <-round_aux_opp. f_equal. by destruct s, s'.
Qed.
Lemma sub_opp t x y : norm (flt_op t OpSub (SFopp x) (SFopp y)) = norm (SFopp (flt_op t OpSub x y)).
Proof.
  unfold flt_op. destruct x as [s|s| |s n e], y as [u|u| |u k f]; try (by destruct s, u); try (by destruct s); try (by destruct u); try done.
  cbn [SFopp SFsub]. cbv zeta. rewrite <-(normalize_opp _ _ _ _ false false). f_equal. f_equal. destruct s, u; cbn [cond_Zopp negb]; lia.
Qed.

Lemma floats_of T : is_float (a_type T) = true -> init T -> exists xs : list spec_float, a_vals T = VF <$> xs.
Proof.
  unfold init. intros Hf. generalize (a_vals T) as l. induction 1 as [|v l Hv _ [xs ->]]; [by exists []|].
  destruct v as [z|f|]; [destruct Hv; congruence|by exists (f :: xs)|done].
Qed.
Lemma neg_floats (xs : list spec_float) : neg_val <$> (VF <$> xs) = VF <$> (SFopp <$> xs).
Proof. induction xs as [|x xs IH]; [done|]. cbn [fmap list_fmap]. rewrite neg_opp. f_equal. exact IH. Qed.
Lemma bin_floats t op (xs ys : list spec_float) : is_float t = true -> length ys = length xs ->
  Forall3 (fun x y w => bin_val t op x y = Some w) (VF <$> xs) (VF <$> ys) (VF <$> zip_with (flt_op t op) xs ys).
Proof.
  intros Ht. revert ys. induction xs as [|x xs IH]; intros [|y ys] Hl; try done; [constructor|]. cbn. constructor; [cbn; by rewrite Ht|].
  apply IH. cbn in Hl. lia.
Qed.
Lemma vals_length A B (xs ys : list spec_float) : valid A -> valid B -> a_dims B = a_dims A -> a_vals A = VF <$> xs -> a_vals B = VF <$> ys -> length ys = length xs.
Proof.
  intros VA VB Hd HA HB. pose proof (valid_len _ VA). pose proof (valid_len _ VB). rewrite HA, HB, Hd, !fmap_length in *. lia.
Qed.
(** Tensors of the same floating type and the same shape, which the operations accept *)
Section elementwise.
  Context (A B : atensor) (VA : valid A) (VB : valid B) (IA : init A) (IB : init B) (Hf : is_float (a_type A) = true).
  Context (Ht : a_type B = a_type A) (Hd : a_dims B = a_dims A) (DA : dev_type (a_dev A) = 0) (DB : dev_type (a_dev B) = 0).
  Context (Hn : prodZ (a_dims A) <= INT_MAX).
  Definition ew (op : binop) (xs ys : list spec_float) : atensor := AT (a_type A) (a_dev A) (a_dims A) (VF <$> zip_with (flt_op (a_type A) op) xs ys).
  Lemma ew_gives op X Y xs ys : a_vals X = VF <$> xs -> a_vals Y = VF <$> ys -> length ys = length xs ->
    a_type X = a_type A -> a_type Y = a_type A -> a_dims X = a_dims A -> a_dims Y = a_dims A -> a_dev X = a_dev A -> dev_type (a_dev Y) = 0 ->
    gives (aitisa_binary_op op) X Y (ew op xs ys).
  Proof using Hf DA DB Hn.
    intros Ex Ey Hl TX TY SX SY VX VY p1 p2 o E s W HE H1 H2. unfold ew. rewrite <-TX, <-VX, <-SX.
    apply (binary_rule op p1 p2 X Y); try done; try congruence. rewrite Ex, Ey, TX. by apply bin_floats.
  Qed.
  Lemma ew_exact op : op = OpMul \/ op = OpDiv -> exists C,
    gives (aitisa_binary_op op) A B C /\ gives (aitisa_binary_op op) (negated A) (negated B) C /\
    gives (aitisa_binary_op op) (negated A) B (negated C) /\ gives (aitisa_binary_op op) A (negated B) (negated C).
  Proof using VA VB IA IB Hf Ht Hd DA DB Hn.
    intros Hop. destruct (floats_of A Hf IA) as [xs Ex]. destruct (floats_of B) as [ys Ey]; [by rewrite Ht|done|].
    pose proof (vals_length A B xs ys VA VB Hd Ex Ey) as Hl.
    assert (forall x y, flt_op (a_type A) op (SFopp x) y = SFopp (flt_op (a_type A) op x y)) as H1.
    { intros x y. destruct Hop as [-> | ->]; [|apply div_opp_l]. by rewrite (mul_comm _ (SFopp x)), mul_opp, mul_comm. }
    assert (forall x y, flt_op (a_type A) op x (SFopp y) = SFopp (flt_op (a_type A) op x y)) as H2.
    { intros x y. destruct Hop as [-> | ->]; [apply mul_opp|apply div_opp_r]. }
    assert (forall xs ys, zip_with (flt_op (a_type A) op) (SFopp <$> xs) ys = SFopp <$> zip_with (flt_op (a_type A) op) xs ys) as L1.
    { clear -H1. induction xs as [|x xs IH]; intros [|y ys]; try done. cbn. rewrite H1. f_equal. apply IH. }
    assert (forall xs ys, zip_with (flt_op (a_type A) op) xs (SFopp <$> ys) = SFopp <$> zip_with (flt_op (a_type A) op) xs ys) as L2.
    { clear -H2. induction xs as [|x xs IH]; intros [|y ys]; try done. cbn. rewrite H2. f_equal. apply IH. }
    assert (negated (ew op xs ys) = ew op (SFopp <$> xs) ys) as N1.
    { unfold negated, ew. cbn [a_type a_dev a_dims a_vals]. by rewrite neg_floats, L1. }
    exists (ew op xs ys). split_and!.
    - by apply ew_gives.
    - replace (ew op xs ys) with (ew op (SFopp <$> xs) (SFopp <$> ys)).
      + apply ew_gives; try done; cbn [negated a_vals]; [by rewrite Ex, neg_floats|by rewrite Ey, neg_floats|by rewrite !fmap_length].
      + unfold ew. rewrite L1, L2. do 2 f_equal. rewrite <-list_fmap_compose. rewrite <-(list_fmap_id (zip_with _ xs ys)) at 2.
        apply list_fmap_ext. intros ? f _. apply SFopp_opp.
    - rewrite N1. apply ew_gives; try done; cbn [negated a_vals]; [by rewrite Ex, neg_floats|by rewrite fmap_length].
    - rewrite N1. replace (ew op (SFopp <$> xs) ys) with (ew op xs (SFopp <$> ys)) by (unfold ew; by rewrite L1, L2).
      apply ew_gives; try done; cbn [negated a_vals]; [by rewrite Ey, neg_floats|by rewrite fmap_length].
  Qed.
  Lemma ew_sum op : op = OpAdd \/ op = OpSub -> exists C C', opposite C C' /\
    gives (aitisa_binary_op op) A B C /\ gives (aitisa_binary_op op) (negated A) (negated B) C'.
  Proof using VA VB IA IB Hf Ht Hd DA DB Hn.
    intros Hop. destruct (floats_of A Hf IA) as [xs Ex]. destruct (floats_of B) as [ys Ey]; [by rewrite Ht|done|].
    pose proof (vals_length A B xs ys VA VB Hd Ex Ey) as Hl.
    exists (ew op xs ys), (ew op (SFopp <$> xs) (SFopp <$> ys)). split_and!.
    - split_and!; try done. unfold ew. cbn [a_vals].
      assert (forall x y, norm (flt_op (a_type A) op (SFopp x) (SFopp y)) = norm (SFopp (flt_op (a_type A) op x y))) as H1.
      { intros x y. destruct Hop as [-> | ->]; [by apply add_opp|apply sub_opp]. }
      clear -H1. revert ys. induction xs as [|x xs IH]; intros [|y ys]; try done. cbn [fmap list_fmap zip_with].
      rewrite neg_opp, !unsign_norm, H1. f_equal. apply IH.
    - by apply ew_gives.
    - apply ew_gives; try done; cbn [negated a_vals]; [by rewrite Ex, neg_floats|by rewrite Ey, neg_floats|by rewrite !fmap_length].
  Qed.
End elementwise.
