(** * ProofNeg5: the positive and the negative part of a tensor of floats *)
From stdpp Require Import gmap list.
From Coq Require Import ZArith Lia Reals Lra Floats.SpecFloat.
From Flocq Require Import Core IEEE754.BinarySingleNaN.
From Verif Require Import Base Mem Spec SpecReal SpecNN SpecUnit SpecRing SpecCommute SpecNeg ModelCore ModelMath ModelNN Logic ProofCore ProofCore2
  ProofKernel ProofMath ProofNN ProofLaws ProofUnit ProofUnit2 ProofNeg ProofNeg2 ProofNeg3 PropNN.
Open Scope Z_scope.

Definition above (f : spec_float) : bool := match f with S754_infinity s | S754_finite s _ _ => negb s | _ => false end.
Definition rl (f : spec_float) : spec_float := if above f then f else fzero.
Lemma positive_above f : positive (VF f) <-> above f = true.
Proof.
  destruct f as [s|s| |s m e]; cbn [positive above].
  - split; [|done]. intros [H|H]; [cbn in H; lra|done].
  - destruct s; split; try done; [intros [H|H]; [cbn in H; lra|done]|intros _; by right].
  - split; [|done]. intros [H|H]; [cbn in H; lra|done].
  - split.
    + intros [H|H]; [|done]. destruct s; [|done]. exfalso. revert H. unfold SF2R. apply Rle_not_lt, F2R_le_0. done.
    + intros H. left. destruct s; [done|]. unfold SF2R. apply F2R_gt_0. done.
Qed.
Lemma relu_rl t f : is_float t = true -> relu_spec t (VF f) (VF (rl f)).
Proof.
  intros Ht. unfold relu_spec, rl, zero_val. rewrite Ht. rewrite positive_above. by destruct (above f).
Qed.
Lemma part_diff t f : f <> S754_nan -> flt_op t OpSub (rl f) (rl (SFopp f)) = norm f.
Proof. destruct f as [[]|[]| |[] m e]; done. Qed.
Lemma part_sum t f : f <> S754_nan -> flt_op t OpAdd (rl f) (rl (SFopp f)) = SFabs f.
Proof. destruct f as [[]|[]| |[] m e]; done. Qed.

Lemma relu_parts ex A : valid A -> init A -> is_float (a_type A) = true -> dev_type (a_dev A) = 0 -> prodZ (a_dims A) <= INT_MAX ->
  Forall (fun v => v <> VF S754_nan) (a_vals A) ->
  exists P N, gives1 ex aitisa_relu A P /\ gives1 ex aitisa_relu (negated A) N /\
    gives (aitisa_binary_op OpSub) P N (AT (a_type A) (a_dev A) (a_dims A) (unsign_zero <$> a_vals A)) /\
    gives (aitisa_binary_op OpAdd) P N (AT (a_type A) (a_dev A) (a_dims A) (abs_val <$> a_vals A)).
Proof.
  intros V I Hf D Hn Hnan. destruct (floats_of A Hf I) as [xs Ex].
  set (P := AT (a_type A) (a_dev A) (a_dims A) (VF <$> (rl <$> xs))).
  set (N := AT (a_type A) (a_dev A) (a_dims A) (VF <$> (rl <$> (SFopp <$> xs)))).
  assert (forall ys : list spec_float, Forall2 (relu_spec (a_type A)) (VF <$> ys) (VF <$> (rl <$> ys))) as HR.
  { induction ys as [|y ys IH]; [constructor|]. cbn [fmap list_fmap]. constructor; [by apply relu_rl|exact IH]. }
  assert (Forall (fun f => f <> S754_nan) xs) as Hx.
  { apply Forall_forall. intros x Hx ->. rewrite Ex, Forall_forall in Hnan. apply (Hnan (VF S754_nan)); [|done]. apply elem_of_list_fmap. eauto. }
  clear Hnan.
  exists P, N. split_and!.
  - intros p o E s W HE HK _ Hh. apply (makes_enough E HE _ s o). apply C37_relu; try done. rewrite Ex. apply HR.
  - intros p o E s W HE HK _ Hh. apply (makes_enough E HE _ s o). apply (C37_relu p (negated A)); try done; [by apply init_neg|].
    cbn [negated a_vals a_type]. rewrite Ex, neg_floats. apply HR.
  - intros p1 p2 o E s W HE H1 H2.
    replace (unsign_zero <$> a_vals A) with (VF <$> zip_with (flt_op (a_type A) OpSub) (rl <$> xs) (rl <$> (SFopp <$> xs))).
    + apply (binary_rule OpSub p1 p2 P N); try done. apply bin_floats; [done|by rewrite !fmap_length].
    + rewrite Ex. clear -Hx. induction Hx as [|x xs Hx _ IH]; [done|]. cbn [fmap list_fmap zip_with]. rewrite part_diff, unsign_norm.
      * f_equal. exact IH.
      * done.
  - intros p1 p2 o E s W HE H1 H2.
    replace (abs_val <$> a_vals A) with (VF <$> zip_with (flt_op (a_type A) OpAdd) (rl <$> xs) (rl <$> (SFopp <$> xs))).
    + apply (binary_rule OpAdd p1 p2 P N); try done. apply bin_floats; [done|by rewrite !fmap_length].
    + rewrite Ex. clear -Hx. induction Hx as [|x xs Hx _ IH]; [done|]. cbn [fmap list_fmap zip_with]. rewrite part_sum.
      * f_equal; [by destruct x|exact IH].
      * done.
Qed.
