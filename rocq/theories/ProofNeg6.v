(** * ProofNeg6: differences of floats as sums, and with their operands swapped *)
From stdpp Require Import gmap list.
From Coq Require Import ZArith Lia Floats.SpecFloat.
From Verif Require Import Base Mem Spec SpecReal SpecNN SpecUnit SpecRing SpecCommute SpecNeg ModelCore ModelMath ModelNN Logic ProofCore ProofCore2
  ProofKernel ProofMath ProofLaws ProofUnit ProofUnit2 ProofNeg ProofNeg2 ProofNeg3.
Open Scope Z_scope.

Lemma sub_add t x y : flt_op t OpAdd x (SFopp y) = flt_op t OpSub x y.
Proof. destruct x as [[]|[]| |[] m e], y as [[]|[]| |[] m' e']; try done. Qed.

Lemma diff_laws A B :
  valid A -> valid B -> init A -> init B -> is_float (a_type A) = true ->
  a_type B = a_type A -> a_dims B = a_dims A -> a_dev B = a_dev A -> dev_type (a_dev A) = 0 -> prodZ (a_dims A) <= INT_MAX ->
  exists C C', opposite C C' /\
    gives (aitisa_binary_op OpSub) A B C /\ gives (aitisa_binary_op OpAdd) A (negated B) C /\
    gives (aitisa_binary_op OpSub) B A C' /\ gives (aitisa_binary_op OpAdd) B (negated A) C'.
Proof.
  intros VA VB IA IB Hf Ht Hd Hv DA Hn.
  destruct (floats_of A Hf IA) as [xs Ex]. destruct (floats_of B) as [ys Ey]; [by rewrite Ht|done|].
  pose proof (vals_length A B xs ys VA VB Hd Ex Ey) as Hl.
  assert (forall us vs : list spec_float, zip_with (flt_op (a_type A) OpAdd) us (SFopp <$> vs) = zip_with (flt_op (a_type A) OpSub) us vs) as HS.
  { induction us as [|u us IH]; intros [|v vs]; try done. cbn [fmap list_fmap zip_with]. by rewrite sub_add, IH. }
  assert (forall op X Y (us vs : list spec_float), a_type X = a_type A -> a_type Y = a_type A -> a_dims X = a_dims A -> a_dims Y = a_dims A ->
    a_dev X = a_dev A -> a_dev Y = a_dev A -> a_vals X = VF <$> us -> a_vals Y = VF <$> vs -> length vs = length us ->
    gives (aitisa_binary_op op) X Y (AT (a_type A) (a_dev A) (a_dims A) (VF <$> zip_with (flt_op (a_type A) op) us vs))) as HG.
  { intros op X Y us vs T1 T2 D1 D2 V1 V2 E1 E2 Hl' p1 p2 o E s W HE H1 H2.
    rewrite <- T1, <- V1, <- D1. apply (binary_rule op p1 p2 X Y); try done; try congruence.
    rewrite T1, E1, E2. by apply bin_floats. }
  exists (AT (a_type A) (a_dev A) (a_dims A) (VF <$> zip_with (flt_op (a_type A) OpSub) xs ys)),
    (AT (a_type A) (a_dev A) (a_dims A) (VF <$> zip_with (flt_op (a_type A) OpSub) ys xs)). split_and!.
  - split_and!; try done. cbn [a_vals]. clear. revert ys. induction xs as [|x xs IH]; intros [|y ys]; try done. cbn [fmap list_fmap zip_with].
    rewrite neg_opp, !unsign_norm, sub_swap. f_equal. apply IH.
  - by apply HG.
  - rewrite <- HS. apply HG; try done; cbn [negated a_vals]; [by rewrite Ey, neg_floats|by rewrite fmap_length].
  - by apply HG.
  - rewrite <- HS. apply HG; try done; cbn [negated a_vals]; [by rewrite Ex, neg_floats|by rewrite fmap_length].
Qed.
