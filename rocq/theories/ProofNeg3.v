(** * ProofNeg3: tanh of negated tensors, for every implementation of exp *)
From stdpp Require Import gmap list.
From Coq Require Import ZArith Lia Reals Floats.SpecFloat.
From Verif Require Import Base Mem Spec SpecReal SpecNN SpecUnit SpecCommute SpecNeg ModelCore ModelNN Logic ProofCore ProofCore2
  ProofNN ProofLaws ProofUnit ProofUnit2 ProofExp2 ProofExp4 ProofNeg ProofNeg2 PropNN.
Open Scope Z_scope.

Lemma add_comm_f t x y : flt_op t OpAdd x y = flt_op t OpAdd y x.
Proof.
  unfold flt_op. destruct x as [s|s| |s m e], y as [s'|s'| |s' m' e']; try done; try (by destruct s, s').
  cbn [SFadd]. cbv zeta. rewrite (Z.min_comm e e'). f_equal. lia.
Qed.
Lemma sub_swap t x y : norm (flt_op t OpSub y x) = norm (SFopp (flt_op t OpSub x y)).
Proof.
  unfold flt_op. destruct x as [s|s| |s n e], y as [u|u| |u k f]; try (by destruct s, u); try (by destruct s); try (by destruct u); try done.
  cbn [SFsub]. cbv zeta. rewrite <-(normalize_opp _ _ _ _ false false). rewrite (Z.min_comm f e). f_equal. f_equal. lia.
Qed.
Lemma div_norm t n n' d : norm n' = norm (SFopp n) -> norm (flt_op t OpDiv n' d) = norm (SFopp (flt_op t OpDiv n d)).
Proof.
  intros H. destruct n as [s|s| |s m e], n' as [s'|s'| |s' m' e']; cbn in H; try discriminate H; try injection H as ->; subst.
  - by destruct d as [[]|[]| |[] ? ?], s, s'.
  - change (S754_infinity (negb s)) with (SFopp (S754_infinity s)). by rewrite div_opp_l.
  - done.
  - change (S754_finite (negb s) m e) with (SFopp (S754_finite s m e)). by rewrite div_opp_l.
Qed.
Lemma conv_norm t x x' : norm x' = norm (SFopp x) -> norm (flt_conv t x') = norm (SFopp (flt_conv t x)).
Proof.
  intros H. destruct x as [s|s| |s m e], x' as [s'|s'| |s' m' e']; cbn in H; try discriminate H; try injection H as ->; subst; try done.
  cbn [flt_conv]. by rewrite round_opp.
Qed.
Lemma tanh_swap t a b : norm (flt_conv t (ddiv (dsub b a) (dadd b a))) = norm (SFopp (flt_conv t (ddiv (dsub a b) (dadd a b)))).
Proof.
  change (dadd b a) with (flt_op F64 OpAdd b a). rewrite add_comm_f. apply conv_norm. apply (div_norm F64). apply (sub_swap F64).
Qed.
Lemma tanh_spec_neg ex t v w w' : tanh_spec ex t v w -> tanh_spec ex t (neg_val v) w' -> unsign_zero w' = unsign_zero (neg_val w).
Proof.
  intros (x & g & h & -> & Hg & Hh & ->) (x' & g' & h' & Hx & Hg' & Hh' & ->). rewrite neg_opp in Hx. injection Hx as <-.
  rewrite SFopp_opp in Hh'. rewrite (same_float_fun _ _ _ Hg' Hh), (same_float_fun _ _ _ Hh' Hg), neg_opp, !unsign_norm, tanh_swap. done.
Qed.
Lemma init_neg T : init T -> init (negated T).
Proof.
  unfold init. cbn [negated a_vals a_type]. intros H. apply Forall_fmap. eapply Forall_impl; [exact H|]. intros [z|f|]; try done.
  intros [H1 H2]. unfold compose. rewrite neg_opp. split; [exact H1|]. by destruct f.
Qed.
Lemma tanh_neg ex A : valid A -> init A -> is_float (a_type A) = true ->
  exists C C', opposite C C' /\ gives1 ex aitisa_tanh A C /\ gives1 ex aitisa_tanh (negated A) C'.
Proof.
  intros V I Hf. destruct (C38_tanh_total A ex I Hf) as (ws & Hw & _).
  destruct (C38_tanh_total (negated A) ex (init_neg A I) Hf) as (ws' & Hw' & _).
  exists (AT (a_type A) (a_dev A) (a_dims A) ws), (AT (a_type A) (a_dev A) (a_dims A) ws'). split_and!.
  - split_and!; try done. cbn [a_vals]. cbn [negated a_vals a_type] in Hw'. revert ws' Hw'. clear -Hw.
    induction Hw as [|v w vs ws H Hw IH]; intros ws' Hw'; inversion Hw' as [|? w' ? ws1 H' Hw1]; subst; [done|].
    cbn [fmap list_fmap]. rewrite (tanh_spec_neg ex _ v w w' H H'). f_equal. by apply IH.
  - intros p o E s W HE HK Hex Hh. apply (makes_enough E HE _ s o). apply C38_tanh; try done. by rewrite Hex.
  - intros p o E s W HE HK Hex Hh. apply (makes_enough E HE _ s o).
    apply (C38_tanh p (negated A)); try done; [by apply init_neg|by rewrite Hex].
Qed.
