(** * PropTerm: batch normalisation finishes (C43) *)
From stdpp Require Import gmap list.
From Coq Require Import ZArith Lia Floats.SpecFloat.
From Verif Require Import Base Mem Spec ModelCore ModelNN ProofTerm2 Fixture.
Open Scope Z_scope.

(** Whatever the other arguments, the allocator and the element values are.  The
    channels are counted in uint32_t; the copies per channel are too, but so many
    elements do not get past aitisa_full, whose counter is an int. *)
Theorem C43_batch_norm : forall p T axis sc bi me va eps o E s,
  wf s -> holds (heap s) p T ->
  (forall d, a_dims T !! Z.to_nat axis = Some d -> d < 2 ^ 32) ->
  aitisa_batch_norm (HPtr p) axis sc bi me va eps o E s <> Diverge.
Proof. exact batch_norm_stops_T. Qed.
Print Assumptions C43_batch_norm.

Definition T_term : atensor := AT I32 cpu [1; 2; 2] (VI <$> [5; 6; 7; 9]).
Definition T_term1 : atensor := AT I32 cpu [2] (VI <$> [1; 4]).
Example C43_norm_ex :
  wf (fx [T_term; T_term1]) /\ holds (heap (fx [T_term; T_term1])) 0 T_term /\
  (forall d, a_dims T_term !! Z.to_nat 1 = Some d -> d < 2 ^ 32) /\
  exists r s', aitisa_batch_norm (HPtr 0) 1 (HPtr 5) (HPtr 5) (HPtr 5) (HPtr 5) fzero HNull E0
    (fx [T_term; T_term1]) = Done r s' /\ peek E0 s' r = Some (SUCCESS, [1; 2; 2], VI <$> [5; 6; 8; 12]).
Proof.
  split_and!.
  - apply fx_wf.
  - apply (fx_holds [T_term; T_term1] 0 T_term eq_refl). lit_valid.
  - intros d H. injection H as <-. lia.
  - apply run_ex. vm_compute. reflexivity.
Qed.
