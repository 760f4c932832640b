(** * PropCommute: element-wise operations commute with slicing, reshaping and squeezing (C76) *)
From stdpp Require Import gmap list.
From Coq Require Import ZArith Lia Floats.SpecFloat.
From Verif Require Import Base Mem Spec SpecReal SpecNN SpecCommute ModelCore ModelBasic ModelMath ModelNN Logic ProofCore ProofCore2
  ProofKernel ProofCommute Fixture.
Open Scope Z_scope.

Theorem C76_relu : forall ex v A, valid A -> init A -> selects (tsz (a_type A)) (a_dims A) v ->
  commute1 ex (fun p o => aitisa_relu p o) v A.
Proof. exact relu_commutes. Qed.
Print Assumptions C76_relu.
Theorem C76_sigmoid : forall ex v A, valid A -> init A -> is_float (a_type A) = true -> selects (tsz (a_type A)) (a_dims A) v ->
  commute1 ex (fun p o => aitisa_sigmoid p o) v A.
Proof. exact sigmoid_commutes. Qed.
Print Assumptions C76_sigmoid.
Theorem C76_tanh : forall ex v A, valid A -> init A -> is_float (a_type A) = true -> selects (tsz (a_type A)) (a_dims A) v ->
  commute1 ex (fun p o => aitisa_tanh p o) v A.
Proof. exact tanh_commutes. Qed.
Print Assumptions C76_tanh.
Theorem C76_sqrt : forall ex v A, valid A -> init A -> Forall (fun v => ~ negative v) (a_vals A) ->
  selects (tsz (a_type A)) (a_dims A) v -> commute1 ex (fun p o => aitisa_sqrt p o) v A.
Proof. exact sqrt_commutes. Qed.
Print Assumptions C76_sqrt.
Theorem C76_cast : forall ex v A t2, valid A -> t2 <> a_type A ->
  Forall (fun x => cast_val (a_type A) t2 x <> None) (a_vals A) -> fits (tsz t2) (a_dims A) ->
  selects (Nat.max (tsz (a_type A)) (tsz t2)) (a_dims A) v ->
  commute1 ex (fun p o => aitisa_cast p (dtype_of t2) o) v A.
Proof. exact cast_commutes. Qed.
Print Assumptions C76_cast.
Theorem C76_arithmetic : forall ex op v A1 A2, valid A1 -> valid A2 -> init A1 -> init A2 ->
  a_type A2 = a_type A1 -> a_dims A2 = a_dims A1 -> dev_type (a_dev A1) = 0 -> dev_type (a_dev A2) = 0 -> prodZ (a_dims A1) <= INT_MAX ->
  Forall2 (op_defined (a_type A1) op) (a_vals A1) (a_vals A2) -> selects (tsz (a_type A1)) (a_dims A1) v ->
  commute2 ex (aitisa_binary_op op) v A1 A2.
Proof. exact binary_commutes. Qed.
Print Assumptions C76_arithmetic.

(** ** Cases that meet the hypotheses: 2 by 1 by 4 matrices of int16, every second element of the last axis *)
Definition K_a : atensor := AT I16 cpu [2; 1; 4] (VI <$> [5; -6; 7; -8; -1; 2; -3; 4]).
Definition K_b : atensor := AT I16 cpu [2; 1; 4] (VI <$> [1; 2; 3; 4; 5; 6; 7; 8]).
Lemma K_a_valid : valid K_a. Proof. lit_valid. Qed.
Lemma K_b_valid : valid K_b. Proof. lit_valid. Qed.
Example C76_ex : valid K_a /\ init K_a /\ valid K_b /\ init K_b /\ fits (tsz F64) (a_dims K_a) /\
  selects (tsz I16) (a_dims K_a) (fun p o => aitisa_slice p [0; 0; 1] [2; 1; 3] [1; 1; 2] o) /\
  selects (Nat.max (tsz I16) (tsz F64)) (a_dims K_a) (fun p o => aitisa_reshape p [4; 2] 2 o) /\
  selects (tsz I16) (a_dims K_a) (fun p o => aitisa_squeeze p [] 0 o) /\
  Forall2 (op_defined I16 OpDiv) (a_vals K_a) (a_vals K_b) /\
  Forall (fun x => cast_val I16 F64 x <> None) (a_vals K_a) /\ Forall (fun v => ~ negative v) (a_vals K_b).
Proof.
  split_and!; [exact K_a_valid|repeat constructor; vm_compute; done|exact K_b_valid|repeat constructor; vm_compute; done|lit_fits| | | | | |].
  - apply sel_slice; [done| |vm_compute; done]. cbn. unfold INT_MAX. lia.
  - apply (sel_reshape _ _ [4; 2]); [lit_fits|done].
  - apply sel_squeeze. repeat constructor; lia.
  - repeat constructor; cbn; try lia; try done.
  - repeat constructor; vm_compute; done.
  - repeat constructor; cbn; lia.
Qed.
(** The slice of the quotient and the quotient of the slices *)
Example C76_run : 
  (exists r s, (let* x := aitisa_binary_op OpDiv (HPtr 0) (HPtr 5) HUndef in aitisa_slice x.2 [0; 0; 1] [2; 1; 3] [1; 1; 2] HUndef)
     E0 (fx [K_a; K_b]) = Done r s /\ peek E0 s r = Some (SUCCESS, [2; 1; 2], VI <$> [-3; -2; 0; 0])) /\
  (exists r s, (let* x := aitisa_slice (HPtr 0) [0; 0; 1] [2; 1; 3] [1; 1; 2] HUndef in
                let* y := aitisa_slice (HPtr 5) [0; 0; 1] [2; 1; 3] [1; 1; 2] HUndef in aitisa_binary_op OpDiv x.2 y.2 HUndef)
     E0 (fx [K_a; K_b]) = Done r s /\ peek E0 s r = Some (SUCCESS, [2; 1; 2], VI <$> [-3; -2; 0; 0])).
Proof. split; apply run_ex; vm_compute; reflexivity. Qed.
