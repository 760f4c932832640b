(** * PropTypes: products of operands of different types (C33) *)
From stdpp Require Import gmap list.
From Coq Require Import ZArith Lia.
From Verif Require Import Base Mem Spec SpecHeap SpecTypes ModelCore ModelBasic ModelMath ProofHeap ProofExact ProofTypes RefuteMath2 Fixture.
Open Scope Z_scope.

(** Whatever the ranks, two operands that have a product but whose types differ are not
    rejected: the call is undefined, always, because the second operand is read at the type
    of the first one. *)
Theorem C33_types_always_refuted : forall p1 p2 T1 T2 o E s d,
  wf s -> alloc_all E -> holds (heap s) p1 T1 -> holds (heap s) p2 T2 ->
  a_type T1 <> a_type T2 -> started (a_vals T2) ->
  dev_type (a_dev T1) = 0 -> dev_type (a_dev T2) = 0 ->
  Forall (fun x => 0 < x) (a_dims T1) -> Forall (fun x => 0 < x) (a_dims T2) ->
  conform (a_dims T1) (a_dims T2) d -> fits (tsz (a_type T1)) d ->
  exists u, aitisa_matmul (HPtr p1) (HPtr p2) o E s = UB u.
Proof.
  intros p1 p2 T1 T2 o E s d H1 H2 H3 H4 H5 H6 H7 H8 H9 H10 H11 H12.
  exact (matmul_types p1 p2 T1 T2 o E s H1 H2 H3 H4 H5 H6 H7 H8 H9 H10 d H11 H12).
Qed.
Print Assumptions C33_types_always_refuted.

(** Two 1x2 matrices of int32 against one 2x2 matrix of int64. *)
Definition T_bi32 : atensor := AT I32 cpu [2; 1; 2] (VI <$> [1; 2; 3; 4]).
Definition T_mi64 : atensor := AT I64 cpu [2; 2] (VI <$> [5; 6; 7; 8]).
Lemma T_bi32_valid : valid T_bi32. Proof. lit_valid. Qed.
Lemma T_mi64_valid : valid T_mi64. Proof. lit_valid. Qed.
Example C33_types_always_ex :
  exists u, aitisa_matmul (HPtr 0%nat) (HPtr 5%nat) HUndef E0 (fx [T_bi32; T_mi64]) = UB u.
Proof.
  apply (C33_types_always_refuted 0%nat 5%nat T_bi32 T_mi64 HUndef E0 _ [2; 1; 2]);
    [apply fx_wf|done|exact (fx_holds [T_bi32; T_mi64] 0 T_bi32 eq_refl T_bi32_valid)|
     exact (fx_holds [T_bi32; T_mi64] 1 T_mi64 eq_refl T_mi64_valid)|done|done|done|done| | | |].
  - repeat constructor.
  - repeat constructor.
  - apply (conf_tt [2] [] [2] 1 2 2); [left; discriminate|reflexivity].
  - lit_fits.
Qed.
