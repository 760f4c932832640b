(** * PropUnit: pooling with windows of one element (C74); products with a unit matrix of floats (C73) *)
From stdpp Require Import gmap list.
From Coq Require Import ZArith Lia Floats.SpecFloat.
From Verif Require Import Base Mem Spec SpecReal SpecNN SpecRing SpecUnit ModelCore ModelMath ModelNN Logic ProofCore ProofCore2
  ProofUnit ProofUnit2 Fixture.
Open Scope Z_scope.

(** Average pooling with windows of one element copies the tensor, except that -0 becomes +0. *)
Theorem C74_average : forall p T nb nc sd o E s, wf s -> alloc_all E -> hooks_ok E -> holds (heap s) p T ->
  a_dims T = nb :: nc :: sd -> (1 <= length sd <= 3)%nat -> Forall (fun d => 1 <= d <= 2 ^ 51) sd -> prodZ sd <= INT_MAX ->
  (Z.to_nat (prodZ sd) <= e_fuel E)%nat -> init T -> Forall in_double (a_vals T) ->
  let n := length sd in
  makes (aitisa_pooling (HPtr p) PAvg (ones n) (ones n) (zeros n) (ones n) o) E s
    (AT (a_type T) (a_dev T) (a_dims T) (unsign_zero <$> a_vals T)).
Proof. exact avg_ones. Qed.
Print Assumptions C74_average.
(** Max pooling with windows of one element is relu, not the identity. *)
Theorem C74_max : forall p T nb nc sd o E s, wf s -> alloc_all E -> hooks_ok E -> holds (heap s) p T ->
  a_dims T = nb :: nc :: sd -> (1 <= length sd <= 3)%nat -> Forall (fun d => 1 <= d <= 2 ^ 51) sd -> prodZ sd <= INT_MAX ->
  (Z.to_nat (prodZ sd) <= e_fuel E)%nat -> init T -> Forall in_double (a_vals T) ->
  let n := length sd in exists ws, Forall2 (relu_spec (a_type T)) (a_vals T) ws /\
  makes (aitisa_pooling (HPtr p) PMax (ones n) (ones n) (zeros n) (ones n) o) E s (AT (a_type T) (a_dev T) (a_dims T) ws) /\
  makes (aitisa_relu (HPtr p) o) E s (AT (a_type T) (a_dev T) (a_dims T) ws).
Proof. exact max_ones. Qed.
Print Assumptions C74_max.
(** The product of a matrix of finite floats and a unit matrix is the matrix, except that -0 becomes +0. *)
Theorem C73_unit_right_float : forall t A U d m n, is_float t = true -> matrix t m n A ->
  Forall finite_elem (a_vals A) ->
  unit_matrix_float t d n U -> dev_type d = 0 -> m <= INT_MAX -> n <= INT_MAX -> m * n <= INT_MAX ->
  gives aitisa_matmul A U (AT (a_type A) (a_dev A) (a_dims A) (unsign_zero <$> a_vals A)).
Proof. exact unit_r_float. Qed.
Print Assumptions C73_unit_right_float.
Theorem C73_unit_left_float : forall t A U d m n, is_float t = true -> matrix t m n A ->
  Forall finite_elem (a_vals A) ->
  unit_matrix_float t d m U -> d = a_dev A -> m <= INT_MAX -> n <= INT_MAX -> m * n <= INT_MAX ->
  gives aitisa_matmul U A (AT (a_type A) (a_dev A) (a_dims A) (unsign_zero <$> a_vals A)).
Proof. exact unit_l_float. Qed.
Print Assumptions C73_unit_left_float.

(** ** Cases that meet the hypotheses *)
Definition U_img : atensor := AT I8 cpu [1; 2; 2; 3] (VI <$> [1; -2; 3; 127; -128; 0; 7; 7; -1; 5; -6; 100]).
Lemma U_img_valid : valid U_img. Proof. lit_valid. Qed.
Example C74_ex : holds (heap (fx [U_img])) 0 U_img /\ a_dims U_img = [1; 2; 2; 3] /\ init U_img /\
  Forall in_double (a_vals U_img) /\ (Z.to_nat (prodZ [2; 3]%Z) <= e_fuel E0)%nat.
Proof.
  split_and!; [exact (fx_holds [U_img] 0 U_img eq_refl U_img_valid)|done| | |].
  - repeat constructor; vm_compute; discriminate.
  - repeat constructor; vm_compute; discriminate.
  - apply Nat.leb_le. vm_compute. reflexivity.
Qed.
Example C74_runs :
  (exists r s, aitisa_pooling (HPtr 0) PAvg [1; 1] [1; 1] [0; 0] [1; 1] HUndef E0 (fx [U_img]) = Done r s /\
    peek E0 s r = Some (SUCCESS, [1; 2; 2; 3], VI <$> [1; -2; 3; 127; -128; 0; 7; 7; -1; 5; -6; 100])) /\
  (exists r s, aitisa_pooling (HPtr 0) PMax [1; 1] [1; 1] [0; 0] [1; 1] HUndef E0 (fx [U_img]) = Done r s /\
    peek E0 s r = Some (SUCCESS, [1; 2; 2; 3], VI <$> [1; 0; 3; 127; 0; 0; 7; 7; 0; 5; 0; 100])).
Proof. split; apply run_ex; vm_compute; reflexivity. Qed.
(** The bound on the integers is needed: a double does not hold 2^53 + 1. *)
Definition U_long : atensor := AT I64 cpu [1; 1; 1] [VI (2 ^ 53 + 1)].
Example C74_long_differs :
  exists r s, aitisa_pooling (HPtr 0) PAvg [1] [1] [0] [1] HUndef E0 (fx [U_long]) = Done r s /\
    peek E0 s r = Some (SUCCESS, [1; 1; 1], [VI (2 ^ 53)]).
Proof. apply run_ex; vm_compute; reflexivity. Qed.

Definition fl (z : Z) : val := VF (flt_of_Z F32 z).
Definition U_a : atensor := AT F32 cpu [3; 2] [fl 5; VF (S754_zero true); fl (-7); fl 100; fl 0; fl 3].
Definition U_u : atensor := AT F32 cpu [2; 2] [fl 1; fl 0; fl 0; fl 1].
Example C73_unit_float_ex : matrix F32 3 2 U_a /\
  Forall finite_elem (a_vals U_a) /\ unit_matrix_float F32 cpu 2 U_u.
Proof.
  split; [|split].
  - split_and!; [lit_valid|repeat constructor; vm_compute; reflexivity|reflexivity..].
  - repeat constructor.
  - split_and!; [lit_valid|reflexivity..|]. intros i j Hi Hj. assert (i = 0 \/ i = 1) as [-> | ->] by lia; assert (j = 0 \/ j = 1) as [-> | ->] by lia; reflexivity.
Qed.
(** Infinities are not preserved: infinity times a zero of the unit matrix is NaN, which replaces the rest of its row. *)
Definition U_inf : atensor := AT F32 cpu [1; 2] [VF (S754_infinity false); fl 3].
Example C73_unit_infinite_differs :
  exists r s, aitisa_matmul (HPtr 0) (HPtr 5) HUndef E0 (fx [U_inf; U_u]) = Done r s /\
    peek E0 s r = Some (SUCCESS, [1; 2], [VF (S754_infinity false); VF S754_nan]).
Proof. eexists _, _. split; [vm_compute; reflexivity|vm_compute; reflexivity]. Qed.
