(** * PropNeg: sign symmetry of float arithmetic, matrix products and convolutions (C79) *)
From stdpp Require Import gmap list.
From Coq Require Import ZArith Lia Floats.SpecFloat.
From Verif Require Import Base Mem Spec SpecReal SpecNN SpecUnit SpecRing SpecCommute SpecNeg ModelCore ModelMath ModelNN Logic ProofCore ProofCore2
  ProofNeg ProofNeg2 ProofNeg3 ProofNeg4 ProofNeg5 ProofNeg6 PropUnit Fixture.
Open Scope Z_scope.

(** Negating one factor of a matrix product of floats negates the product (a zero may get either sign); negating both
    changes no bit.  NaN, infinities, overflow and underflow included. *)
Theorem C79_matrix_product : forall t m k n A B,
  is_float t = true -> matrix t m k A -> matrix t k n B ->
  m <= INT_MAX -> k <= INT_MAX -> n <= INT_MAX -> m * n <= INT_MAX -> fits (tsz t) [m; n] ->
  exists C C', opposite C C' /\
    gives aitisa_matmul A B C /\ gives aitisa_matmul (negated A) (negated B) C /\
    gives aitisa_matmul A (negated B) C' /\ gives aitisa_matmul (negated A) B C'.
Proof. exact mm_neg. Qed.
Print Assumptions C79_matrix_product.

(** The same for the samples and the filters of a convolution, in any memories *)
Theorem C79_convolution : forall p pf T F nb nc oc fc sd ks ss ps ls g o E s,
  wf s -> alloc_all E -> hooks_ok E -> holds (heap s) p T -> holds (heap s) pf F ->
  a_type T = F32 -> a_type F = F32 ->
  a_dims T = nb :: nc :: sd -> a_dims F = oc :: fc :: ks -> nc <= fc -> 0 < nc ->
  (length sd <= 3)%nat -> win_ok sd ks ss ps ls ->
  fits (tsz F32) (nb :: oc :: win_outs sd ks ss ps ls) -> init T -> init F ->
  exists B B', opposite B B' /\
    makes_saying (conv_status E) (aitisa_conv (HPtr p) (HPtr pf) ss ps ls g o) E s B /\
    forall q qf g' o' E' s', wf s' -> alloc_all E' -> hooks_ok E' ->
      (holds (heap s') q T -> holds (heap s') qf (negated F) ->
        makes_saying (conv_status E') (aitisa_conv (HPtr q) (HPtr qf) ss ps ls g' o') E' s' B') /\
      (holds (heap s') q (negated T) -> holds (heap s') qf F ->
        makes_saying (conv_status E') (aitisa_conv (HPtr q) (HPtr qf) ss ps ls g' o') E' s' B') /\
      (holds (heap s') q (negated T) -> holds (heap s') qf (negated F) ->
        makes_saying (conv_status E') (aitisa_conv (HPtr q) (HPtr qf) ss ps ls g' o') E' s' B).
Proof. exact conv_neg. Qed.
Print Assumptions C79_convolution.

(** Products and quotients: negating one operand negates every bit pattern exactly; negating both changes no bit. *)
Theorem C79_elementwise : forall A B,
  valid A -> valid B -> init A -> init B -> is_float (a_type A) = true ->
  a_type B = a_type A -> a_dims B = a_dims A -> dev_type (a_dev A) = 0 -> dev_type (a_dev B) = 0 -> prodZ (a_dims A) <= INT_MAX ->
  forall op, op = OpMul \/ op = OpDiv -> exists C,
    gives (aitisa_binary_op op) A B C /\ gives (aitisa_binary_op op) (negated A) (negated B) C /\
    gives (aitisa_binary_op op) (negated A) B (negated C) /\ gives (aitisa_binary_op op) A (negated B) (negated C).
Proof. exact ew_exact. Qed.
Print Assumptions C79_elementwise.
(** Sums and differences: negating both operands negates the result, except for the signs of zeros. *)
Theorem C79_sums : forall A B,
  valid A -> valid B -> init A -> init B -> is_float (a_type A) = true ->
  a_type B = a_type A -> a_dims B = a_dims A -> dev_type (a_dev A) = 0 -> dev_type (a_dev B) = 0 -> prodZ (a_dims A) <= INT_MAX ->
  forall op, op = OpAdd \/ op = OpSub -> exists C C', opposite C C' /\
    gives (aitisa_binary_op op) A B C /\ gives (aitisa_binary_op op) (negated A) (negated B) C'.
Proof. exact ew_sum. Qed.
Print Assumptions C79_sums.

(** A difference is bit for bit the sum with the negated operand; with its operands swapped it is negated, except for the
    signs of zeros. *)
Theorem C79_differences : forall A B,
  valid A -> valid B -> init A -> init B -> is_float (a_type A) = true ->
  a_type B = a_type A -> a_dims B = a_dims A -> a_dev B = a_dev A -> dev_type (a_dev A) = 0 -> prodZ (a_dims A) <= INT_MAX ->
  exists C C', opposite C C' /\
    gives (aitisa_binary_op OpSub) A B C /\ gives (aitisa_binary_op OpAdd) A (negated B) C /\
    gives (aitisa_binary_op OpSub) B A C' /\ gives (aitisa_binary_op OpAdd) B (negated A) C'.
Proof. exact diff_laws. Qed.
Print Assumptions C79_differences.

(** The hyperbolic tangent is odd for every implementation [ex] of exp, accurate or not, except for the signs of zeros. *)
Theorem C79_tanh : forall ex A, valid A -> init A -> is_float (a_type A) = true ->
  exists C C', opposite C C' /\ gives1 ex aitisa_tanh A C /\ gives1 ex aitisa_tanh (negated A) C'.
Proof. exact tanh_neg. Qed.
Print Assumptions C79_tanh.

(** Average pooling of floats: the negated tensor has the negated averages, except for the signs of zeros. *)
Theorem C79_average_pooling : forall p T nb nc sd ks ss ps ls E s o,
  wf s -> alloc_all E -> hooks_ok E -> holds (heap s) p T ->
  a_dims T = nb :: nc :: sd -> (1 <= length sd <= 3)%nat -> win_ok sd ks ss ps ls ->
  prodZ ks <= INT64_MAX -> prodZ (win_outs sd ks ss ps ls) <= INT_MAX ->
  (Z.to_nat (prodZ ks) <= e_fuel E)%nat -> (Z.to_nat (prodZ (win_outs sd ks ss ps ls)) <= e_fuel E)%nat ->
  fits (tsz (a_type T)) (nb :: nc :: win_outs sd ks ss ps ls) ->
  is_float (a_type T) = true -> init T ->
  exists B B', opposite B B' /\ makes (aitisa_pooling (HPtr p) PAvg ks ss ps ls o) E s B /\
    forall p' o' E' s', wf s' -> alloc_all E' -> hooks_ok E' -> holds (heap s') p' (negated T) ->
      (Z.to_nat (prodZ ks) <= e_fuel E')%nat -> (Z.to_nat (prodZ (win_outs sd ks ss ps ls)) <= e_fuel E')%nat ->
      makes (aitisa_pooling (HPtr p') PAvg ks ss ps ls o') E' s' B'.
Proof. exact pool_neg. Qed.
Print Assumptions C79_average_pooling.

(** relu splits a tensor without NaN into its positive and its negative part: their difference is the tensor (with +0 for
    -0), their sum its absolute value, both exact. *)
Theorem C79_relu_parts : forall ex A, valid A -> init A -> is_float (a_type A) = true -> dev_type (a_dev A) = 0 -> prodZ (a_dims A) <= INT_MAX ->
  Forall (fun v => v <> VF S754_nan) (a_vals A) ->
  exists P N, gives1 ex aitisa_relu A P /\ gives1 ex aitisa_relu (negated A) N /\
    gives (aitisa_binary_op OpSub) P N (AT (a_type A) (a_dev A) (a_dims A) (unsign_zero <$> a_vals A)) /\
    gives (aitisa_binary_op OpAdd) P N (AT (a_type A) (a_dev A) (a_dims A) (abs_val <$> a_vals A)).
Proof. exact relu_parts. Qed.
Print Assumptions C79_relu_parts.

(** ** Cases *)
Definition N_a : atensor := AT F32 cpu [2; 2] [fl 3; VF (S754_zero true); VF (S754_infinity true); fl (-7)].
Definition N_b : atensor := AT F32 cpu [2; 2] [fl 5; fl (-1); fl 2; fl 0].
Lemma N_a_valid : valid N_a. Proof. lit_valid. Qed.
Lemma N_b_valid : valid N_b. Proof. lit_valid. Qed.
Lemma N_a_init : init N_a. Proof. repeat constructor; vm_compute; reflexivity. Qed.
Lemma N_b_init : init N_b. Proof. repeat constructor; vm_compute; reflexivity. Qed.
Example C79_negated : negated N_a = AT F32 cpu [2; 2] [fl (-3); VF (S754_zero false); VF (S754_infinity false); fl 7].
Proof. reflexivity. Qed.
Example C79_ex : matrix F32 2 2 N_a /\ matrix F32 2 2 N_b /\ fits (tsz F32) [2; 2] /\ is_float F32 = true.
Proof. unfold matrix. split_and!; [exact N_a_valid|exact N_a_init|done|done|done|exact N_b_valid|exact N_b_init|done|done|done|lit_fits|done]. Qed.
Example C79_run :
  (exists r s, aitisa_matmul (HPtr 0) (HPtr 5) HUndef E0 (fx [N_a; N_b]) = Done r s /\
    peek E0 s r = Some (SUCCESS, [2; 2], [fl 15; fl (-3); VF (S754_infinity true); VF (S754_infinity false)])) /\
  (exists r s, aitisa_matmul (HPtr 0) (HPtr 5) HUndef E0 (fx [N_a; negated N_b]) = Done r s /\
    peek E0 s r = Some (SUCCESS, [2; 2], [fl (-15); fl 3; VF (S754_infinity false); VF (S754_infinity true)])) /\
  (exists r s, aitisa_mul (HPtr 0) (HPtr 5) HUndef E0 (fx [N_a; negated N_b]) = Done r s /\
    peek E0 s r = Some (SUCCESS, [2; 2], [fl (-15); VF (S754_zero true); VF (S754_infinity false); VF (S754_zero false)])).
Proof. split_and!; apply run_ex; vm_compute; reflexivity. Qed.
(** Why the sign of zeros is left out for sums: 5 - 5 and -5 + 5 are both +0. *)
Definition N_z : atensor := AT F32 cpu [1] [fl 5].
Example C79_zero_run :
  (exists r s, aitisa_sub (HPtr 0) (HPtr 5) HUndef E0 (fx [N_z; N_z]) = Done r s /\ peek E0 s r = Some (SUCCESS, [1], [VF (S754_zero false)])) /\
  (exists r s, aitisa_sub (HPtr 0) (HPtr 5) HUndef E0 (fx [negated N_z; negated N_z]) = Done r s /\
    peek E0 s r = Some (SUCCESS, [1], [VF (S754_zero false)])).
Proof. split; apply run_ex; vm_compute; reflexivity. Qed.
Definition N_sig : atensor := AT F32 cpu [1; 1; 3] (fl <$> [1; -2; 3]).
Definition N_fil : atensor := AT F32 cpu [2; 1; 2] (fl <$> [4; 5; 0; -1]).
Example C79_convolution_ex : valid N_sig /\ valid N_fil /\ init N_sig /\ init N_fil /\ win_ok [3] [2] [1] [0] [1] /\
  fits (tsz F32) (1 :: 2 :: win_outs [3] [2] [1] [0] [1]).
Proof.
  split_and!; [lit_valid|lit_valid|repeat constructor; vm_compute; reflexivity|repeat constructor; vm_compute; reflexivity|cbn; unfold win_ok1; lims; lia|].
  change (win_outs [3] [2] [1] [0] [1]) with [2]. lit_fits.
Qed.
Example C79_convolution_run :
  (exists r s, aitisa_conv (HPtr 0) (HPtr 5) [1] [0] [1] 1 HUndef E0 (fx [N_sig; N_fil]) = Done r s /\
    peek E0 s r = Some (INTERNAL_ERROR, [1; 2; 2], fl <$> [-6; 7; 2; -3])) /\
  (exists r s, aitisa_conv (HPtr 0) (HPtr 5) [1] [0] [1] 1 HUndef E0 (fx [negated N_sig; N_fil]) = Done r s /\
    peek E0 s r = Some (INTERNAL_ERROR, [1; 2; 2], fl <$> [6; -7; -2; 3])).
Proof. split; apply run_ex; vm_compute; reflexivity. Qed.
Definition N_img : atensor := AT F32 cpu [1; 1; 4] (fl <$> [1; -3; 3; -4]).
Example C79_average_pooling_ex : valid N_img /\ init N_img /\ win_ok [4] [2] [1] [0] [1] /\
  fits (tsz F32) (1 :: 1 :: win_outs [4] [2] [1] [0] [1]) /\ (Z.to_nat (prodZ [2]%Z) <= e_fuel E0)%nat.
Proof.
  split_and!; [lit_valid|repeat constructor; vm_compute; reflexivity|cbn; unfold win_ok1; lims; lia| |apply Nat.leb_le; vm_compute; reflexivity].
  change (win_outs [4] [2] [1] [0] [1]) with [3]. lit_fits.
Qed.
Example C79_average_pooling_run :
  (exists r s, aitisa_pooling (HPtr 0) PAvg [2] [1] [0] [1] HUndef E0 (fx [N_img]) = Done r s /\
    peek E0 s r = Some (SUCCESS, [1; 1; 3], [fl (-1); VF (S754_zero false); VF (S754_finite true 8388608 (-24))])) /\
  (exists r s, aitisa_pooling (HPtr 0) PAvg [2] [1] [0] [1] HUndef E0 (fx [negated N_img]) = Done r s /\
    peek E0 s r = Some (SUCCESS, [1; 1; 3], [fl 1; VF (S754_zero false); VF (S754_finite false 8388608 (-24))])).
Proof. split; apply run_ex; vm_compute; reflexivity. Qed.
Example C79_relu_parts_ex : valid N_a /\ init N_a /\ is_float (a_type N_a) = true /\ dev_type (a_dev N_a) = 0 /\
  prodZ (a_dims N_a) <= INT_MAX /\ Forall (fun v => v <> VF S754_nan) (a_vals N_a).
Proof. split_and!; [exact N_a_valid|exact N_a_init|done|done|vm_compute; done|repeat constructor; discriminate]. Qed.
Example C79_relu_parts_run :
  (exists r s, (let* x := aitisa_relu (HPtr 0) HUndef in let* y := aitisa_relu (HPtr 5) HUndef in aitisa_sub x.2 y.2 HUndef)
     E0 (fx [N_a; negated N_a]) = Done r s /\
    peek E0 s r = Some (SUCCESS, [2; 2], [fl 3; VF (S754_zero false); VF (S754_infinity true); fl (-7)])) /\
  (exists r s, (let* x := aitisa_relu (HPtr 0) HUndef in let* y := aitisa_relu (HPtr 5) HUndef in aitisa_add x.2 y.2 HUndef)
     E0 (fx [N_a; negated N_a]) = Done r s /\
    peek E0 s r = Some (SUCCESS, [2; 2], [fl 3; VF (S754_zero false); VF (S754_infinity false); fl 7])).
Proof. split; apply run_ex; vm_compute; reflexivity. Qed.
Example C79_differences_ex : valid N_a /\ valid N_b /\ init N_a /\ init N_b /\ is_float (a_type N_a) = true /\
  a_type N_b = a_type N_a /\ a_dims N_b = a_dims N_a /\ a_dev N_b = a_dev N_a /\ dev_type (a_dev N_a) = 0 /\ prodZ (a_dims N_a) <= INT_MAX.
Proof. split_and!; [exact N_a_valid|exact N_b_valid|exact N_a_init|exact N_b_init|done|done|done|done|done|vm_compute; done]. Qed.
Example C79_differences_run :
  (exists r s, aitisa_sub (HPtr 0) (HPtr 5) HUndef E0 (fx [N_a; N_b]) = Done r s /\
    peek E0 s r = Some (SUCCESS, [2; 2], [fl (-2); fl 1; VF (S754_infinity true); fl (-7)])) /\
  (exists r s, aitisa_add (HPtr 0) (HPtr 5) HUndef E0 (fx [N_a; negated N_b]) = Done r s /\
    peek E0 s r = Some (SUCCESS, [2; 2], [fl (-2); fl 1; VF (S754_infinity true); fl (-7)])) /\
  (exists r s, aitisa_sub (HPtr 0) (HPtr 5) HUndef E0 (fx [N_b; N_a]) = Done r s /\
    peek E0 s r = Some (SUCCESS, [2; 2], [fl 2; fl (-1); VF (S754_infinity false); fl 7])).
Proof. split_and!; apply run_ex; vm_compute; reflexivity. Qed.
