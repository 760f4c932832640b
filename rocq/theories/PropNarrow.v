(** * PropNarrow: computing in a narrower integer type (C81) *)
From stdpp Require Import gmap list.
From Coq Require Import ZArith Lia Floats.SpecFloat.
From Verif Require Import Base Mem Spec SpecReal SpecRing SpecCommute ModelCore ModelBasic ModelMath ModelNN Logic ProofCore ProofCore2 ProofNarrow ProofNarrow2 PropUnit PropTransp Fixture.
Open Scope Z_scope.

(** Converting a sum, difference or product to a type of at most as many bits gives the sum, difference or product of the
    converted operands. *)
Theorem C81_elementwise : forall ex o u A B, valid A -> valid B -> init A -> init B -> is_float (a_type A) = false ->
  a_type B = a_type A -> a_dims B = a_dims A -> dev_type (a_dev A) = 0 -> dev_type (a_dev B) = 0 -> prodZ (a_dims A) <= INT_MAX ->
  u ∈ [I8; U8; I16; U32; U64] -> bits u <= bits (a_type A) -> u <> a_type A -> o <> OpDiv ->
  Forall2 (op_defined (a_type A) o) (a_vals A) (a_vals B) ->
  commute2 ex (aitisa_binary_op o) (fun p o => aitisa_cast p (dtype_of u) o) A B.
Proof. exact ew_narrow. Qed.
Print Assumptions C81_elementwise.
(** The same for products of matrices. *)
Theorem C81_matrices : forall ex t u m k n A B, is_float t = false -> matrix t m k A -> matrix t k n B ->
  m <= INT_MAX -> k <= INT_MAX -> n <= INT_MAX -> m * n <= INT_MAX ->
  (forall i j, 0 <= i < m -> 0 <= j < n -> is_Some (inner t k (fun q => at_ A [i; q]) (fun q => at_ B [q; j]))) ->
  u ∈ [I8; U8; I16; U32; U64] -> bits u <= bits t -> u <> t ->
  commute2 ex aitisa_matmul (fun p o => aitisa_cast p (dtype_of u) o) A B.
Proof. exact mm_narrow. Qed.
Print Assumptions C81_matrices.

(** relu before or after a conversion: the same for every conversion that is defined on all elements, also when it rounds,
    truncates, underflows or overflows; between integer types the target has to contain the source. *)
Theorem C81_relu : forall ex u A, valid A -> init A -> u <> a_type A -> fits (tsz u) (a_dims A) ->
  (is_float (a_type A) = false -> is_float u = false -> contains u (a_type A)) ->
  Forall (fun v => cast_val (a_type A) u v <> None) (a_vals A) ->
  commute1 ex (fun p o => aitisa_relu p o) (fun p o => aitisa_cast p (dtype_of u) o) A.
Proof. exact relu_cast. Qed.
Print Assumptions C81_relu.

(** ** Cases *)
Definition Y_a : atensor := AT I32 cpu [2] (VI <$> [300; -70000]).
Definition Y_b : atensor := AT I32 cpu [2] (VI <$> [7; 1000]).
Example C81_elementwise_ex : valid Y_a /\ valid Y_b /\ init Y_a /\ init Y_b /\ U8 ∈ [I8; U8; I16; U32; U64] /\ bits U8 <= bits I32 /\
  Forall2 (op_defined I32 OpMul) (a_vals Y_a) (a_vals Y_b).
Proof.
  split_and!; [lit_valid|lit_valid|repeat constructor; vm_compute; congruence|repeat constructor; vm_compute; congruence|right; left|vm_compute; congruence|].
  repeat constructor; vm_compute; congruence.
Qed.
(** 300 * 7 = 2100 = 52 modulo 256; -70000 * 1000 = 128 modulo 256 *)
Example C81_elementwise_run :
  (exists r s, (let* x := aitisa_mul (HPtr 0) (HPtr 5) HUndef in aitisa_cast x.2 (dtype_of U8) HUndef) E0 (fx [Y_a; Y_b]) = Done r s /\
    peek E0 s r = Some (SUCCESS, [2], VI <$> [52; 128])) /\
  (exists r s, (let* x := aitisa_cast (HPtr 0) (dtype_of U8) HUndef in let* y := aitisa_cast (HPtr 5) (dtype_of U8) HUndef in
       aitisa_mul x.2 y.2 HUndef) E0 (fx [Y_a; Y_b]) = Done r s /\
    peek E0 s r = Some (SUCCESS, [2], VI <$> [52; 128])).
Proof. split; apply run_ex; vm_compute; reflexivity. Qed.
(** Not so for quotients: 300 / 7 = 42, but 300 = 44 modulo 256 and 44 / 7 = 6. *)
Example C81_quotient_run :
  (exists r s, (let* x := aitisa_div (HPtr 0) (HPtr 5) HUndef in aitisa_cast x.2 (dtype_of U8) HUndef) E0 (fx [Y_a; Y_b]) = Done r s /\
    peek E0 s r = Some (SUCCESS, [2], VI <$> [42; 186])) /\
  (exists r s, (let* x := aitisa_cast (HPtr 0) (dtype_of U8) HUndef in let* y := aitisa_cast (HPtr 5) (dtype_of U8) HUndef in
       aitisa_div x.2 y.2 HUndef) E0 (fx [Y_a; Y_b]) = Done r s /\
    peek E0 s r = Some (SUCCESS, [2], VI <$> [6; 0])).
Proof. split; apply run_ex; vm_compute; reflexivity. Qed.
(** Nor for wider types: 200 + 100 = 44 in bytes. *)
Definition Y_c : atensor := AT U8 cpu [1] (VI <$> [200]).
Definition Y_d : atensor := AT U8 cpu [1] (VI <$> [100]).
Example C81_wider_run :
  (exists r s, (let* x := aitisa_add (HPtr 0) (HPtr 5) HUndef in aitisa_cast x.2 (dtype_of I32) HUndef) E0 (fx [Y_c; Y_d]) = Done r s /\
    peek E0 s r = Some (SUCCESS, [1], VI <$> [44])) /\
  (exists r s, (let* x := aitisa_cast (HPtr 0) (dtype_of I32) HUndef in let* y := aitisa_cast (HPtr 5) (dtype_of I32) HUndef in
       aitisa_add x.2 y.2 HUndef) E0 (fx [Y_c; Y_d]) = Done r s /\
    peek E0 s r = Some (SUCCESS, [1], VI <$> [300])).
Proof. split; apply run_ex; vm_compute; reflexivity. Qed.
(** The matrices of [C80_ex] meet the hypotheses of [C81_matrices]. *)
Example C81_matrices_ex : matrix I32 2 3 X_a /\ matrix I32 3 2 X_b /\ I8 ∈ [I8; U8; I16; U32; U64] /\ bits I8 <= bits I32 /\
  forall i j, 0 <= i < 2 -> 0 <= j < 2 -> is_Some (inner I32 3 (fun q => at_ X_a [i; q]) (fun q => at_ X_b [q; j])).
Proof. destruct C80_ex as (H1 & H2 & _ & _ & _ & _ & _ & H3). split_and!; [exact H1|exact H2|left|vm_compute; congruence|exact H3]. Qed.
Example C81_matrices_run :
  (exists r s, (let* x := aitisa_matmul (HPtr 0) (HPtr 5) HUndef in aitisa_cast x.2 (dtype_of I8) HUndef) E0 (fx [X_a; X_b]) = Done r s /\
    peek E0 s r = Some (SUCCESS, [2; 2], VI <$> [22; 12; 58; 24])) /\
  (exists r s, (let* x := aitisa_cast (HPtr 0) (dtype_of I8) HUndef in let* y := aitisa_cast (HPtr 5) (dtype_of I8) HUndef in
       aitisa_matmul x.2 y.2 HUndef) E0 (fx [X_a; X_b]) = Done r s /\
    peek E0 s r = Some (SUCCESS, [2; 2], VI <$> [22; 12; 58; 24])).
Proof. split; apply run_ex; vm_compute; reflexivity. Qed.
(** 0.5, -3.5 and 6 converted to int; -1 becomes 255 as a byte, so there the order matters. *)
Definition Y_f : atensor := AT F64 cpu [3] [VF (S754_finite false 4503599627370496 (-53)); VF (S754_finite true 7881299347898368 (-51)); VF (S754_finite false 6755399441055744 (-50))].
Example C81_relu_ex : valid Y_f /\ init Y_f /\ I32 <> a_type Y_f /\ fits (tsz I32) (a_dims Y_f) /\
  Forall (fun v => cast_val (a_type Y_f) I32 v <> None) (a_vals Y_f).
Proof. split_and!; [lit_valid|repeat constructor; vm_compute; reflexivity|done|lit_fits|repeat constructor; vm_compute; discriminate]. Qed.
Example C81_relu_run :
  (exists r s, (let* x := aitisa_relu (HPtr 0) HUndef in aitisa_cast x.2 (dtype_of I32) HUndef) E0 (fx [Y_f]) = Done r s /\
    peek E0 s r = Some (SUCCESS, [3], VI <$> [0; 0; 6])) /\
  (exists r s, (let* x := aitisa_cast (HPtr 0) (dtype_of I32) HUndef in aitisa_relu x.2 HUndef) E0 (fx [Y_f]) = Done r s /\
    peek E0 s r = Some (SUCCESS, [3], VI <$> [0; 0; 6])) /\
  (exists r s, aitisa_cast (HPtr 0) (dtype_of I32) HUndef E0 (fx [Y_f]) = Done r s /\
    peek E0 s r = Some (SUCCESS, [3], VI <$> [0; -3; 6])).
Proof. split_and!; apply run_ex; vm_compute; reflexivity. Qed.
Definition Y_m : atensor := AT I32 cpu [1] (VI <$> [-1]).
Example C81_relu_narrower_run :
  (exists r s, (let* x := aitisa_relu (HPtr 0) HUndef in aitisa_cast x.2 (dtype_of U8) HUndef) E0 (fx [Y_m]) = Done r s /\
    peek E0 s r = Some (SUCCESS, [1], VI <$> [0])) /\
  (exists r s, (let* x := aitisa_cast (HPtr 0) (dtype_of U8) HUndef in aitisa_relu x.2 HUndef) E0 (fx [Y_m]) = Done r s /\
    peek E0 s r = Some (SUCCESS, [1], VI <$> [255])).
Proof. split; apply run_ex; vm_compute; reflexivity. Qed.
