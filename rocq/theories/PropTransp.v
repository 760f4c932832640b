(** * PropTransp: products of transposed matrices and of swapped vectors (C80) *)
From stdpp Require Import gmap list.
From Coq Require Import ZArith Lia Floats.SpecFloat.
From Verif Require Import Base Mem Spec SpecRing SpecTransp ModelCore ModelMath Logic ProofCore ProofCore2 ProofTransp PropUnit Fixture.
Open Scope Z_scope.

(** The product of the transposed factors in reverse order is the transposed product, bit by bit, whenever no element of
    the product overflows ... *)
Theorem C80_matrices : forall t m k n A B A' B',
  matrix t m k A -> matrix t k n B -> matrix t k m A' -> matrix t n k B' -> a_dev B = a_dev A ->
  transposed A A' -> transposed B B' ->
  m <= INT_MAX -> k <= INT_MAX -> n <= INT_MAX -> m * n <= INT_MAX -> fits (tsz t) [m; n] ->
  (forall i j, 0 <= i < m -> 0 <= j < n -> is_Some (inner t k (fun q => at_ A [i; q]) (fun q => at_ B [q; j]))) ->
  exists C C', transposed C C' /\ gives aitisa_matmul A B C /\ gives aitisa_matmul B' A' C'.
Proof. exact mm_transp. Qed.
Print Assumptions C80_matrices.
(** ... which these types never do. *)
Theorem C80_matrices_any : forall t m k n A B A' B', t ∈ [I8; U8; I16; U32; U64; F32; F64] ->
  matrix t m k A -> matrix t k n B -> matrix t k m A' -> matrix t n k B' -> a_dev B = a_dev A ->
  transposed A A' -> transposed B B' ->
  m <= INT_MAX -> k <= INT_MAX -> n <= INT_MAX -> m * n <= INT_MAX -> fits (tsz t) [m; n] ->
  exists C C', transposed C C' /\ gives aitisa_matmul A B C /\ gives aitisa_matmul B' A' C'.
Proof. exact mm_transp_types. Qed.
Print Assumptions C80_matrices_any.
(** A matrix times a vector is the vector times the transposed matrix. *)
Theorem C80_vector : forall t m k A A' v, matrix t m k A -> matrix t k m A' ->
  valid v -> a_type v = t -> a_dims v = [k] -> a_dev v = a_dev A ->
  transposed A A' -> k <= INT_MAX -> m <= INT_MAX -> fits (tsz t) [m] ->
  (forall i, 0 <= i < m -> is_Some (inner t k (fun q => at_ A [i; q]) (fun q => at_ v [q]))) ->
  exists C, gives aitisa_matmul A v C /\ gives aitisa_matmul v A' C.
Proof. exact mv_transp. Qed.
Print Assumptions C80_vector.
(** The dot product of two vectors does not depend on their order. *)
Theorem C80_dot : forall t k v w x, valid v -> valid w -> a_type v = t -> a_type w = t -> a_dims v = [k] -> a_dims w = [k] ->
  a_dev w = a_dev v -> dev_type (a_dev v) = 0 -> k <= INT_MAX ->
  inner t k (fun q => at_ v [q]) (fun q => at_ w [q]) = Some x ->
  gives aitisa_dot v w (AT t (a_dev v) [1] [x]) /\ gives aitisa_dot w v (AT t (a_dev v) [1] [x]).
Proof. exact vv_swap. Qed.
Print Assumptions C80_dot.

(** ** Cases *)
Definition X_a : atensor := AT I32 cpu [2; 3] (VI <$> [1; 2; 3; 4; 5; 6]).
Definition X_a' : atensor := AT I32 cpu [3; 2] (VI <$> [1; 4; 2; 5; 3; 6]).
Definition X_b : atensor := AT I32 cpu [3; 2] (VI <$> [7; -1; 0; 2; 5; 3]).
Definition X_b' : atensor := AT I32 cpu [2; 3] (VI <$> [7; 0; 5; -1; 2; 3]).
Definition X_v : atensor := AT I32 cpu [3] (VI <$> [2; -1; 3]).
Definition X_w : atensor := AT I32 cpu [3] (VI <$> [4; 0; -6]).
Ltac mat := unfold matrix; split_and!; [lit_valid|repeat constructor; vm_compute; repeat split; congruence|done|done|done].
Ltac tra := repeat eexists; try reflexivity; intros i j Hi Hj;
  assert (i = 0 \/ i = 1 \/ i = 2) as [-> | [-> | ->]] by lia; assert (j = 0 \/ j = 1 \/ j = 2) as [-> | [-> | ->]] by lia; try lia; reflexivity.
Example C80_ex : matrix I32 2 3 X_a /\ matrix I32 3 2 X_b /\ matrix I32 3 2 X_a' /\ matrix I32 2 3 X_b' /\
  transposed X_a X_a' /\ transposed X_b X_b' /\ fits (tsz I32) [2; 2] /\
  forall i j, 0 <= i < 2 -> 0 <= j < 2 -> is_Some (inner I32 3 (fun q => at_ X_a [i; q]) (fun q => at_ X_b [q; j])).
Proof.
  split_and!; [mat|mat|mat|mat|tra|tra|lit_fits|]. intros i j Hi Hj.
  assert (i = 0 \/ i = 1) as [-> | ->] by lia; assert (j = 0 \/ j = 1) as [-> | ->] by lia; vm_compute; eauto.
Qed.
Example C80_run :
  (exists r s, aitisa_matmul (HPtr 0) (HPtr 5) HUndef E0 (fx [X_a; X_b]) = Done r s /\
    peek E0 s r = Some (SUCCESS, [2; 2], VI <$> [22; 12; 58; 24])) /\
  (exists r s, aitisa_matmul (HPtr 0) (HPtr 5) HUndef E0 (fx [X_b'; X_a']) = Done r s /\
    peek E0 s r = Some (SUCCESS, [2; 2], VI <$> [22; 58; 12; 24])).
Proof. split; apply run_ex; vm_compute; reflexivity. Qed.
(** Without transposing, the factors do not commute. *)
Example C80_order_run :
  exists r s, aitisa_matmul (HPtr 0) (HPtr 5) HUndef E0 (fx [X_b; X_a]) = Done r s /\
    peek E0 s r = Some (SUCCESS, [3; 3], VI <$> [3; 9; 15; 8; 10; 12; 17; 25; 33]).
Proof. apply run_ex; vm_compute; reflexivity. Qed.
Example C80_vector_ex : valid X_v /\ valid X_w /\ fits (tsz I32) [2] /\
  (forall i, 0 <= i < 2 -> is_Some (inner I32 3 (fun q => at_ X_a [i; q]) (fun q => at_ X_v [q]))) /\
  inner I32 3 (fun q => at_ X_v [q]) (fun q => at_ X_w [q]) = Some (VI (-10)).
Proof.
  split_and!; [lit_valid|lit_valid|lit_fits| |reflexivity]. intros i Hi. assert (i = 0 \/ i = 1) as [-> | ->] by lia; vm_compute; eauto.
Qed.
Example C80_vector_run :
  (exists r s, aitisa_matmul (HPtr 0) (HPtr 5) HUndef E0 (fx [X_a; X_v]) = Done r s /\
    peek E0 s r = Some (SUCCESS, [2], VI <$> [9; 21])) /\
  (exists r s, aitisa_matmul (HPtr 0) (HPtr 5) HUndef E0 (fx [X_v; X_a']) = Done r s /\
    peek E0 s r = Some (SUCCESS, [2], VI <$> [9; 21])) /\
  (exists r s, aitisa_dot (HPtr 0) (HPtr 5) HUndef E0 (fx [X_v; X_w]) = Done r s /\
    peek E0 s r = Some (SUCCESS, [1], [VI (-10)])) /\
  (exists r s, aitisa_dot (HPtr 0) (HPtr 5) HUndef E0 (fx [X_w; X_v]) = Done r s /\
    peek E0 s r = Some (SUCCESS, [1], [VI (-10)])).
Proof. split_and!; apply run_ex; vm_compute; reflexivity. Qed.
(** An always defined type: products of bytes wrap *)
Definition X_c : atensor := AT U8 cpu [1; 2] (VI <$> [200; 100]).
Definition X_c' : atensor := AT U8 cpu [2; 1] (VI <$> [200; 100]).
Definition X_d : atensor := AT U8 cpu [2; 2] (VI <$> [3; 1; 2; 255]).
Definition X_d' : atensor := AT U8 cpu [2; 2] (VI <$> [3; 2; 1; 255]).
Example C80_any_ex : U8 ∈ [I8; U8; I16; U32; U64; F32; F64] /\ matrix U8 1 2 X_c /\ matrix U8 2 2 X_d /\ matrix U8 2 1 X_c' /\ matrix U8 2 2 X_d' /\
  transposed X_c X_c' /\ transposed X_d X_d' /\ fits (tsz U8) [1; 2].
Proof. split_and!; [right; left|mat|mat|mat|mat|tra|tra|lit_fits]. Qed.
Example C80_any_run :
  (exists r s, aitisa_matmul (HPtr 0) (HPtr 5) HUndef E0 (fx [X_c; X_d]) = Done r s /\
    peek E0 s r = Some (SUCCESS, [1; 2], VI <$> [32; 100])) /\
  (exists r s, aitisa_matmul (HPtr 0) (HPtr 5) HUndef E0 (fx [X_d'; X_c']) = Done r s /\
    peek E0 s r = Some (SUCCESS, [2; 1], VI <$> [32; 100])).
Proof. split; apply run_ex; vm_compute; reflexivity. Qed.
