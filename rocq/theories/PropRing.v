(** * PropRing: matrix products and sums of integers obey the ring laws (C73) *)
From stdpp Require Import gmap list.
From Coq Require Import ZArith Lia.
From Verif Require Import Base Mem Spec SpecReal SpecRing ModelCore ModelMath Logic ProofCore ProofCore2 ProofRing Fixture.
Open Scope Z_scope.

(** The types whose arithmetic never overflows: products associate, whatever wraps around. *)
Theorem C73_associative : forall t A B C m k l n,
  t ∈ [I8; U8; I16; U32; U64] -> matrix t m k A -> matrix t k l B -> matrix t l n C ->
  m <= INT_MAX -> k <= INT_MAX -> l <= INT_MAX -> n <= INT_MAX -> m * l <= INT_MAX -> k * n <= INT_MAX -> m * n <= INT_MAX ->
  exists AB BC P, matrix t m l AB /\ matrix t k n BC /\ matrix t m n P /\
    gives aitisa_matmul A B AB /\ gives aitisa_matmul B C BC /\
    gives aitisa_matmul AB C P /\ gives aitisa_matmul A BC P.
Proof. exact assoc. Qed.
Print Assumptions C73_associative.
(** Products distribute over sums on both sides. *)
Theorem C73_distributive_left : forall t A B C m k n,
  t ∈ [I8; U8; I16; U32; U64] -> matrix t m k A -> matrix t k n B -> matrix t k n C ->
  m <= INT_MAX -> k <= INT_MAX -> n <= INT_MAX -> m * n <= INT_MAX -> k * n <= INT_MAX ->
  exists BC AB AC P, matrix t k n BC /\ matrix t m n AB /\ matrix t m n AC /\ matrix t m n P /\
    gives aitisa_add B C BC /\ gives aitisa_matmul A B AB /\ gives aitisa_matmul A C AC /\
    gives aitisa_matmul A BC P /\ gives aitisa_add AB AC P.
Proof. exact distr_l. Qed.
Print Assumptions C73_distributive_left.
Theorem C73_distributive_right : forall t A B C m k n,
  t ∈ [I8; U8; I16; U32; U64] -> matrix t m k A -> matrix t m k B -> matrix t k n C ->
  m <= INT_MAX -> k <= INT_MAX -> n <= INT_MAX -> m * n <= INT_MAX -> m * k <= INT_MAX ->
  exists AB AC BC P, matrix t m k AB /\ matrix t m n AC /\ matrix t m n BC /\ matrix t m n P /\
    gives aitisa_add A B AB /\ gives aitisa_matmul A C AC /\ gives aitisa_matmul B C BC /\
    gives aitisa_matmul AB C P /\ gives aitisa_add AC BC P.
Proof. exact distr_r. Qed.
Print Assumptions C73_distributive_right.
(** Unit matrices are neutral, for every integer type (also those that can overflow). *)
Theorem C73_unit_right : forall t A U d m n,
  is_float t = false -> matrix t m n A -> unit_matrix t d n U -> dev_type d = 0 ->
  m <= INT_MAX -> n <= INT_MAX -> m * n <= INT_MAX -> gives aitisa_matmul A U A.
Proof. exact unit_r. Qed.
Print Assumptions C73_unit_right.
Theorem C73_unit_left : forall t A U d m n,
  is_float t = false -> matrix t m n A -> unit_matrix t d m U -> d = a_dev A ->
  m <= INT_MAX -> n <= INT_MAX -> m * n <= INT_MAX -> gives aitisa_matmul U A A.
Proof. exact unit_l. Qed.
Print Assumptions C73_unit_left.

(** ** Cases that meet the hypotheses *)
Definition R_a : atensor := AT U8 cpu [2; 3] (VI <$> [200; 3; 17; 0; 255; 90]).
Definition R_b : atensor := AT U8 cpu [3; 2] (VI <$> [7; 100; 250; 1; 33; 64]).
Definition R_b' : atensor := AT U8 cpu [3; 2] (VI <$> [1; 200; 9; 254; 128; 5]).
Definition R_c : atensor := AT U8 cpu [2; 2] (VI <$> [99; 2; 128; 77]).
Definition R_u : atensor := AT U8 cpu [2; 2] (VI <$> [1; 0; 0; 1]).
Lemma R_matrices : matrix U8 2 3 R_a /\ matrix U8 3 2 R_b /\ matrix U8 3 2 R_b' /\ matrix U8 2 2 R_c.
Proof. split_and!; try done; try lit_valid; repeat constructor; vm_compute; discriminate. Qed.
Lemma R_unit : unit_matrix U8 cpu 2 R_u.
Proof.
  split_and!; try done; [lit_valid|]. intros i j Hi Hj.
  assert (i = 0 \/ i = 1) as [-> | ->] by lia; assert (j = 0 \/ j = 1) as [-> | ->] by lia; reflexivity.
Qed.
Example C73_ex : U8 ∈ [I8; U8; I16; U32; U64] /\ matrix U8 2 3 R_a /\ matrix U8 3 2 R_b /\ matrix U8 3 2 R_b' /\ matrix U8 2 2 R_c /\
  unit_matrix U8 cpu 2 R_u /\ dev_type cpu = 0 /\ 2 * 2 <= INT_MAX /\ 3 * 2 <= INT_MAX.
Proof.
  destruct R_matrices as (H1 & H2 & H3 & H4).
  split_and!; [rewrite !elem_of_cons; tauto|done..|exact R_unit|done|vm_compute; discriminate|vm_compute; discriminate].
Qed.
(** Without the restriction on the types associativity fails: for 32-bit signed integers one order
    is defined and the other is not. *)
Definition R_2 : atensor := AT I32 cpu [1; 1] [VI 2].
Definition R_big : atensor := AT I32 cpu [1; 1] [VI (2 ^ 30)].
Definition R_0 : atensor := AT I32 cpu [1; 1] [VI 0].
Example C73_signed_differs :
  aitisa_matmul (HPtr 0) (HPtr 5) HUndef E0 (fx [R_2; R_big; R_0]) = UB UB_overflow /\
  (exists r s, aitisa_matmul (HPtr 5) (HPtr 10) HUndef E0 (fx [R_2; R_big; R_0]) = Done r s /\ peek E0 s r = Some (SUCCESS, [1; 1], [VI 0])) /\
  (exists r s, aitisa_matmul (HPtr 0) (HPtr 10) HUndef E0 (fx [R_2; R_big; R_0]) = Done r s /\ peek E0 s r = Some (SUCCESS, [1; 1], [VI 0])).
Proof.
  split_and!; [vm_compute; reflexivity| |]; eexists _, _; (split; [vm_compute; reflexivity|vm_compute; reflexivity]).
Qed.
