(** * PropRoot: the square root of an integer, exactly (C30) *)
From stdpp Require Import gmap list.
From Coq Require Import ZArith Lia.
From Verif Require Import Base Mem Spec SpecReal SpecScale SpecRoot ModelCore ModelMath Logic ProofCore ProofCore2
  ProofSqrt ProofScale ProofRoot2 Fixture.
Open Scope Z_scope.

(** Every integer tensor without negative elements: each result is the integer root or, exactly
    when the nearest double is close enough to the next square, one more. *)
Theorem C30_exact : forall p T o E s,
  wf s -> holds (heap s) p T -> init T -> is_float (a_type T) = false ->
  Forall (fun v => ~ negative v) (a_vals T) ->
  exists ys, Forall2 (fun v y => exists z, v = VI z /\ rounded_root z y) (a_vals T) ys /\
  makes_or_nomem (aitisa_sqrt (HPtr p) o) E s o (AT (a_type T) (a_dev T) (a_dims T) (VI <$> ys)).
Proof. exact sqrt_exact. Qed.
Print Assumptions C30_exact.
(** That determines the result; it is the root below 2^52, and wrong one below every square
    above 2^52. *)
Theorem C30_boundary :
  (forall z y y', rounded_root z y -> rounded_root z y' -> y = y') /\
  (forall z y, 0 <= z < 2 ^ 52 -> rounded_root z y -> y = Z.sqrt z) /\
  (forall m y, 2 ^ 26 < m <= 2 ^ 32 -> rounded_root (m * m - 1) y -> y = m).
Proof. exact root_facts. Qed.
Print Assumptions C30_boundary.
Theorem C30_always_refuted : forall p T o E s i m,
  wf s -> holds (heap s) p T -> init T -> is_float (a_type T) = false ->
  Forall (fun v => ~ negative v) (a_vals T) ->
  a_vals T !! i = Some (VI (m * m - 1)) -> 2 ^ 26 < m <= 2 ^ 32 ->
  exists ys, ys !! i = Some m /\ m * m - 1 < m * m /\
  makes_or_nomem (aitisa_sqrt (HPtr p) o) E s o (AT (a_type T) (a_dev T) (a_dims T) (VI <$> ys)).
Proof. exact sqrt_wrong. Qed.
Print Assumptions C30_always_refuted.

(** 2^52 - 1, (2^26 + 1)^2 - 2, (2^26 + 1)^2 - 1 and 2^64 - 1. *)
Definition T_roots : atensor := AT U64 cpu [4] (VI <$> [4503599627370495; 4503599761588223; 4503599761588224; 18446744073709551615]).
Lemma T_roots_valid : valid T_roots. Proof. lit_valid. Qed.
Example C30_exact_ex :
  wf (fx [T_roots]) /\ holds (heap (fx [T_roots])) 0 T_roots /\ init T_roots /\ is_float (a_type T_roots) = false /\
  Forall (fun v => ~ negative v) (a_vals T_roots) /\
  a_vals T_roots !! 2%nat = Some (VI (67108865 * 67108865 - 1)) /\ 2 ^ 26 < 67108865 <= 2 ^ 32 /\
  exists r s', aitisa_sqrt (HPtr 0) HNull E0 (fx [T_roots]) = Done r s' /\
    peek E0 s' r = Some (SUCCESS, [4], VI <$> [67108863; 67108864; 67108865; 4294967296]).
Proof.
  split_and!; [apply fx_wf|exact (fx_holds [T_roots] 0 T_roots eq_refl T_roots_valid)|repeat constructor; vm_compute; discriminate|done| |done|lia|lia|].
  - repeat constructor; cbn; lia.
  - apply run_ex. vm_compute. reflexivity.
Qed.
