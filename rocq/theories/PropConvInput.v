(** * PropConvInput: ownership in the samples of the convolution tests (C68)

    [creach E V s]: the objects [V] and the memory [s] are what a history obeying
    the discipline [clegal] of SpecConvInput has built.  Copies and assignments
    are outside the discipline: they are the subject of the refutations. *)
From stdpp Require Import gmap list.
From Coq Require Import ZArith Lia.
From Verif Require Import Base Mem Spec ModelSample SpecSample ModelConvInput SpecConvInput ProofConvInput2 ExampleConvInput Fixture.
Open Scope Z_scope.

(** A history never has undefined behaviour; it stops early only if [new] is
    refused or a length is negative. *)
Theorem C68_safe_partial : forall E h s0, wf s0 -> clegal_run E h ∅ s0 ->
  (exists V s, csteps h ∅ E s0 = Done V s) \/
  (csteps h ∅ E s0 = Abort /\ ~ (alloc_all E /\ Forall croomy h)).
Proof. exact conv_safe. Qed.
Print Assumptions C68_safe_partial.

(** The arrays of an object are live. *)
Theorem C68_live_partial : forall E V s x o b,
  creach E V s -> V !! x = Some o -> HPtr b ∈ arrays o -> exists c, heap s !! b = Some (Blk ARR c).
Proof. exact conv_live. Qed.
Print Assumptions C68_live_partial.

(** Every step releases exactly what loses its object. *)
Theorem C68_step_partial : forall E op V s V' s',
  creach E V s -> clegal op V (heap s) -> cstep op V E s = Done V' s' -> exact_step op V s V' s'.
Proof. exact conv_exact. Qed.
Print Assumptions C68_step_partial.

(** Nothing is leaked: what is live was there before or belongs to an object. *)
Theorem C68_no_leak_partial : forall E h s0 V s,
  wf s0 -> clegal_run E h ∅ s0 -> Forall no_new h -> csteps h ∅ E s0 = Done V s ->
  forall b, is_Some (heap s !! b) -> is_Some (heap s0 !! b) \/ held V b.
Proof. exact conv_tight. Qed.
Print Assumptions C68_no_leak_partial.

(** ** Counterexamples *)

(** A copy shares the three arrays, but no counter guards them: destroying the copy
    frees those of the original, and destroying the original frees them again. *)
Theorem C68_copy_refuted : forall E V s x y o b,
  creach E V s -> V !! x = Some o -> V !! y = None -> HPtr b ∈ c_arrs o ->
  exists s', csteps [CCopy y x; CDestroy y] V E s = Done V s' /\ heap s' !! b = None /\
    cstep (CDestroy x) V E s' = UB UB_free.
Proof. exact copy_destroys. Qed.
Print Assumptions C68_copy_refuted.

(** operator= has no return statement. *)
Theorem C68_assignment_refuted : forall E V s x y V' s', cstep (CAssign x y) V E s <> Done V' s'.
Proof. exact assign_never. Qed.
Print Assumptions C68_assignment_refuted.

(** Its body leaves the arrays of the left side behind ... *)
Theorem C68_assignment_leak_refuted : forall E V s x y o q o' s' b,
  creach E V s -> V !! x = Some o -> V !! y = Some q -> x <> y ->
  conv_assign_body false o q E s = Done o' s' -> HPtr b ∈ c_arrs o ->
  (exists c, heap s' !! b = Some (Blk ARR c)) /\ ~ held (<[x := o']> V) b.
Proof. exact assign_leaves. Qed.
Print Assumptions C68_assignment_leak_refuted.
(** ... and forgets the number of groups. *)
Theorem C68_groups_refuted : forall self o q E s o' s',
  conv_assign_body self o q E s = Done o' s' -> c_groups o' = c_groups o.
Proof. exact assign_groups. Qed.
Print Assumptions C68_groups_refuted.

(** The constructor throws on an input of fewer than two dimensions ... *)
Theorem C68_low_rank_refuted : forall E V s x n1 v1 n2 v2 m d1 d2 st pa di g,
  alloc_all E -> 0 <= n1 < 2 -> 0 <= 8 * n2 <= PTRDIFF_MAX ->
  n1 <= Z.of_nat (length v1) -> n2 <= Z.of_nat (length v2) ->
  cstep (CVec x n1 v1 n2 v2 m d1 d2 st pa di g) V E s = Abort.
Proof. exact vec_low_rank. Qed.
Print Assumptions C68_low_rank_refuted.
(** ... and reads past a vector that is shorter than the spatial dimensions. *)
Theorem C68_short_vector_refuted : forall E V s x n1 v1 n2 v2 m d1 d2 st pa di g,
  alloc_all E -> 2 <= n1 -> n1 - 2 <= INT_MAX -> 0 <= 8 * n2 <= PTRDIFF_MAX ->
  n1 <= Z.of_nat (length v1) -> n2 <= Z.of_nat (length v2) ->
  Z.of_nat (length st) < n1 - 2 \/ Z.of_nat (length pa) < n1 - 2 \/ Z.of_nat (length di) < n1 - 2 ->
  cstep (CVec x n1 v1 n2 v2 m d1 d2 st pa di g) V E s = UB UB_oob.
Proof. exact vec_short. Qed.
Print Assumptions C68_short_vector_refuted.

(** ** Examples *)

(** The two samples of the fixture of conv_test.h:79-90, with their data. *)
Definition ex_samples : list cop :=
  [CVec 0 4 [6; 32; 124; 128] 4 [64; 32; 2; 2] [8; 1; 0; 4; 8; 1; 0] HNull HNull [2; 2] [0; 0] [1; 1] 1;
   CVec 1 4 [7; 16; 100; 180] 4 [32; 16; 3; 3] [8; 1; 0; 4; 8; 1; 0] HNull HNull [3; 3] [1; 0] [2; 2] 1].
Definition ex_data : list cop :=
  [CNewArr 12189696 (CRaw 12189696); CNewArr 32768 (CRaw 32768);
   CSetData 0 2 (HPtr 12) [4; 8; 1; 12189696; 4; 8; 1; 0]; CSetData 0 3 (HPtr 13) [4; 8; 1; 12189696; 4; 8; 1; 32768];
   CUse 0 0; CUse 0 1; CUse 1 2].
Example C68_example_fixture :
  clegal_run E0 (ex_samples ++ ex_data ++ [CDestroy 1; CDestroy 0]) ∅ s_empty /\
  cends (csteps (ex_samples ++ ex_data ++ [CDestroy 1]) ∅ E0 s_empty) <> None /\
  cends (csteps (ex_samples ++ ex_data ++ [CDestroy 1; CDestroy 0]) ∅ E0 s_empty) = Some ([], []).
Proof. split; [apply clegal_runb_sound|split]; vm_compute; [reflexivity|discriminate|reflexivity]. Qed.
Example C68_example_no_leak : Forall no_new ex_samples /\ clegal_run E0 ex_samples ∅ s_empty.
Proof. split; [repeat constructor|apply clegal_runb_sound; vm_compute; reflexivity]. Qed.
(** A copy of a fixture's sample. *)
Example C68_example_copy :
  csteps (ex_samples ++ [CCopy 2 0; CDestroy 2; CDestroy 0]) ∅ E0 s_empty = UB UB_free /\
  csteps (ex_samples ++ [CCopy 2 0; CDestroy 0; CDestroy 2]) ∅ E0 s_empty = UB UB_free.
Proof. vm_compute. done. Qed.
(** The body of input0 = input1. *)
Example C68_example_assignment : exists V s o q o' s',
  creach E0 V s /\ V !! 0%nat = Some o /\ V !! 1%nat = Some q /\
  conv_assign_body false o q E0 s = Done o' s' /\ c_arrs o = [HPtr 3; HPtr 4; HPtr 5] /\ c_arrs o' = [HPtr 12; HPtr 13; HPtr 14] /\
  heap s' !! 12%nat = Some (Blk ARR (CInts [3; 3])).
Proof.
  destruct (csteps ex_samples ∅ E0 s_empty) as [V s| | |] eqn:H; [|vm_compute in H; discriminate..].
  exists V, s. assert (creach E0 V s) as Hr.
  { exists ex_samples, s_empty. split_and!; [apply s_empty_wf|apply clegal_runb_sound; vm_compute; reflexivity|done]. }
  vm_compute in H. injection H as <- <-. do 4 eexists. split; [exact Hr|].
  split; [vm_compute; reflexivity|]. split; [vm_compute; reflexivity|]. split; [vm_compute; reflexivity|]. vm_compute. done.
Qed.
