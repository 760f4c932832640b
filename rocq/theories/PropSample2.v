(** * PropSample2: whole samples, and vectors that are too short (C53) *)
From stdpp Require Import gmap list.
From Coq Require Import ZArith Lia.
From Verif Require Import Base Mem Spec ModelCore ModelSample SpecSample ProofSample5 ProofSample6 ExampleSample Fixture.
Open Scope Z_scope.

(** A std::vector shorter than the stated number of dimensions is read past its end. *)
Theorem C53_short_vector_refuted : forall E V s x n v m d,
  alloc_all E -> Z.of_nat (length v) < n -> 8 * n <= PTRDIFF_MAX -> step (Vec1 x n v m d) V E s = UB UB_oob.
Proof. exact short_vector. Qed.
Print Assumptions C53_short_vector_refuted.
Theorem C53_short_vectors_refuted : forall E V s x n1 v1 n2 v2 m d1 d2,
  alloc_all E -> 0 <= 8 * n1 <= PTRDIFF_MAX -> 0 <= 8 * n2 <= PTRDIFF_MAX ->
  (Z.of_nat (length v1) < n1 \/ Z.of_nat (length v2) < n2) -> step (Vec2 x n1 v1 n2 v2 m d1 d2) V E s = UB UB_oob.
Proof. exact short_vectors. Qed.
Print Assumptions C53_short_vectors_refuted.
(** Moving a sample copies it: the sample moved from keeps its input and its result, the new one shares them.  Only counter
    cells change. *)
Theorem C53_sample_move : forall E V s x y i r, reach E V s ->
  V !! (2 * y)%nat = Some i -> V !! (2 * y + 1)%nat = Some r -> o_count i <> HNull -> o_count r <> HNull ->
  V !! (2 * x)%nat = None -> V !! (2 * x + 1)%nat = None -> Z.of_nat (size V) + 1 < INT_MAX ->
  exists s', steps (sample_move x y) V E s = Done (<[(2 * x + 1)%nat := r]> (<[(2 * x)%nat := i]> V)) s' /\
    forall b t c, heap s !! b = Some (Blk t c) -> t <> CNT -> heap s' !! b = Some (Blk t c).
Proof. exact sample_moves. Qed.
Print Assumptions C53_sample_move.
(** Destroying a sample releases exactly those of its buffers that nothing else owns. *)
Theorem C53_sample_destroy : forall E V s x i r, reach E V s ->
  V !! (2 * x)%nat = Some i -> V !! (2 * x + 1)%nat = Some r ->
  exists s', steps (sample_destroy x) V E s = Done (delete (2 * x)%nat (delete (2 * x + 1)%nat V)) s' /\
    forall b, owned V b ->
      (owned (delete (2 * x)%nat (delete (2 * x + 1)%nat V)) b /\ heap s' !! b = heap s !! b) \/
      (~ owned (delete (2 * x)%nat (delete (2 * x + 1)%nat V)) b /\ heap s' !! b = None).
Proof. exact sample_destroys. Qed.
Print Assumptions C53_sample_destroy.
(** Every sample leaks a counter: an empty sample made and destroyed leaves exactly one cell behind. *)
Theorem C53_sample_leak_refuted : forall E V s x k, reach E V s -> alloc_all E -> k <> Result ->
  V !! (2 * x)%nat = None -> V !! (2 * x + 1)%nat = None ->
  steps (sample_default x k ++ sample_destroy x) V E s
  = Done V (St (<[S (ctr s) := Blk CNT (CInts [0])]> (heap s)) (S (S (ctr s))) (rpos s)).
Proof. exact sample_life. Qed.
Print Assumptions C53_sample_leak_refuted.

(** ** Cases that meet the hypotheses: sample 0, made by the default constructor *)
Lemma one_sample : exists V s i r, reach E0 V s /\ V !! 0%nat = Some i /\ V !! 1%nat = Some r /\
  o_count i <> HNull /\ o_count r <> HNull /\ V !! 2%nat = None /\ V !! 3%nat = None /\ Z.of_nat (size V) + 1 < INT_MAX.
Proof.
  exists (<[1%nat := Obj Result [] [HNull; HNull] (HPtr 1)]> (<[0%nat := Obj Unary_Input [] [HNull; HNull] (HPtr 0)]> ∅)).
  eexists _, _, _. split; [|split_and!; done].
  exists (sample_default 0 Unary_Input), s_empty. split_and!; [apply s_empty_wf| |reflexivity].
  cbn. split; [done|]. intros V' s' [= <- <-]. split; [done|]. done.
Qed.
Example C53_sample_ex : exists V s i r, reach E0 V s /\ V !! (2 * 0)%nat = Some i /\ V !! (2 * 0 + 1)%nat = Some r /\
  o_count i <> HNull /\ o_count r <> HNull /\ V !! (2 * 1)%nat = None /\ V !! (2 * 1 + 1)%nat = None /\ Z.of_nat (size V) + 1 < INT_MAX.
Proof. exact one_sample. Qed.
(** A sample "moved" to sample 1: four objects are alive; after destroying both samples the counter of the result is left. *)
Example C53_sample_run :
  (exists l h, ends (steps (sample_default 0 Unary_Input ++ sample_move 1 0) ∅ E0 s_empty) = Some (l, h) /\ length l = 4%nat /\ length h = 2%nat) /\
  ends (steps (sample_default 0 Unary_Input ++ sample_move 1 0 ++ sample_destroy 0 ++ sample_destroy 1) ∅ E0 s_empty) = Some ([], [1%nat]).
Proof. split; [eexists _, _; split; [vm_compute; reflexivity|done]|vm_compute; reflexivity]. Qed.
Example C53_short_ex : step (Vec1 0 2 [7] [] HNull) ∅ E0 s_empty = UB UB_oob.
Proof. apply C53_short_vector_refuted; [apply E0_alloc|done|done]. Qed.
