(** * PropSample: ownership in the sample objects of the auto-test framework (C53)

    [reach E V s]: the objects [V] and the memory [s] are what a history obeying
    the discipline [legal] of SpecSample has built.  What happens outside the
    discipline is the subject of the refutations. *)
From stdpp Require Import gmap list.
From Coq Require Import ZArith Lia.
From Verif Require Import Base Mem Spec ModelCore ModelSample SpecSample ProofSample5 RefuteSample ExampleSample Fixture.
Open Scope Z_scope.

(** A history never has undefined behaviour; it stops early only if [new] finds
    no memory. *)
Theorem C53_safe_partial : forall E h s0, wf s0 -> legal_run E h ∅ s0 ->
  (exists V s, steps h ∅ E s0 = Done V s) \/
  (steps h ∅ E s0 = Abort /\ ~ (alloc_all E /\ Forall roomy h)).
Proof. exact history_safe. Qed.
Print Assumptions C53_safe_partial.

(** A buffer that some object owns is live. *)
Theorem C53_live_partial : forall E V s x b,
  reach E V s -> owner V x b -> exists c, heap s !! b = Some (Blk ARR c).
Proof. exact history_live. Qed.
Print Assumptions C53_live_partial.

(** Every step releases exactly the buffers whose last owner it removes. *)
Theorem C53_step_partial : forall E op V s V' s',
  reach E V s -> legal op V (heap s) -> step op V E s = Done V' s' -> releases op V s V' s'.
Proof. exact history_step. Qed.
Print Assumptions C53_step_partial.

(** Over any number of steps: a buffer is as it was while it has an owner, and
    gone for ever once it has none. *)
Theorem C53_release_partial : forall E V s h V' s' b,
  reach E V s -> legal_run E h V s -> steps h V E s = Done V' s' -> owned V b ->
  (owned V' b /\ heap s' !! b = heap s !! b) \/ (~ owned V' b /\ heap s' !! b = None).
Proof. exact history_release. Qed.
Print Assumptions C53_release_partial.

(** When all objects are gone, so are all their buffers. *)
Theorem C53_end_partial : forall E V s h s' b,
  reach E V s -> legal_run E h V s -> steps h V E s = Done ∅ s' -> owned V b -> heap s' !! b = None.
Proof. exact history_end. Qed.
Print Assumptions C53_end_partial.

(** Without assignments and results the counter cells are not leaked either. *)
Theorem C53_counters_partial : forall E h s0 V s,
  wf s0 -> no_count (heap s0) -> legal_run E h ∅ s0 -> Forall no_assign h ->
  steps h ∅ E s0 = Done V s ->
  forall c v, heap s !! c = Some (Blk CNT v) -> exists x o, V !! x = Some o /\ o_count o = HPtr c.
Proof. exact history_counters. Qed.
Print Assumptions C53_counters_partial.

(** ** Counterexamples *)

(** x = x frees the buffers of x; destroying x afterwards frees them again. *)
Theorem C53_self_assignment_refuted : forall E V s x o b,
  reach E V s -> V !! x = Some o -> ~ shared V x -> HPtr b ∈ o_bufs o ->
  exists s', step (Assign x x) V E s = Done V s' /\ owner V x b /\ heap s' !! b = None /\
    step (Destroy x) V E s' = UB UB_free.
Proof. exact self_assign. Qed.
Print Assumptions C53_self_assignment_refuted.

(** Copying from, assigning to or assigning from a moved-from object follows a
    null pointer. *)
Theorem C53_moved_from_refuted : forall E V s y o,
  V !! y = Some o -> o_count o = HNull ->
  (forall x, step (Copy x y) V E s = UB UB_null) /\
  (forall z a, V !! z = Some a -> step (Assign y z) V E s = UB UB_null) /\
  (forall x, reach E V s -> alive V x -> step (Assign x y) V E s = UB UB_null).
Proof. exact moved_from. Qed.
Print Assumptions C53_moved_from_refuted.
Theorem C53_move_then_copy_refuted : forall E V s x y z o,
  V !! y = Some o -> V !! x = None -> steps [Move x y; Copy z y] V E s = UB UB_null.
Proof. exact move_then_copy. Qed.
Print Assumptions C53_move_then_copy_refuted.

(** Assigning to the only owner of a counter leaks the counter. *)
Theorem C53_assignment_leak_refuted : forall E V s x y o c,
  reach E V s -> legal (Assign x y) V (heap s) -> V !! x = Some o -> o_count o = HPtr c -> ~ shared V x ->
  exists V' s', step (Assign x y) V E s = Done V' s' /\ heap s' !! c = Some (Blk CNT (CInts [0])) /\
    forall z oz, V' !! z = Some oz -> o_count oz <> HPtr c.
Proof. exact assign_leaks. Qed.
Print Assumptions C53_assignment_leak_refuted.

(** Destroying the last owner of a result leaks its counter. *)
Theorem C53_result_leak_refuted : forall E V s x o c,
  reach E V s -> V !! x = Some o -> o_class o = Result -> o_count o = HPtr c -> ~ shared V x ->
  exists s', step (Destroy x) V E s = Done (delete x V) s' /\ heap s' !! c = Some (Blk CNT (CInts [0])) /\
    forall z oz, delete x V !! z = Some oz -> o_count oz <> HPtr c.
Proof. exact result_leaks. Qed.
Print Assumptions C53_result_leak_refuted.

(** set_data over a buffer of one's own leaks the buffer. *)
Theorem C53_set_data_leak_refuted : forall E V s x o i b p m,
  reach E V s -> V !! x = Some o -> ~ shared V x -> o_bufs o !! i = Some (HPtr b) -> p <> HPtr b ->
  exists V' c, step (SetData x i p m) V E s = Done V' s /\ heap s !! b = Some (Blk ARR c) /\ ~ owned V' b.
Proof. exact set_data_leaks. Qed.
Print Assumptions C53_set_data_leak_refuted.

(** INT_MAX copies of one object overflow its counter. *)
Theorem C53_overflow_refuted : forall n E s, alloc_all E -> Z.of_nat n = INT_MAX ->
  steps (Default 0 Unary_Input :: copies n) ∅ E s = UB UB_overflow.
Proof. exact history_overflow. Qed.
Print Assumptions C53_overflow_refuted.

(** A tensor made over the data of a sample and destroyed, as
    get_binary_sample does, sample.h:206-218: with hooks other than
    new[]/delete[] destroying the tensor is undefined, with those destroying
    the sample is. *)
Theorem C53_tensor_over_sample_refuted : forall E V s x o b bytes t dev dims len out,
  reach E V s -> V !! x = Some o -> ~ shared V x -> HPtr b ∈ o_bufs o ->
  heap s !! b = Some (Blk ARR (CData bytes)) ->
  alloc_all E -> hooks_ok E -> fits (tsz t) dims -> len / Z.of_nat (tsz t) = prodZ dims ->
  (let* (_, tensor) := aitisa_create (dtype_of t) dev dims (Z.of_nat (length dims)) (HPtr b) len out in
   let* _ := aitisa_destroy tensor in step (Destroy x) V) E s = UB UB_free.
Proof. exact tensor_over_sample. Qed.
Print Assumptions C53_tensor_over_sample_refuted.
Theorem C53_tensor_over_sample_hooks_refuted : forall E V s b bytes t dev dims len out,
  reach E V s -> owned V b -> heap s !! b = Some (Blk ARR (CData bytes)) ->
  alloc_all E -> hooks_ok E -> e_dealloc E <> ARR -> fits (tsz t) dims -> len / Z.of_nat (tsz t) = prodZ dims ->
  (let* (_, tensor) := aitisa_create (dtype_of t) dev dims (Z.of_nat (length dims)) (HPtr b) len out in
   aitisa_destroy tensor) E s = UB UB_free.
Proof. exact tensor_over_sample_hooks. Qed.
Print Assumptions C53_tensor_over_sample_hooks_refuted.

(** ** Examples *)

(** Two inputs and a sample of the first, whose input is then replaced by the
    second; a result with a copy. *)
Definition ex_history : list hop :=
  [NewArr 8 (CInts [2]); NewArr 8 (CData (replicate 8 MU));
   Ptrs 10 Unary_Input [1; 8; 0; 8] [HPtr 0; HPtr 1];
   NewArr 4 (CData (replicate 4 MU));
   Vec1 11 2 [1; 1] [2; 8; 0; 4] (HPtr 3)] ++
  sample_of 0 10 ++ sample_copy 1 0 ++ sample_set_input 0 11 ++
  [Move 12 10; Use 2 1; SetData 11 1 HNull []].

Example C53_example_illegal : legal_runb E0 ex_history ∅ s_empty = false.
Proof. vm_compute. reflexivity. Qed.

(** Without the last step, which drops a buffer, the history is legal. *)
Definition ex_build : list hop := take (length ex_history - 1) ex_history.
Definition ex_rest : list hop :=
  [Destroy 1; SetResult 3 1 (HPtr 0) (HPtr 1) 8 [1; 8; 0; 8]; Copy 4 3; Destroy 3; Use 4 1;
   Destroy 2; Destroy 10; Destroy 11; Destroy 12; Destroy 0; Destroy 4].

Example C53_example_legal : legal_run E0 (ex_build ++ ex_rest) ∅ s_empty.
Proof. apply legal_runb_sound. vm_compute. reflexivity. Qed.
(** Objects with their buffers, and the live blocks: before the objects are
    destroyed, and at the end, when only the counter of the results is left. *)
Example C53_example_built : ends (steps ex_build ∅ E0 s_empty) =
  Some ([(0%nat, [HPtr 4; HPtr 3]); (1%nat, [HNull; HNull]); (3%nat, [HNull; HNull]);
         (11%nat, [HPtr 4; HPtr 3]); (2%nat, [HPtr 0; HPtr 1]); (12%nat, [HPtr 0; HPtr 1]);
         (10%nat, [HNull; HNull])],
        [0%nat; 1%nat; 3%nat; 5%nat; 2%nat; 4%nat; 6%nat]).
Proof. vm_compute. reflexivity. Qed.
Example C53_example_end : ends (steps (ex_build ++ ex_rest) ∅ E0 s_empty) = Some ([], [6%nat]).
Proof. vm_compute. reflexivity. Qed.

(** The hypotheses of the theorems hold for what [ex_build] makes. *)
Lemma ex_reach : exists V s, reach E0 V s /\ steps ex_build ∅ E0 s_empty = Done V s.
Proof.
  assert (legal_run E0 ex_build ∅ s_empty) as Hl by (apply legal_runb_sound; vm_compute; reflexivity).
  destruct (history_safe E0 ex_build s_empty s_empty_wf Hl) as [(V & s & H)|[H _]].
  - exists V, s. split; [|exact H].
    exact (ex_intro _ ex_build (ex_intro _ s_empty (conj s_empty_wf (conj Hl H)))).
  - exfalso. assert (ends (steps ex_build ∅ E0 s_empty) = None) as H' by (by rewrite H).
    vm_compute in H'. discriminate.
Qed.
Example C53_example_owner : exists V s, reach E0 V s /\ owner V 2 1 /\ owner V 12 1 /\ alive V 2 /\
  ~ alive V 10 /\ shared V 2.
Proof.
  destruct ex_reach as (V & s & Hr & H). exists V, s. split; [done|]. vm_compute in H.
  injection H as <- <-. split_and!.
  - eexists. split; [vm_compute; reflexivity|]. vm_compute. right. left.
  - eexists. split; [vm_compute; reflexivity|]. vm_compute. right. left.
  - eexists. split; [vm_compute; reflexivity|]. done.
  - intros (o & Ho & Hn). vm_compute in Ho. injection Ho as <-. by apply Hn.
  - eexists 12%nat, _, _. split_and!; [done|vm_compute; reflexivity|vm_compute; reflexivity|done|done].
Qed.

(** Self-assignment of an input that nothing shares, then destruction. *)
Example C53_example_self_assignment :
  legal_run E0 (take 3 ex_history) ∅ s_empty /\
  ends (steps (take 3 ex_history ++ [Assign 10 10]) ∅ E0 s_empty) = Some ([(10%nat, [HPtr 0; HPtr 1])], [2%nat]) /\
  steps (take 3 ex_history ++ [Assign 10 10; Destroy 10]) ∅ E0 s_empty = UB UB_free.
Proof. split; [apply legal_runb_sound|split]; vm_compute; reflexivity. Qed.

(** set_data on one of two objects that share their buffers: one of the two
    data buffers is leaked, the order of destruction decides which. *)
Definition ex_diverge (last : list hop) : list hop :=
  [NewArr 8 (CInts [2]); NewArr 8 (CData (replicate 8 MU)); NewArr 8 (CData (replicate 8 MU));
   Ptrs 0 Unary_Input [1; 8; 0; 8] [HPtr 0; HPtr 1]; Copy 1 0; SetData 1 1 (HPtr 2) [1; 8; 0; 8]] ++ last.
Example C53_example_diverge :
  ends (steps (ex_diverge [Destroy 1; Destroy 0]) ∅ E0 s_empty) = Some ([], [2%nat]) /\
  ends (steps (ex_diverge [Destroy 0; Destroy 1]) ∅ E0 s_empty) = Some ([], [1%nat]).
Proof. vm_compute. done. Qed.

(** A tensor over the data of a sample: its destruction under the default hooks,
    the destruction of the sample under new[]/delete[]. *)
Definition ex_over : M objs :=
  let* V := steps (take 3 ex_history) ∅ in
  let* (_, t) := aitisa_create (dtype_of F32) cpu [2] 1 (HPtr 1) 8 HNull in
  let* _ := aitisa_destroy t in
  step (Destroy 10) V.
Example C53_example_over : ex_over E0 s_empty = UB UB_free /\ ex_over (Ehooks ARR ARR) s_empty = UB UB_free.
Proof. vm_compute. done. Qed.
