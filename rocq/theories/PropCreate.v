(** * PropCreate: aitisa_create on every list of extents (C54) *)
From stdpp Require Import list gmap.
From Coq Require Import ZArith Lia.
From Verif Require Import Base Mem Spec SpecCreate ModelCore Logic ProofCreate Fixture.
Open Scope Z_scope.

(** The signs of the extents are never looked at: what counts is the size in bytes. *)
Theorem C54_every : forall dt dev dims o E s,
  wf s -> alloc_all E -> Z.of_nat (length dims) <= INT_MAX ->
  (countable (d_size dt) dims -> 0 <= d_size dt * prodZ dims -> exists p s',
     aitisa_create dt dev dims (Z.of_nat (length dims)) HNull 0 o E s = Done (SUCCESS, HPtr p) s' /\
     tensor_dims (HPtr p) E s' = Done dims s' /\ tensor_size (HPtr p) E s' = Done (prodZ dims) s') /\
  (countable (d_size dt) dims -> d_size dt * prodZ dims < 0 -> exists s',
     aitisa_create dt dev dims (Z.of_nat (length dims)) HNull 0 o E s = Done (ALLOC_FAILED, o) s' /\ keeps s s') /\
  (~ countable (d_size dt) dims ->
     aitisa_create dt dev dims (Z.of_nat (length dims)) HNull 0 o E s = UB UB_overflow).
Proof. exact create_every. Qed.
Print Assumptions C54_every.

Example C54_accepted_ex : countable 4 [-2; 3; -1] /\ 0 <= 4 * prodZ [-2; 3; -1] /\
  exists p s', aitisa_create (dtype_of F32) cpu [-2; 3; -1] 3 HNull 0 HNull E0 s_empty = Done (SUCCESS, HPtr p) s'.
Proof.
  split_and!; [split|vm_compute; discriminate|eexists _, _; vm_compute; reflexivity].
  - intros k. do 4 (destruct k as [|k]; [vm_compute; split; discriminate|]). rewrite take_ge by (cbn; lia). vm_compute; split; discriminate.
  - vm_compute; split; discriminate.
Qed.
Example C54_refused_ex : countable 4 [-2; 3; 1] /\ 4 * prodZ [-2; 3; 1] < 0 /\
  exists s', aitisa_create (dtype_of F32) cpu [-2; 3; 1] 3 HNull 0 HNull E0 s_empty = Done (ALLOC_FAILED, HNull) s'.
Proof.
  split_and!; [split|vm_compute; reflexivity|eexists; vm_compute; reflexivity].
  - intros k. do 4 (destruct k as [|k]; [vm_compute; split; discriminate|]). rewrite take_ge by (cbn; lia). vm_compute; split; discriminate.
  - vm_compute; split; discriminate.
Qed.
(** A tensor without elements, but with a product that overflows on the way. *)
Example C54_undefined_ex : ~ countable 4 [2 ^ 62; 4; 0] /\ prodZ [2 ^ 62; 4; 0] = 0 /\
  aitisa_create (dtype_of F32) cpu [2 ^ 62; 4; 0] 3 HNull 0 HNull E0 s_empty = UB UB_overflow.
Proof. split_and!; [intros [H _]; specialize (H 2%nat); vm_compute in H; by destruct H|reflexivity|vm_compute; reflexivity]. Qed.
