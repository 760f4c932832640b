(** * PropSlice: what aitisa_slice does with every other request (C22, C23), and aitisa_duplicate on every tensor (C25) *)
From stdpp Require Import gmap list.
From Coq Require Import ZArith Lia.
From Verif Require Import Base Mem Spec SpecSlice ModelCore ModelBasic Logic ProofSlice2 ProofDup Fixture.
Open Scope Z_scope.

(** The first axis that is not in order decides: overflow of begin + size is
    undefined, anything else is refused. *)
Theorem C23_first_axis : forall p T bs ss ts o E s j d b z t,
  holds (heap s) p T ->
  a_dims T !! j = Some d -> bs !! j = Some b -> ss !! j = Some z -> ts !! j = Some t ->
  (forall i, (i < j)%nat -> exists d b z t, a_dims T !! i = Some d /\ bs !! i = Some b /\ ss !! i = Some z /\ ts !! i = Some t /\
     axis_fine d b z t) ->
  INT_MIN <= b -> ~ axis_fine d b z t ->
  aitisa_slice (HPtr p) bs ss ts o E s
  = if decide (0 <= z /\ INT_MAX < b + z) then UB UB_overflow else Done (INVALID_ARGUMENT, o) s.
Proof. exact slice_first. Qed.
Print Assumptions C23_first_axis.
(** A slice of a scalar writes before an array. *)
Theorem C23_every_scalar_refuted : forall p T bs ss ts o E s,
  wf s -> alloc_all E -> hooks_ok E -> holds (heap s) p T -> a_dims T = [] ->
  aitisa_slice (HPtr p) bs ss ts o E s = UB UB_oob.
Proof. exact slice_scalar. Qed.
Print Assumptions C23_every_scalar_refuted.
(** A slice with more than INT_MAX elements overflows its loop counter. *)
Theorem C22_undefined_count : forall p T bs ss ts o E s,
  wf s -> alloc_all E -> hooks_ok E -> holds (heap s) p T ->
  a_dims T <> [] -> slice_ok (a_dims T) bs ss ts -> INT_MAX < prodZ (slice_dims ss ts) ->
  aitisa_slice (HPtr p) bs ss ts o E s = UB UB_overflow.
Proof. exact slice_too_big. Qed.
Print Assumptions C22_undefined_count.

Example C23_first_ex : axis_fine 2 1 1 5 /\ ~ axis_fine 3 1 3 1 /\ ~ axis_fine 3 1 INT_MAX 1 /\
  aitisa_slice (HPtr 0) [1; 1] [1; 3] [5; 1] HNull E0 (fx [T_i32]) = Done (INVALID_ARGUMENT, HNull) (fx [T_i32]) /\
  aitisa_slice (HPtr 0) [1; 1] [1; INT_MAX] [5; 1] HNull E0 (fx [T_i32]) = UB UB_overflow.
Proof. unfold axis_fine, INT_MAX. split_and!; try lia; vm_compute; reflexivity. Qed.
(** A tensor of 2^32 bytes, all of it. *)
Example C22_undefined_count_ex :
  slice_ok [65536; 65536] [0; 0] [65536; 65536] [1; 1] /\ INT_MAX < prodZ (slice_dims [65536; 65536] [1; 1]) /\ fits 1 [65536; 65536].
Proof. split_and!; [vm_compute; intuition discriminate|vm_compute; reflexivity|lit_fits]. Qed.

(** What aitisa_duplicate does to every tensor, when no allocation is refused.
    The copy has the extents converted to int, without those that become 0. *)
Theorem C25_every_tensor : forall p T o E s, wf s -> alloc_all E -> hooks_ok E -> holds (heap s) p T ->
  let kept := filter (fun k => k <> 0) (int32 <$> a_dims T) in
  (a_dims T = [] -> aitisa_duplicate (HPtr p) o E s = UB UB_oob) /\
  ((exists d, d ∈ a_dims T /\ (d = 0 \/ int32 d < 0)) ->
     exists s', aitisa_duplicate (HPtr p) o E s = Done (INVALID_ARGUMENT, o) s' /\ heap s' = heap s) /\
  (a_dims T <> [] -> (forall d, d ∈ a_dims T -> d <> 0 /\ 0 <= int32 d) -> prodZ kept <= INT_MAX ->
     makes (aitisa_duplicate (HPtr p) o) E s (AT (a_type T) (a_dev T) kept (tab kept (fun c => at_ T (spread (a_dims T) c))))) /\
  (a_dims T <> [] -> (forall d, d ∈ a_dims T -> d <> 0 /\ 0 <= int32 d) -> INT_MAX < prodZ kept ->
     aitisa_duplicate (HPtr p) o E s = UB UB_overflow).
Proof. exact dup_all. Qed.
Print Assumptions C25_every_tensor.

(** An extent that survives, one that wraps to 0, one that wraps below 0. *)
Example C25_every_ex : int32 2147483647 = 2147483647 /\ int32 (2 ^ 32) = 0 /\ int32 (2 ^ 32 + 2) = 2 /\ int32 (2 ^ 31) < 0 /\
  filter (fun k => k <> 0) (int32 <$> [3; 2 ^ 32; 2 ^ 32 + 2]) = [3; 2] /\ spread [3; 2 ^ 32; 2 ^ 32 + 2] [1; 0] = [1; 0; 0].
Proof. vm_compute. intuition reflexivity. Qed.
Example C25_every_run :
  aitisa_duplicate (HPtr 0) HNull E0 (fx [T_scalar]) = UB UB_oob /\
  (exists h s', aitisa_duplicate (HPtr 0) HNull E0 (fx [T_i32]) = Done (SUCCESS, h) s').
Proof. split; [vm_compute; reflexivity|]. do 2 eexists. vm_compute. reflexivity. Qed.
