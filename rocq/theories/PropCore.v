(** * PropCore: properties of src/core (C01-C03, C05-C09, C54) *)
From stdpp Require Import gmap list.
From Coq Require Import ZArith Lia Floats.SpecFloat.
From Verif Require Import Base Mem Spec ModelCore Logic ProofCore ProofCore2 ProofCore3
  RefuteCore Fixture.
Open Scope Z_scope.

(** ** C01: creating a tensor without data *)
Theorem C01_create_fresh : forall E s t dev dims o,
  wf s -> fits (tsz t) dims -> alloc_all E ->
  makes (aitisa_create (dtype_of t) dev dims (Z.of_nat (length dims)) HNull 0 o) E s
    (AT t dev dims (replicate (Z.to_nat (prodZ dims)) VU)).
Proof. exact create_makes_alloc. Qed.
Print Assumptions C01_create_fresh.

Example C01_create_fresh_ex :
  wf s_empty /\ fits (tsz F64) [2; 3; 0] /\ alloc_all E0.
Proof. split_and!; [exact s_empty_wf|lit_fits|exact E0_alloc]. Qed.
Example C01_create_fresh_run : exists r s',
  aitisa_create (dtype_of F64) cpu [2; 3] 2 HNull 0 HNull E0 (fx [T_i32]) = Done r s' /\
  r = (SUCCESS, HPtr 5) /\ tensor_size (HPtr 5) E0 s' = Done 6 s'.
Proof. apply run_ex. vm_compute. by split. Qed.

(** The same for any (code, size) pair, known type or not, and dims whose
    products may even contain negative extents. *)
Theorem C01_create_any_dtype : forall E s dt dev dims o,
  wf s ->
  (forall k, INT64_MIN <= prodZ (take k dims) <= INT64_MAX) ->
  Z.of_nat (length dims) <= INT_MAX ->
  0 <= d_size dt * prodZ dims <= INT64_MAX -> alloc_all E ->
  exists s' p pd pm ps px,
    let new := tensor_map (e_alloc E) p pd pm ps px dt dev dims
                 (replicate (Z.to_nat (d_size dt * prodZ dims)) MU) in
    aitisa_create dt dev dims (Z.of_nat (length dims)) HNull 0 o E s = Done (SUCCESS, HPtr p) s' /\
    NoDup [p; pd; pm; ps; px] /\ heap s' = new ∪ heap s /\ new ##ₘ heap s.
Proof. exact create_any_dtype. Qed.
Print Assumptions C01_create_any_dtype.

Example C01_create_any_dtype_ex :
  wf s_empty /\ (forall k, INT64_MIN <= prodZ (take k [5; 7]) <= INT64_MAX) /\
  0 <= d_size (DT 42 3) * prodZ [5; 7] <= INT64_MAX.
Proof.
  split_and!; [exact s_empty_wf| |vm_compute; discriminate|vm_compute; discriminate].
  intros [|[|k]]; cbn [take]; [| |rewrite take_nil]; split; vm_compute; discriminate.
Qed.

(** A created tensor can be read back: its handle denotes the abstract tensor,
    and everything that existed before is still there. *)
Theorem C01_created_denotes : forall E s s' p T k,
  created_k E s s' p T k -> holds (heap s') p T.
Proof. exact created_holds. Qed.
Print Assumptions C01_created_denotes.

Theorem C01_created_preserves : forall E s s' p T k,
  created_k E s s' p T k -> heap s ⊆ heap s'.
Proof. exact created_sub. Qed.
Print Assumptions C01_created_preserves.

Example C01_created_ex : exists s' p,
  created_k E0 s_empty s' p (AT I16 cpu [2; 2] (replicate 4 VU)) 0.
Proof.
  destruct (C01_create_fresh E0 s_empty I16 cpu [2; 2] HNull s_empty_wf) as (s' & p & _ & H);
    [lit_fits|exact E0_alloc|]. exists s', p. exact H.
Qed.

(** ** C02: creating a tensor over the caller's buffer *)
Theorem C02_create_over_buffer : forall E s t dev dims b tg vs ex len o,
  wf s -> fits (tsz t) dims -> alloc_all E ->
  heap s !! b = Some (Blk tg (CData (cells t vs ++ ex))) ->
  Z.of_nat (length vs) = prodZ dims -> len / Z.of_nat (tsz t) = prodZ dims ->
  exists s' p,
    aitisa_create (dtype_of t) dev dims (Z.of_nat (length dims)) (HPtr b) len o E s
      = Done (SUCCESS, HPtr p) s' /\
    view (heap s') p (dtype_of t) dev dims (rowmajor (length dims)) b /\
    holds (heap s') p (AT t dev dims vs) /\ heap s ⊆ heap s'.
Proof. exact create_over_data. Qed.
Print Assumptions C02_create_over_buffer.

Example C02_create_over_buffer_ex :
  wf (fx [T_i32]) /\ fits (tsz I32) [3; 2] /\
  heap (fx [T_i32]) !! 4%nat = Some (Blk 0 (CData (cells I32 (a_vals T_i32) ++ []))) /\
  Z.of_nat (length (a_vals T_i32)) = prodZ [3; 2] /\ 27 / Z.of_nat (tsz I32) = prodZ [3; 2].
Proof. split_and!; [apply fx_wf|lit_fits|reflexivity|reflexivity|reflexivity]. Qed.

Theorem C02_length_mismatch : forall E s t dev dims b len o,
  wf s -> fits (tsz t) dims -> len / Z.of_nat (tsz t) <> prodZ dims -> alloc_all E ->
  exists s', aitisa_create (dtype_of t) dev dims (Z.of_nat (length dims)) (HPtr b) len o E s
    = Done (INVALID_ARGUMENT, o) s' /\ keeps s s'.
Proof. exact create_data_mismatch_status. Qed.
Print Assumptions C02_length_mismatch.

Example C02_length_mismatch_ex :
  wf s_empty /\ fits (tsz I32) [3; 2] /\ 28 / Z.of_nat (tsz I32) <> prodZ [3; 2].
Proof. split_and!; [exact s_empty_wf|lit_fits|discriminate]. Qed.

(** ** C03: destroy *)
Theorem C03_destroy_exact : forall E s tag p T new base,
  owns tag p T new -> heap s = new ∪ base -> new ##ₘ base -> tag = e_dealloc E ->
  aitisa_destroy (HPtr p) E s = Done (SUCCESS, HNull) (St base (ctr s) (rpos s)).
Proof. exact destroy_owned. Qed.
Print Assumptions C03_destroy_exact.

Example C03_destroy_exact_ex :
  owns 0 0 T_f32 (slot 0 T_f32) /\
  heap (fx [T_f32; T_i32]) = slot 0 T_f32 ∪ slots 1 [T_i32] /\
  slot 0 T_f32 ##ₘ slots 1 [T_i32] /\ 0%nat = e_dealloc E0.
Proof. split_and!; [exact (slot_owns 0 T_f32)|reflexivity|apply slots_disj|reflexivity]. Qed.

Theorem C03_destroy_null : forall E s,
  aitisa_destroy HNull E s = Done (SUCCESS, HNull) s.
Proof. exact destroy_null. Qed.
Print Assumptions C03_destroy_null.

Theorem C03_create_destroy_restores : forall E s t dev dims o,
  wf s -> fits (tsz t) dims -> alloc_all E -> hooks_ok E ->
  exists p s' s'',
    aitisa_create (dtype_of t) dev dims (Z.of_nat (length dims)) HNull 0 o E s = Done (SUCCESS, HPtr p) s' /\
    aitisa_destroy (HPtr p) E s' = Done (SUCCESS, HNull) s'' /\ heap s'' = heap s.
Proof. exact create_destroy. Qed.
Print Assumptions C03_create_destroy_restores.

Example C03_create_destroy_restores_ex :
  wf (fx [T_u8]) /\ fits (tsz U16) [4; 5] /\ alloc_all E0 /\ hooks_ok E0.
Proof. split_and!; [apply fx_wf|lit_fits|exact E0_alloc|exact E0_hooks]. Qed.

(** The same after any operation: destroying what it created restores memory. *)
Theorem C03_destroy_created : forall E s s' p T k, hooks_ok E -> created_k E s s' p T k ->
  aitisa_destroy (HPtr p) E s' = Done (SUCCESS, HNull) (St (heap s) (ctr s') (rpos s')).
Proof. exact destroy_created. Qed.
Print Assumptions C03_destroy_created.

(** Destroying the same variable again does nothing; destroying through another
    copy of the handle is undefined behaviour. *)
Theorem C03_destroy_twice : forall E s tag p T new base,
  owns tag p T new -> heap s = new ∪ base -> new ##ₘ base -> tag = e_dealloc E ->
  exists s', aitisa_destroy (HPtr p) E s = Done (SUCCESS, HNull) s' /\
    aitisa_destroy HNull E s' = Done (SUCCESS, HNull) s' /\
    aitisa_destroy (HPtr p) E s' = UB UB_dangling.
Proof. exact destroy_twice_stale. Qed.
Print Assumptions C03_destroy_twice.

(** ** C05: creation under an arbitrary allocator *)
Theorem C05_create_any_allocator : forall E s t dev dims o,
  wf s -> fits (tsz t) dims ->
  makes_or_nomem (aitisa_create (dtype_of t) dev dims (Z.of_nat (length dims)) HNull 0 o) E s o
    (AT t dev dims (replicate (Z.to_nat (prodZ dims)) VU)).
Proof. exact create_makes. Qed.
Print Assumptions C05_create_any_allocator.

Example C05_create_any_allocator_ex :
  wf (fx [T_u8]) /\ fits (tsz F32) [2; 3] /\ ~ alloc_all (Erefuse 7) /\
  exists r s', aitisa_create (dtype_of F32) cpu [2; 3] 2 HNull 0 (HPtr 0) (Erefuse 7) (fx [T_u8])
    = Done r s' /\ r = (ALLOC_FAILED, HPtr 0).
Proof.
  split_and!; [apply fx_wf|lit_fits| |apply run_ex; vm_compute; done].
  intros H. specialize (H 0%nat 7%nat 0). discriminate.
Qed.

Theorem C05_create_data_any_allocator : forall E s t dev dims b len o,
  wf s -> fits (tsz t) dims -> is_Some (heap s !! b) -> len / Z.of_nat (tsz t) = prodZ dims ->
  exists r s', aitisa_create (dtype_of t) dev dims (Z.of_nat (length dims)) (HPtr b) len o E s
    = Done r s' /\ heap s ⊆ heap s' /\
    ((exists p, r = (SUCCESS, HPtr p)) \/ (~ alloc_all E /\ r = (ALLOC_FAILED, o))).
Proof. exact create_over_data_nomem. Qed.
Print Assumptions C05_create_data_any_allocator.

Example C05_create_data_any_allocator_ex :
  wf (fx [T_i32]) /\ fits (tsz I32) [6] /\ is_Some (heap (fx [T_i32]) !! 4%nat) /\
  24 / Z.of_nat (tsz I32) = prodZ [6].
Proof. split_and!; [apply fx_wf|lit_fits|eexists; reflexivity|reflexivity]. Qed.

(** ** C06: a failed creation leaks *)
Theorem C06_failed_create_leaks_nothing_refuted : exists E s t dims o x s',
  wf s /\ fits (tsz t) dims /\
  aitisa_create (dtype_of t) cpu dims (Z.of_nat (length dims)) HNull 0 o E s = Done (x, o) s' /\
  x <> SUCCESS /\ size (heap s') = (size (heap s) + 4)%nat.
Proof. exact create_leaks. Qed.
Print Assumptions C06_failed_create_leaks_nothing_refuted.

(** Rejecting a buffer of the wrong length always leaks the 56-byte header. *)
Theorem C06_mismatch_always_leaks_refuted : forall E s t dev dims b len o,
  wf s -> fits (tsz t) dims -> len / Z.of_nat (tsz t) <> prodZ dims -> alloc_all E ->
  aitisa_create (dtype_of t) dev dims (Z.of_nat (length dims)) (HPtr b) len o E s
    = Done (INVALID_ARGUMENT, o)
        (St (<[ctr s := Blk (e_alloc E) (CRaw 56)]> (heap s)) (S (ctr s)) (rpos s)).
Proof. exact create_data_mismatch_leaks. Qed.
Print Assumptions C06_mismatch_always_leaks_refuted.

(** Only the failure of the very first request leaks nothing. *)
Theorem C06_first_failure_partial : forall E s dt dev dims ndim data len o,
  e_alloc_ok E (e_alloc E) (ctr s) 56 = false ->
  aitisa_create dt dev dims ndim data len o E s
    = Done (ALLOC_FAILED, o) (St (heap s) (S (ctr s)) (rpos s)).
Proof. exact create_first_failure. Qed.
Print Assumptions C06_first_failure_partial.

Example C06_first_failure_ex : e_alloc_ok (Erefuse 5) 0 (ctr (fx [T_i32])) 56 = false.
Proof. reflexivity. Qed.

(** ** C07: resolve *)
Theorem C07_resolve_reports : forall E s p T,
  holds (heap s) p T ->
  prodZ (a_dims T) * Z.of_nat (tsz (a_type T)) < UINT32_MOD ->
  exists x pd px tg ex,
    aitisa_resolve (HPtr p) E s
    = Done (x, Resolved (dtype_of (a_type T)) (a_dev T) pd (Z.of_nat (length (a_dims T)))
        (HPtr px) (prodZ (a_dims T) * Z.of_nat (tsz (a_type T)))) s /\
    ints_at (heap s) pd (a_dims T) /\
    heap s !! px = Some (Blk tg (CData (cells (a_type T) (a_vals T) ++ ex))).
Proof. exact resolve_view. Qed.
Print Assumptions C07_resolve_reports.

Example C07_resolve_reports_ex :
  holds (heap (fx [T_i32; T_f32])) 5 T_f32 /\
  prodZ (a_dims T_f32) * Z.of_nat (tsz (a_type T_f32)) < UINT32_MOD.
Proof. split; [exact (fx_holds [T_i32; T_f32] 1 T_f32 eq_refl T_f32_valid)|reflexivity]. Qed.

(** ** C08: resolve returns no status and truncates the length *)
Theorem C08_resolve_status_refuted : exists E s p T x r,
  holds (heap s) p T /\ aitisa_resolve (HPtr p) E s = Done (x, r) s /\ x <> SUCCESS.
Proof. exact resolve_no_status. Qed.
Print Assumptions C08_resolve_status_refuted.

Theorem C08_resolve_length_refuted : forall E, exists s p T x r,
  holds (heap s) p T /\ prodZ (a_dims T) * Z.of_nat (tsz (a_type T)) = 4294967296 /\
  aitisa_resolve (HPtr p) E s = Done (x, r) s /\ r_len r = 0.
Proof. exact resolve_truncates. Qed.
Print Assumptions C08_resolve_length_refuted.

(** ** C09: set_item *)
Theorem C09_set_item_owned : forall E s tag p T new base i v rest,
  valid T -> owns tag p T new -> heap s = new ∪ base -> new ##ₘ base ->
  (i < length (a_vals T))%nat ->
  exists new',
    aitisa_tensor_set_item (HPtr p) (Z.of_nat i) (encode (a_type T) v ++ rest) E s
      = Done tt (St (new' ∪ base) (ctr s) (rpos s)) /\
    owns tag p (AT (a_type T) (a_dev T) (a_dims T) (<[i := v]> (a_vals T))) new' /\
    new' ##ₘ base.
Proof. exact set_item_owned. Qed.
Print Assumptions C09_set_item_owned.

Example C09_set_item_owned_ex :
  valid T_f32 /\ owns 0 0 T_f32 (slot 0 T_f32) /\
  heap (fx [T_f32; T_i32]) = slot 0 T_f32 ∪ slots 1 [T_i32] /\
  slot 0 T_f32 ##ₘ slots 1 [T_i32] /\ (3 < length (a_vals T_f32))%nat.
Proof.
  split_and!; [exact T_f32_valid|exact (slot_owns 0 T_f32)|reflexivity|apply slots_disj|].
  cbn. lia.
Qed.

(** Also for tensors over a caller's buffer: exactly one block changes. *)
Theorem C09_set_item_one_block : forall E s p T i v rest,
  holds (heap s) p T -> (i < length (a_vals T))%nat ->
  exists s' px,
    aitisa_tensor_set_item (HPtr p) (Z.of_nat i) (encode (a_type T) v ++ rest) E s = Done tt s' /\
    holds (heap s') p (AT (a_type T) (a_dev T) (a_dims T) (<[i := v]> (a_vals T))) /\
    view (heap s) p (dtype_of (a_type T)) (a_dev T) (a_dims T) (rowmajor (length (a_dims T))) px /\
    (forall b, b <> px -> heap s' !! b = heap s !! b).
Proof. exact set_item_holds. Qed.
Print Assumptions C09_set_item_one_block.

Theorem C09_set_item_out_of_range : forall E s tag p T new base i v,
  valid T -> owns tag p T new -> heap s = new ∪ base ->
  ~ (0 <= i < Z.of_nat (length (a_vals T))) ->
  exists u, aitisa_tensor_set_item (HPtr p) i (encode (a_type T) v) E s = UB u.
Proof. exact set_item_oob. Qed.
Print Assumptions C09_set_item_out_of_range.

Example C09_set_item_out_of_range_ex :
  aitisa_tensor_set_item (HPtr 0) 4 (encode F32 (VF fzero)) E0 (fx [T_f32]) = UB UB_oob.
Proof. reflexivity. Qed.

(** ** C54: negative extents *)
Theorem C54_negative_extents_refuted : exists p s',
  aitisa_create (dtype_of F32) cpu [-2; -3] 2 HNull 0 HNull E0 s_empty
    = Done (SUCCESS, HPtr p) s' /\ tensor_dims (HPtr p) E0 s' = Done [-2; -3] s' /\
  tensor_size (HPtr p) E0 s' = Done 6 s'.
Proof. exact create_negative_accepted. Qed.
Print Assumptions C54_negative_extents_refuted.

(** What does hold: an odd number of negative extents (negative byte count) is
    refused as an allocation failure. *)
Theorem C54_negative_count_partial : forall E s dt dev dims o,
  wf s ->
  (forall k, INT64_MIN <= prodZ (take k dims) <= INT64_MAX) ->
  Z.of_nat (length dims) <= INT_MAX ->
  INT64_MIN <= d_size dt * prodZ dims < 0 ->
  exists s', aitisa_create dt dev dims (Z.of_nat (length dims)) HNull 0 o E s
    = Done (ALLOC_FAILED, o) s' /\ keeps s s'.
Proof. exact create_negative. Qed.
Print Assumptions C54_negative_count_partial.

Example C54_negative_count_ex :
  wf s_empty /\ (forall k, INT64_MIN <= prodZ (take k [2; -3]) <= INT64_MAX) /\
  INT64_MIN <= d_size (dtype_of F32) * prodZ [2; -3] < 0.
Proof.
  split_and!; [exact s_empty_wf| |vm_compute; discriminate|reflexivity].
  intros [|[|k]]; cbn [take]; [| |rewrite take_nil]; split; vm_compute; discriminate.
Qed.
