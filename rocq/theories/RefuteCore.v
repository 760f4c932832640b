(** * RefuteCore: witnesses for the properties of src/core that do not hold *)
From stdpp Require Import gmap list.
From Coq Require Import ZArith Lia.
From Verif Require Import Base Mem Spec ModelCore Logic ProofCore ProofCore2 ProofCore3 Fixture.
Open Scope Z_scope.

(** The last of the five allocations (the data buffer) is refused: the four
    blocks obtained before stay allocated although *output is not written, so
    nobody can release them (src/core/tensor.c:16-19, src/core/storage.c:13-15). *)
Lemma create_leaks :
  exists E s t dims o x s',
  wf s /\ fits (tsz t) dims /\
  aitisa_create (dtype_of t) cpu dims (Z.of_nat (length dims)) HNull 0 o E s = Done (x, o) s' /\
  x <> SUCCESS /\ size (heap s') = (size (heap s) + 4)%nat.
Proof.
  exists (Erefuse 9), (fx [T_i32]), F32, [2; 3], HNull.
  destruct (run_ex (aitisa_create (dtype_of F32) cpu [2; 3] 2 HNull 0 HNull) (Erefuse 9) (fx [T_i32])
    (fun r s' => r = (ALLOC_FAILED, HNull) /\ size (heap s') = 9%nat)) as (r & s' & Hr & -> & Hs).
  { vm_compute. by split. }
  exists ALLOC_FAILED, s'.
  split_and!; [apply fx_wf|lit_fits|exact Hr|discriminate|rewrite Hs; vm_compute; reflexivity].
Qed.

(** Two negative extents: accepted, with a 6-element buffer. *)
Lemma create_negative_accepted :
  exists p s', aitisa_create (dtype_of F32) cpu [-2; -3] 2 HNull 0 HNull E0 s_empty
    = Done (SUCCESS, HPtr p) s' /\ tensor_dims (HPtr p) E0 s' = Done [-2; -3] s' /\
      tensor_size (HPtr p) E0 s' = Done 6 s'.
Proof.
  destruct (run_ex (aitisa_create (dtype_of F32) cpu [-2; -3] 2 HNull 0 HNull) E0 s_empty
    (fun r s' => r = (SUCCESS, HPtr 0) /\ tensor_dims (HPtr 0) E0 s' = Done [-2; -3] s' /\
      tensor_size (HPtr 0) E0 s' = Done 6 s')) as (r & s' & Hr & -> & H1 & H2).
  { vm_compute. by split_and!. }
  by exists 0%nat, s'.
Qed.

(** aitisa_resolve has no return statement: the caller sees garbage. *)
Lemma resolve_no_status :
  exists E s p T x r,
  holds (heap s) p T /\ aitisa_resolve (HPtr p) E s = Done (x, r) s /\ x <> SUCCESS.
Proof.
  exists E0, (fx [T_i32]), 0%nat, T_i32. eexists _, _.
  split_and!; [exact (fx_holds [T_i32] 0 T_i32 eq_refl T_i32_valid)|reflexivity|discriminate].
Qed.
