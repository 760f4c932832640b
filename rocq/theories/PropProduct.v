(** * PropProduct: matrix products of ranks 1 and 2 are defined exactly when product_ok says so (C69, C34) *)
From stdpp Require Import gmap list.
From Coq Require Import ZArith Lia.
From Verif Require Import Base Mem Spec SpecProduct ModelCore ModelBasic ModelMath Logic ProofProduct Fixture.
Open Scope Z_scope.

Theorem C69_matrix_matrix : forall p1 p2 T1 T2 o E s,
  wf s -> alloc_all E -> holds (heap s) p1 T1 -> holds (heap s) p2 T2 ->
  a_type T2 = a_type T1 -> dev_type (a_dev T1) = 0 -> dev_type (a_dev T2) = 0 ->
  forall m k n, a_dims T1 = [m; k] -> a_dims T2 = [k; n] -> fits (tsz (a_type T1)) [m; n] ->
  let A := fun i q => at_ T1 [i; q] in
  let B := fun q j => at_ T2 [q; j] in
  (product_ok (a_type T1) m k n A B -> exists T,
     makes (aitisa_matmul (HPtr p1) (HPtr p2) o) E s T /\ a_type T = a_type T1 /\ a_dev T = a_dev T1 /\ a_dims T = [m; n] /\
     forall i j, 0 <= i < m -> 0 <= j < n ->
       inner (a_type T1) k (fun q => A i q) (fun q => B q j) = Some (at_ T [i; j])) /\
  (~ product_ok (a_type T1) m k n A B -> aitisa_matmul (HPtr p1) (HPtr p2) o E s = UB UB_overflow).
Proof. exact mm_every. Qed.
Print Assumptions C69_matrix_matrix.
Theorem C69_matrix_vector : forall p1 p2 T1 T2 o E s,
  wf s -> alloc_all E -> holds (heap s) p1 T1 -> holds (heap s) p2 T2 ->
  a_type T2 = a_type T1 -> dev_type (a_dev T1) = 0 -> dev_type (a_dev T2) = 0 ->
  forall m k, a_dims T1 = [m; k] -> a_dims T2 = [k] -> fits (tsz (a_type T1)) [m] ->
  let A := fun i q => at_ T1 [i; q] in
  let B := fun q (_ : Z) => at_ T2 [q] in
  (product_ok (a_type T1) m k 1 A B -> exists T,
     makes (aitisa_matmul (HPtr p1) (HPtr p2) o) E s T /\ a_type T = a_type T1 /\ a_dev T = a_dev T1 /\ a_dims T = [m] /\
     forall i j, 0 <= i < m -> 0 <= j < 1 ->
       inner (a_type T1) k (fun q => A i q) (fun q => B q j) = Some (at_ T [i])) /\
  (~ product_ok (a_type T1) m k 1 A B -> aitisa_matmul (HPtr p1) (HPtr p2) o E s = UB UB_overflow).
Proof. exact mv_every. Qed.
Print Assumptions C69_matrix_vector.
Theorem C69_vector_matrix : forall p1 p2 T1 T2 o E s,
  wf s -> alloc_all E -> holds (heap s) p1 T1 -> holds (heap s) p2 T2 ->
  a_type T2 = a_type T1 -> dev_type (a_dev T1) = 0 -> dev_type (a_dev T2) = 0 ->
  forall k n, a_dims T1 = [k] -> a_dims T2 = [k; n] -> fits (tsz (a_type T1)) [n] ->
  let A := fun (_ : Z) q => at_ T1 [q] in
  let B := fun q j => at_ T2 [q; j] in
  (product_ok (a_type T1) 1 k n A B -> exists T,
     makes (aitisa_matmul (HPtr p1) (HPtr p2) o) E s T /\ a_type T = a_type T1 /\ a_dev T = a_dev T1 /\ a_dims T = [n] /\
     forall i j, 0 <= i < 1 -> 0 <= j < n ->
       inner (a_type T1) k (fun q => A i q) (fun q => B q j) = Some (at_ T [j])) /\
  (~ product_ok (a_type T1) 1 k n A B -> aitisa_matmul (HPtr p1) (HPtr p2) o E s = UB UB_overflow).
Proof. exact vm_every. Qed.
Print Assumptions C69_vector_matrix.
Theorem C69_vector_vector : forall p1 p2 T1 T2 o E s,
  wf s -> alloc_all E -> holds (heap s) p1 T1 -> holds (heap s) p2 T2 ->
  a_type T2 = a_type T1 -> dev_type (a_dev T1) = 0 -> dev_type (a_dev T2) = 0 ->
  forall k, a_dims T1 = [k] -> a_dims T2 = [k] ->
  let A := fun (_ : Z) q => at_ T1 [q] in
  let B := fun q (_ : Z) => at_ T2 [q] in
  (product_ok (a_type T1) 1 k 1 A B -> exists T,
     makes (aitisa_matmul (HPtr p1) (HPtr p2) o) E s T /\ a_type T = a_type T1 /\ a_dev T = a_dev T1 /\ a_dims T = [1] /\
     forall i j, 0 <= i < 1 -> 0 <= j < 1 ->
       inner (a_type T1) k (fun q => A i q) (fun q => B q j) = Some (at_ T [0])) /\
  (~ product_ok (a_type T1) 1 k 1 A B -> aitisa_matmul (HPtr p1) (HPtr p2) o E s = UB UB_overflow).
Proof. exact vv_every. Qed.
Print Assumptions C69_vector_vector.
(** On vectors aitisa_dot and aitisa_matmul are the same function, whatever the
    lengths, elements and allocator. *)
Theorem C34_dot_is_matmul : forall p1 p2 T1 T2 o E s,
  wf s -> holds (heap s) p1 T1 -> holds (heap s) p2 T2 ->
  a_type T2 = a_type T1 -> dev_type (a_dev T1) = 0 -> dev_type (a_dev T2) = 0 ->
  forall k1 k2, a_dims T1 = [k1] -> a_dims T2 = [k2] ->
  aitisa_dot (HPtr p1) (HPtr p2) o E s = aitisa_matmul (HPtr p1) (HPtr p2) o E s.
Proof. exact dot_is_matmul. Qed.
Print Assumptions C34_dot_is_matmul.

Definition T_p1 : atensor := AT I32 cpu [2; 3] (VI <$> [1; 2; 3; 4; 5; 6]).
Definition T_p2 : atensor := AT I32 cpu [3; 2] (VI <$> [1; 0; -1; 7; 2; 2]).
(** 65536 * 65536 overflows int32. *)
Definition T_p3 : atensor := AT I32 cpu [2; 1] (VI <$> [1; 65536]).
Definition T_p4 : atensor := AT I32 cpu [1; 1] (VI <$> [65536]).
Example C69_ok_ex : product_ok I32 2 3 2 (fun i q => at_ T_p1 [i; q]) (fun q j => at_ T_p2 [q; j]) /\
  fits (tsz I32) [2; 2] /\ valid T_p1 /\ valid T_p2.
Proof.
  split_and!; [|lit_fits|lit_valid|lit_valid]. unfold product_ok, INT_MAX. split_and!; [lia|lia|lia|]. intros i j Hi Hj.
  assert (i = 0 \/ i = 1) as [-> | ->] by lia; assert (j = 0 \/ j = 1) as [-> | ->] by lia; eexists; vm_compute; reflexivity.
Qed.
Example C69_overflow_ex : ~ product_ok I32 2 1 1 (fun i q => at_ T_p3 [i; q]) (fun q j => at_ T_p4 [q; j]) /\
  aitisa_matmul (HPtr 0) (HPtr 5) HNull E0 (fx [T_p3; T_p4]) = UB UB_overflow.
Proof.
  split; [|vm_compute; reflexivity]. intros (_ & _ & _ & H). destruct (H 1 0 ltac:(lia) ltac:(lia)) as [w Hw].
  vm_compute in Hw. discriminate.
Qed.
Example C69_run : exists r s', aitisa_matmul (HPtr 0) (HPtr 5) HNull E0 (fx [T_p1; T_p2]) = Done r s' /\
  peek E0 s' r = Some (SUCCESS, [2; 2], VI <$> [5; 20; 11; 47]).
Proof. apply run_ex. vm_compute. reflexivity. Qed.
(** A row count that an int cannot reach, with nothing to compute. *)
Example C69_rows_ex : ~ product_ok U8 (2 ^ 31) 0 0 (fun _ _ => VU) (fun _ _ => VU) /\ fits (tsz U8) [2 ^ 31; 0].
Proof. split; [intros (H & _); by vm_compute in H|lit_fits]. Qed.
