(** * PropBatch: batched products are defined exactly when batch_ok says so (C32) *)
From stdpp Require Import list gmap.
From Coq Require Import ZArith Lia Floats.SpecFloat.
From Verif Require Import Base Mem Spec SpecBatch ModelCore ModelBasic ModelMath Logic ProofBatch Fixture.
Open Scope Z_scope.

Theorem C32_exact_batch_matrix : forall p1 p2 T1 T2 o E s,
  wf s -> alloc_all E -> hooks_ok E -> holds (heap s) p1 T1 -> holds (heap s) p2 T2 ->
  a_type T2 = a_type T1 -> dev_type (a_dev T1) = 0 -> dev_type (a_dev T2) = 0 ->
  Forall (fun d => 0 < d) (a_dims T1) -> Forall (fun d => 0 < d) (a_dims T2) ->
  forall b1 b2 bd m k n,
  bd <> [] -> a_dims T1 = b1 ++ [m; k] -> a_dims T2 = b2 ++ [k; n] -> bcast b1 b2 = Some bd -> fits (tsz (a_type T1)) (bd ++ [m; n]) ->
  let A := fun c i q => at_ T1 (bproj b1 c ++ [i; q]) in
  let B := fun c q j => at_ T2 (bproj b2 c ++ [q; j]) in
  (batch_ok (a_type T1) bd m k n A B -> exists T,
     makes (aitisa_matmul (HPtr p1) (HPtr p2) o) E s T /\ a_type T = a_type T1 /\ a_dev T = a_dev T1 /\ a_dims T = bd ++ [m; n] /\
     forall c i j, in_box bd c -> 0 <= i < m -> 0 <= j < n ->
       inner (a_type T1) k (fun q => A c i q) (fun q => B c q j) = Some (at_ T (c ++ [i; j]))) /\
  (~ batch_ok (a_type T1) bd m k n A B -> aitisa_matmul (HPtr p1) (HPtr p2) o E s = UB UB_overflow).
Proof. exact tt_every. Qed.
Print Assumptions C32_exact_batch_matrix.
Theorem C32_exact_batch_vector : forall p1 p2 T1 T2 o E s,
  wf s -> alloc_all E -> hooks_ok E -> holds (heap s) p1 T1 -> holds (heap s) p2 T2 ->
  a_type T2 = a_type T1 -> dev_type (a_dev T1) = 0 -> dev_type (a_dev T2) = 0 ->
  Forall (fun d => 0 < d) (a_dims T1) -> Forall (fun d => 0 < d) (a_dims T2) ->
  forall b1 m k,
  b1 <> [] -> a_dims T1 = b1 ++ [m; k] -> a_dims T2 = [k] -> fits (tsz (a_type T1)) (b1 ++ [m]) ->
  let A := fun c i q => at_ T1 (c ++ [i; q]) in
  let B := fun (_ : list Z) q (_ : Z) => at_ T2 [q] in
  (batch_ok (a_type T1) b1 m k 1 A B -> exists T,
     makes (aitisa_matmul (HPtr p1) (HPtr p2) o) E s T /\ a_type T = a_type T1 /\ a_dev T = a_dev T1 /\ a_dims T = b1 ++ [m] /\
     forall c i, in_box b1 c -> 0 <= i < m ->
       inner (a_type T1) k (fun q => A c i q) (fun q => B c q 0) = Some (at_ T (c ++ [i]))) /\
  (~ batch_ok (a_type T1) b1 m k 1 A B -> aitisa_matmul (HPtr p1) (HPtr p2) o E s = UB UB_overflow).
Proof. exact tv_every. Qed.
Print Assumptions C32_exact_batch_vector.
Theorem C32_exact_vector_batch : forall p1 p2 T1 T2 o E s,
  wf s -> alloc_all E -> hooks_ok E -> holds (heap s) p1 T1 -> holds (heap s) p2 T2 ->
  a_type T2 = a_type T1 -> dev_type (a_dev T1) = 0 -> dev_type (a_dev T2) = 0 ->
  Forall (fun d => 0 < d) (a_dims T1) -> Forall (fun d => 0 < d) (a_dims T2) ->
  forall b2 k n,
  b2 <> [] -> a_dims T1 = [k] -> a_dims T2 = b2 ++ [k; n] -> fits (tsz (a_type T1)) (b2 ++ [n]) ->
  let A := fun (_ : list Z) (_ : Z) q => at_ T1 [q] in
  let B := fun c q j => at_ T2 (c ++ [q; j]) in
  (batch_ok (a_type T1) b2 1 k n A B -> exists T,
     makes (aitisa_matmul (HPtr p1) (HPtr p2) o) E s T /\ a_type T = a_type T1 /\ a_dev T = a_dev T1 /\ a_dims T = b2 ++ [n] /\
     forall c j, in_box b2 c -> 0 <= j < n ->
       inner (a_type T1) k (fun q => A c 0 q) (fun q => B c q j) = Some (at_ T (c ++ [j]))) /\
  (~ batch_ok (a_type T1) b2 1 k n A B -> aitisa_matmul (HPtr p1) (HPtr p2) o E s = UB UB_overflow).
Proof. exact vt_every. Qed.
Print Assumptions C32_exact_vector_batch.

Definition T_q1 : atensor := AT I32 cpu [2; 1; 1; 2] (VI <$> [1; 2; 3; 4]).
Definition T_q2 : atensor := AT I32 cpu [3; 2; 1] (VI <$> [5; 6; 7; 8; 9; 10]).
(** The second matrix of T_q3 times the vector T_q4 overflows int32, the first does not. *)
Definition T_q3 : atensor := AT I32 cpu [2; 1; 1] (VI <$> [1; 65536]).
Definition T_q4 : atensor := AT I32 cpu [1] (VI <$> [65536]).
Example C32_exact_ok_ex :
  batch_ok I32 [2; 3] 1 2 1 (fun c i q => at_ T_q1 (bproj [2; 1] c ++ [i; q])) (fun c q j => at_ T_q2 (bproj [3] c ++ [q; j])) /\
  bcast [2; 1] [3] = Some [2; 3] /\ fits (tsz I32) ([2; 3] ++ [1; 1]) /\ valid T_q1 /\ valid T_q2.
Proof.
  split_and!; [|done|change (fits (tsz I32) [2; 3; 1; 1]); lit_fits|lit_valid|lit_valid].
  split; [vm_compute; discriminate|]. split; [vm_compute; discriminate|].
  intros c i j Hc Hi Hj. assert (i = 0) as -> by lia. assert (j = 0) as -> by lia.
  apply Forall2_cons_inv_l in Hc as (x & c1 & Hx & Hc & ->).
  apply Forall2_cons_inv_l in Hc as (y & c2 & Hy & Hc & ->). apply Forall2_nil_inv_l in Hc as ->.
  assert (x = 0 \/ x = 1) as [-> | ->] by lia;
    assert (y = 0 \/ y = 1 \/ y = 2) as [-> | [-> | ->]] by lia; eexists; vm_compute; reflexivity.
Qed.
Example C32_exact_overflow_ex :
  ~ batch_ok I32 [2] 1 1 1 (fun c i q => at_ T_q3 (c ++ [i; q])) (fun _ q _ => at_ T_q4 [q]) /\
  aitisa_matmul (HPtr 0) (HPtr 5) HNull E0 (fx [T_q3; T_q4]) = UB UB_overflow.
Proof.
  split; [|vm_compute; reflexivity]. intros (_ & _ & H).
  destruct (H [1] 0 0 ltac:(by repeat constructor) ltac:(lia) ltac:(lia)) as [w Hw]. vm_compute in Hw. discriminate.
Qed.
Example C32_exact_run : exists r s', aitisa_matmul (HPtr 0) (HPtr 5) HNull E0 (fx [T_q1; T_q2]) = Done r s' /\
  peek E0 s' r = Some (SUCCESS, [2; 3; 1; 1], VI <$> [17; 23; 29; 39; 53; 67]).
Proof. apply run_ex. vm_compute. reflexivity. Qed.
(** Broadcasting can make a result that cannot be counted out of operands that can. *)
Example C32_exact_count_ex : ~ batch_ok U8 [65536; 65536] 1 1 1 (fun _ _ _ => VU) (fun _ _ _ => VU) /\
  bcast [65536; 1] [65536] = Some [65536; 65536] /\ fits (tsz U8) [65536; 65536; 1; 1].
Proof. split_and!; [intros (H & _); by vm_compute in H|done|lit_fits]. Qed.
