(** * PropDot2: contractions are defined exactly when contract_ok and contract_vec_ok say so (C35) *)
From stdpp Require Import list gmap.
From Coq Require Import ZArith Lia Floats.SpecFloat.
From Verif Require Import Base Mem Spec SpecDot ModelCore ModelBasic ModelMath Logic ProofDot7 Fixture.
Open Scope Z_scope.

Theorem C35_exact_tensor_vector : forall p1 p2 T1 T2 o E s,
  wf s -> alloc_all E -> hooks_ok E -> holds (heap s) p1 T1 -> holds (heap s) p2 T2 ->
  a_type T2 = a_type T1 -> dev_type (a_dev T1) = 0 -> dev_type (a_dev T2) = 0 ->
  Forall (fun d => 0 < d <= INT_MAX) (a_dims T1) -> Forall (fun d => 0 < d <= INT_MAX) (a_dims T2) ->
  forall b k,
  b <> [] -> a_dims T1 = b ++ [k] -> a_dims T2 = [k] -> fits (tsz (a_type T1)) b ->
  let A := fun c q => at_ T1 (c ++ [q]) in
  let B := fun q => at_ T2 [q] in
  (contract_vec_ok (a_type T1) b k A B -> exists T,
     makes (aitisa_dot (HPtr p1) (HPtr p2) o) E s T /\ a_type T = a_type T1 /\ a_dev T = a_dev T1 /\ a_dims T = b /\
     forall c, in_box b c -> inner (a_type T1) k (fun q => A c q) B = Some (at_ T c)) /\
  (~ contract_vec_ok (a_type T1) b k A B -> aitisa_dot (HPtr p1) (HPtr p2) o E s = UB UB_overflow).
Proof. exact dot_tv_every. Qed.
Print Assumptions C35_exact_tensor_vector.
Theorem C35_exact_tensor_tensor : forall p1 p2 T1 T2 o E s,
  wf s -> alloc_all E -> hooks_ok E -> holds (heap s) p1 T1 -> holds (heap s) p2 T2 ->
  a_type T2 = a_type T1 -> dev_type (a_dev T1) = 0 -> dev_type (a_dev T2) = 0 ->
  Forall (fun d => 0 < d <= INT_MAX) (a_dims T1) -> Forall (fun d => 0 < d <= INT_MAX) (a_dims T2) ->
  forall b1 b2 k n,
  (2 <= length b1)%nat -> (1 <= length b2)%nat ->
  a_dims T1 = b1 ++ [k] -> a_dims T2 = b2 ++ [k; n] -> fits (tsz (a_type T1)) (b1 ++ b2 ++ [n]) ->
  let A := fun c q => at_ T1 (c ++ [q]) in
  let B := fun e q j => at_ T2 (e ++ [q; j]) in
  (contract_ok (a_type T1) b1 b2 n k A B -> exists T,
     makes (aitisa_dot (HPtr p1) (HPtr p2) o) E s T /\ a_type T = a_type T1 /\ a_dev T = a_dev T1 /\ a_dims T = b1 ++ b2 ++ [n] /\
     forall c e j, in_box b1 c -> in_box b2 e -> 0 <= j < n ->
       inner (a_type T1) k (fun q => A c q) (fun q => B e q j) = Some (at_ T (c ++ e ++ [j]))) /\
  (~ contract_ok (a_type T1) b1 b2 n k A B -> aitisa_dot (HPtr p1) (HPtr p2) o E s = UB UB_overflow).
Proof. exact dot_tt_every. Qed.
Print Assumptions C35_exact_tensor_tensor.

Definition T_x1 : atensor := AT I32 cpu [2; 1; 2] (VI <$> [1; 2; 3; 4]).
Definition T_x2 : atensor := AT I32 cpu [2; 2; 1] (VI <$> [1; -1; 5; 6]).
Definition T_x3 : atensor := AT I32 cpu [2] (VI <$> [1; -1]).
(** The second row of T_x4 times T_x5 overflows int32, the first does not. *)
Definition T_x4 : atensor := AT I32 cpu [2; 1] (VI <$> [1; 65536]).
Definition T_x5 : atensor := AT I32 cpu [1] (VI <$> [65536]).
Definition T_x6 : atensor := AT I32 cpu [2; 1; 1] (VI <$> [1; 65536]).
Example C35_exact_ok_ex :
  contract_vec_ok I32 [2; 1] 2 (fun c q => at_ T_x1 (c ++ [q])) (fun q => at_ T_x3 [q]) /\
  contract_ok I32 [2; 1] [2] 1 2 (fun c q => at_ T_x1 (c ++ [q])) (fun e q j => at_ T_x2 (e ++ [q; j])) /\
  valid T_x1 /\ valid T_x2 /\ valid T_x3 /\ fits (tsz I32) [2; 1; 2; 1] /\ fits (tsz I32) [2; 1].
Proof.
  split_and!; [| |lit_valid|lit_valid|lit_valid|lit_fits|lit_fits].
  - split; [vm_compute; discriminate|]. split; [vm_compute; discriminate|]. intros c Hc.
    apply Forall2_cons_inv_l in Hc as (x & c1 & Hx & Hc & ->).
    apply Forall2_cons_inv_l in Hc as (y & c2 & Hy & Hc & ->). apply Forall2_nil_inv_l in Hc as ->.
    assert (y = 0) as -> by lia. assert (x = 0 \/ x = 1) as [-> | ->] by lia; eexists; vm_compute; reflexivity.
  - split; [vm_compute; discriminate|]. split; [vm_compute; discriminate|]. intros c e j Hc He Hj.
    assert (j = 0) as -> by lia.
    apply Forall2_cons_inv_l in Hc as (x & c1 & Hx & Hc & ->).
    apply Forall2_cons_inv_l in Hc as (y & c2 & Hy & Hc & ->). apply Forall2_nil_inv_l in Hc as ->.
    apply Forall2_cons_inv_l in He as (z & c3 & Hz & He & ->). apply Forall2_nil_inv_l in He as ->.
    assert (y = 0) as -> by lia. assert (x = 0 \/ x = 1) as [-> | ->] by lia;
      assert (z = 0 \/ z = 1) as [-> | ->] by lia; eexists; vm_compute; reflexivity.
Qed.
Example C35_exact_overflow_ex :
  ~ contract_vec_ok I32 [2] 1 (fun c q => at_ T_x4 (c ++ [q])) (fun q => at_ T_x5 [q]) /\
  aitisa_dot (HPtr 0) (HPtr 5) HNull E0 (fx [T_x4; T_x5]) = UB UB_overflow /\
  aitisa_dot (HPtr 0) (HPtr 0) HNull E0 (fx [T_x6]) = UB UB_overflow.
Proof.
  split_and!; [|vm_compute; reflexivity|vm_compute; reflexivity]. intros (_ & _ & H).
  destruct (H [1] ltac:(by repeat constructor)) as [w Hw]. vm_compute in Hw. discriminate.
Qed.
Example C35_exact_run : exists r s', aitisa_dot (HPtr 0) (HPtr 5) HNull E0 (fx [T_x1; T_x2]) = Done r s' /\
  peek E0 s' r = Some (SUCCESS, [2; 1; 2; 1], VI <$> [-1; 17; -1; 39]).
Proof. apply run_ex. vm_compute. reflexivity. Qed.
(** A result of 2^29 doubles, 4 GiB: its shape can be represented and it can be counted
    in int, but the offset of its last element in bytes cannot. *)
Example C35_exact_bytes_ex : forall A B, ~ contract_vec_ok F64 [16384; 32768] 1 A B /\
  prodZ [16384; 32768] <= INT_MAX /\ fits (tsz F64) [16384; 32768].
Proof. intros A B. split_and!; [intros (_ & H & _); by vm_compute in H|by vm_compute|lit_fits]. Qed.
