(** * PropExact: integer square roots, where arithmetic and conversions are defined,
    what a refused allocation leaks (C60-C62) *)
From stdpp Require Import gmap list.
From Coq Require Import ZArith Lia Reals Floats.SpecFloat.
From Flocq Require Import IEEE754.BinarySingleNaN.
From Verif Require Import Base Mem Spec SpecReal SpecHeap SpecFault SpecExact SpecLeak ModelCore ModelBasic ModelMath ModelNN
  Logic ProofCore ProofCore2 ProofRoot ProofExact ProofLeak RefuteFault Fixture RefuteConv.
Open Scope Z_scope.

(** ** C60: the root of an integer element is off by one at most, just below squares *)
Theorem C60_integer_root : forall p T o E s,
  wf s -> holds (heap s) p T -> init T -> is_float (a_type T) = false ->
  Forall (fun v => ~ negative v) (a_vals T) ->
  exists ys, Forall2 near_root (a_vals T) ys /\
    makes_or_nomem (aitisa_sqrt (HPtr p) o) E s o (AT (a_type T) (a_dev T) (a_dims T) (VI <$> ys)).
Proof. exact sqrt_off. Qed.
Print Assumptions C60_integer_root.

(** 2^62 - 1, just below the square of 2^31, is one of the elements that are off. *)
Definition T_r : atensor := AT I64 cpu [3] (VI <$> [2 ^ 62 - 1; 99; 0]).
Lemma T_r_valid : valid T_r. Proof. lit_valid. Qed.
Example C60_ex : wf (fx [T_r]) /\ holds (heap (fx [T_r])) 0 T_r /\ init T_r /\ is_float (a_type T_r) = false /\
  Forall (fun v => ~ negative v) (a_vals T_r).
Proof.
  split_and!; [apply fx_wf|exact (fx_holds [T_r] 0 T_r eq_refl T_r_valid)|lit_init|done|].
  cbn. repeat constructor; cbn; lia.
Qed.
Example C60_run : exists r s', aitisa_sqrt (HPtr 0) HNull E0 (fx [T_r]) = Done r s' /\
  peek E0 s' r = Some (SUCCESS, [3], VI <$> [2 ^ 31; 9; 0]).
Proof. apply run_ex. vm_compute. reflexivity. Qed.
Example C60_near : near_root (VI (2 ^ 62 - 1)) (2 ^ 31) /\ ~ near_root (VI (2 ^ 40)) (2 ^ 20 + 1).
Proof.
  split.
  - exists (2 ^ 62 - 1). split; [done|]. right. vm_compute. intuition discriminate.
  - intros (z & [= <-] & [H|[_ [_ H]]]); vm_compute in H; [discriminate|by destruct H].
Qed.

(** ** C61: exactly when arithmetic and conversion are defined *)
Theorem C61_arithmetic : forall op p1 p2 T1 T2 o E s,
  wf s -> alloc_all E -> holds (heap s) p1 T1 -> holds (heap s) p2 T2 ->
  a_type T2 = a_type T1 -> a_dims T2 = a_dims T1 ->
  dev_type (a_dev T1) = 0 -> dev_type (a_dev T2) = 0 -> init T1 -> init T2 ->
  (exists T, makes (aitisa_binary_op op (HPtr p1) (HPtr p2) o) E s T) <->
  prodZ (a_dims T1) <= INT_MAX /\ Forall2 (op_defined (a_type T1) op) (a_vals T1) (a_vals T2).
Proof. exact binary_iff. Qed.
Print Assumptions C61_arithmetic.
Theorem C61_arithmetic_undefined : forall op p1 p2 T1 T2 o E s,
  wf s -> alloc_all E -> holds (heap s) p1 T1 -> holds (heap s) p2 T2 ->
  a_type T2 = a_type T1 -> a_dims T2 = a_dims T1 ->
  dev_type (a_dev T1) = 0 -> dev_type (a_dev T2) = 0 -> init T1 -> init T2 ->
  ~ (prodZ (a_dims T1) <= INT_MAX /\ Forall2 (op_defined (a_type T1) op) (a_vals T1) (a_vals T2)) ->
  aitisa_binary_op op (HPtr p1) (HPtr p2) o E s = UB UB_overflow.
Proof. exact binary_stuck. Qed.
Print Assumptions C61_arithmetic_undefined.
Theorem C61_cast : forall p T t2 o E s,
  wf s -> alloc_all E -> holds (heap s) p T -> t2 <> a_type T -> fits (tsz t2) (a_dims T) -> init T ->
  (exists T', makes (aitisa_cast (HPtr p) (dtype_of t2) o) E s T') <-> Forall (convertible t2) (a_vals T).
Proof. exact cast_iff. Qed.
Print Assumptions C61_cast.
Theorem C61_cast_undefined : forall p T t2 o E s,
  wf s -> alloc_all E -> holds (heap s) p T -> t2 <> a_type T -> fits (tsz t2) (a_dims T) -> init T ->
  ~ Forall (convertible t2) (a_vals T) ->
  aitisa_cast (HPtr p) (dtype_of t2) o E s = UB UB_fconv.
Proof. exact cast_stuck. Qed.
Print Assumptions C61_cast_undefined.

Definition T_max : atensor := AT I32 cpu [2] (VI <$> [2147483647; 1]).
Definition T_one : atensor := AT I32 cpu [2] (VI <$> [1; 1]).
Definition T_300 : atensor := AT F64 cpu [2] [VF (flt_of_Z F64 3); VF (flt_of_Z F64 300)].
Lemma T_max_valid : valid T_max. Proof. lit_valid. Qed.
Lemma T_one_valid : valid T_one. Proof. lit_valid. Qed.
Lemma T_300_valid : valid T_300. Proof. lit_valid. Qed.
Example C61_ex : let s := fx [T_max; T_one] in
  wf s /\ alloc_all E0 /\ holds (heap s) 0 T_max /\ holds (heap s) 5 T_one /\
  a_type T_one = a_type T_max /\ a_dims T_one = a_dims T_max /\ init T_max /\ init T_one /\
  Forall2 (op_defined I32 OpSub) (a_vals T_max) (a_vals T_one) /\
  ~ Forall2 (op_defined I32 OpAdd) (a_vals T_max) (a_vals T_one).
Proof.
  split_and!; [apply fx_wf|done|exact (fx_holds [T_max; T_one] 0 T_max eq_refl T_max_valid)|
    exact (fx_holds [T_max; T_one] 1 T_one eq_refl T_one_valid)|done|done|lit_init|lit_init| |].
  - repeat constructor; vm_compute; intuition discriminate.
  - intros H. inversion H as [|? ? ? ? H1 _]; subst. destruct H1 as [_ H1]. vm_compute in H1. intuition discriminate.
Qed.
Example C61_run : (exists r s', aitisa_sub (HPtr 0) (HPtr 5) HNull E0 (fx [T_max; T_one]) = Done r s' /\
    peek E0 s' r = Some (SUCCESS, [2], VI <$> [2147483646; 0])) /\
  aitisa_add (HPtr 0) (HPtr 5) HNull E0 (fx [T_max; T_one]) = UB UB_overflow.
Proof. split; [apply run_ex; vm_compute; reflexivity|vm_compute; reflexivity]. Qed.
Example C61_cast_ex : wf (fx [T_300]) /\ holds (heap (fx [T_300])) 0 T_300 /\ I8 <> a_type T_300 /\
  fits (tsz I8) (a_dims T_300) /\ init T_300.
Proof.
  split_and!; [apply fx_wf|exact (fx_holds [T_300] 0 T_300 eq_refl T_300_valid)|done|lit_fits|lit_init].
Qed.
Example C61_cast_run : (exists r s', aitisa_cast (HPtr 0) (dtype_of I16) HNull E0 (fx [T_300]) = Done r s' /\
    peek E0 s' r = Some (SUCCESS, [2], VI <$> [3; 300])) /\
  aitisa_cast (HPtr 0) (dtype_of I8) HNull E0 (fx [T_300]) = UB UB_fconv.
Proof. split; [apply run_ex; vm_compute; reflexivity|vm_compute; reflexivity]. Qed.

(** ** C62: a call that fails for lack of memory gives its memory back (false) *)
(** Creation, filling, conversion, reshape, roots and activations never release
    anything: what they were granted before the refusal stays allocated. *)
Theorem C62_no_leak_refuted : forall x o E ok s j r s1,
  wf s -> hoarder x -> refuses_nth ok s j ->
  run_op x o (plenty E) s = Done r s1 -> (ctr s + j < ctr s1)%nat ->
  exists s', run_op x o (schedule E ok) s = Done (ALLOC_FAILED, o) s' /\ hoarded s s' j /\ asked s s' (S j).
Proof. exact hoard_leak. Qed.
Print Assumptions C62_no_leak_refuted.
(** Under any allocator: what such a call leaves allocated is what it was granted, and
    only its last request can have been refused. *)
Theorem C62_balance : forall x o E s st h s',
  wf s -> hoarder x -> run_op x o E s = Done (st, h) s' -> exists n,
  hoarded s s' n /\ (asked s s' n \/ asked s s' (S n) /\ st = ALLOC_FAILED).
Proof. exact hoard_run. Qed.
Print Assumptions C62_balance.
Theorem C62_count : forall s s' n, wf s -> hoarded s s' n -> size (heap s') = (size (heap s) + n)%nat.
Proof. exact hoarded_size. Qed.
Print Assumptions C62_count.
(** Creating a tensor takes five requests (three without axes); refusing the one after
    the first [j] leaks [j] blocks. *)
Theorem C62_create : forall t dev dims o E ok s j,
  wf s -> fits (tsz t) dims -> refuses_nth ok s j -> (j < match dims with [] => 3 | _ => 5 end)%nat ->
  exists s', aitisa_create (dtype_of t) dev dims (Z.of_nat (length dims)) HNull 0 o (schedule E ok) s = Done (ALLOC_FAILED, o) s' /\
    hoarded s s' j /\ asked s s' (S j).
Proof. exact create_leak. Qed.
Print Assumptions C62_create.

Example C62_ex : wf (fx [T_f32]) /\ hoarder (ORelu (HPtr 0)) /\
  refuses_nth (fun k => negb (Nat.eqb k 9)) (fx [T_f32]) 4 /\
  exists r s1, run_op (ORelu (HPtr 0)) HNull (plenty E0) (fx [T_f32]) = Done r s1 /\ (ctr (fx [T_f32]) + 4 < ctr s1)%nat.
Proof.
  split_and!; [apply fx_wf|done| |].
  - split; [|reflexivity]. cbn. intros k Hk. destruct (Nat.eqb_spec k 9); [lia|done].
  - apply run_ex. vm_compute. lia.
Qed.
Example C62_run : exists s', aitisa_relu (HPtr 0) HNull (Erefuse 9) (fx [T_f32]) = Done (ALLOC_FAILED, HNull) s' /\
  size (heap (fx [T_f32])) = 5%nat /\ size (heap s') = 9%nat.
Proof. eexists. split_and!; [vm_compute; reflexivity|vm_compute; reflexivity|vm_compute; reflexivity]. Qed.
Example C62_create_ex : fits (tsz F32) [2; 3] /\ refuses_nth (fun k => negb (Nat.eqb k 2)) s_empty 2 /\ (2 < 5)%nat.
Proof.
  split_and!; [lit_fits| |lia]. split; [|reflexivity]. cbn. intros k Hk. destruct (Nat.eqb_spec k 2); [lia|done].
Qed.
