(** * RefuteBasic: witnesses for the properties of src/basic that do not hold *)
From stdpp Require Import gmap list.
From Coq Require Import ZArith Lia.
From Verif Require Import Base Mem Spec ModelCore ModelBasic Logic ProofCore ProofCore2 ProofCore3
  ProofKernel ProofBasic ProofKernel2 ProofSlice Fixture.
Open Scope Z_scope.

Definition T_empty : atensor := AT F32 cpu [0; 2] [].
Lemma T_empty_valid : valid T_empty. Proof. lit_valid. Qed.

(** A repeated axis is counted twice: out_dims gets one slot too few and is
    written out of bounds (src/basic/squeeze.c:26-46). *)
Lemma squeeze_repeated_ub : exists E s p T axis e,
  wf s /\ alloc_all E /\ holds (heap s) p T /\
  Forall (fun a => 0 <= a < Z.of_nat (length (a_dims T))) axis /\
  aitisa_squeeze (HPtr p) axis (Z.of_nat (length axis)) HNull E s = UB e.
Proof.
  exists E0, (fx [T_u8]), 0%nat, T_u8, [1; 1]. eexists.
  split_and!; [apply fx_wf|done|exact (fx_holds [T_u8] 0 T_u8 eq_refl T_u8_valid)|repeat constructor; cbn; lia|].
  vm_compute. reflexivity.
Qed.
(** A too large axis is an out-of-bounds read. *)
Lemma squeeze_large_ub : exists E s p T axis e,
  wf s /\ alloc_all E /\ holds (heap s) p T /\ NoDup axis /\ Forall (fun a => 0 <= a) axis /\
  aitisa_squeeze (HPtr p) axis (Z.of_nat (length axis)) HNull E s = UB e.
Proof.
  exists E0, (fx [T_u8]), 0%nat, T_u8, [3]. eexists.
  split_and!; [apply fx_wf|done|exact (fx_holds [T_u8] 0 T_u8 eq_refl T_u8_valid)|apply NoDup_singleton
    |repeat constructor; lia|].
  vm_compute. reflexivity.
Qed.
(** A zero extent is mistaken for a removed axis: out_dims stays partly
    uninitialised and is then read. *)
Lemma squeeze_zero_ub : exists E s p T e,
  wf s /\ alloc_all E /\ holds (heap s) p T /\
  aitisa_squeeze (HPtr p) [] 0 HNull E s = UB e.
Proof.
  exists E0, (fx [T_empty]), 0%nat, T_empty. eexists.
  split_and!; [apply fx_wf|done|exact (fx_holds [T_empty] 0 T_empty eq_refl T_empty_valid)|].
  vm_compute. reflexivity.
Qed.

(** begin + size overflows int before it is compared with the extent. *)
Lemma slice_overflow_ub : exists E s p T bs ss ts,
  wf s /\ alloc_all E /\ holds (heap s) p T /\
  length bs = length (a_dims T) /\ length ss = length (a_dims T) /\ length ts = length (a_dims T) /\
  Forall (fun z => INT_MIN <= z <= INT_MAX) (bs ++ ss ++ ts) /\
  aitisa_slice (HPtr p) bs ss ts HNull E s = UB UB_overflow.
Proof.
  exists E0, (fx [T_f64]), 0%nat, T_f64, [1], [INT_MAX], [1].
  split_and!; [apply fx_wf|done|exact (fx_holds [T_f64] 0 T_f64 eq_refl T_f64_valid)|done|done|done| |].
  - repeat constructor; vm_compute; discriminate.
  - vm_compute. reflexivity.
Qed.

(** A rank-0 tensor: offset_recorder[in_ndim - 1] is written before the start
    of a zero-byte allocation (src/basic/slice.c:107). *)
Lemma duplicate_scalar_ub : exists E s p T e,
  wf s /\ alloc_all E /\ holds (heap s) p T /\ aitisa_duplicate (HPtr p) HNull E s = UB e.
Proof.
  exists E0, (fx [T_scalar]), 0%nat, T_scalar. eexists.
  split_and!; [apply fx_wf|done|exact (fx_holds [T_scalar] 0 T_scalar eq_refl T_scalar_valid)|].
  vm_compute. reflexivity.
Qed.
(** The same for slice itself. *)
Lemma slice_scalar_ub : exists E s p T e,
  wf s /\ alloc_all E /\ holds (heap s) p T /\ aitisa_slice (HPtr p) [] [] [] HNull E s = UB e.
Proof.
  exists E0, (fx [T_scalar]), 0%nat, T_scalar. eexists.
  split_and!; [apply fx_wf|done|exact (fx_holds [T_scalar] 0 T_scalar eq_refl T_scalar_valid)|].
  vm_compute. reflexivity.
Qed.

(** An extent above INT_MAX is truncated by the conversion to int: duplicating
    a tensor with 2^32+1 elements "succeeds" with one element. *)
Definition huge (d : Z) : atensor := AT U8 cpu [d] (replicate (Z.to_nat d) (VI 0)).
Lemma huge_valid d : 0 <= d <= 2 ^ 62 -> valid (huge d).
Proof.
  intros Hd. split.
  - cbn [huge a_dims a_type tsz]. split_and!.
    + repeat constructor; lia.
    + vm_compute. discriminate.
    + change (prodZ (Z.max 1 <$> [d])) with (Z.max 1 d * 1). unfold INT64_MAX. lia.
  - unfold huge. cbn [a_vals a_dims]. rewrite replicate_length. f_equal. unfold prodZ. cbn [foldr]. lia.
Qed.
Lemma huge_truncates d : d = 4294967297 -> exists E s p T T',
  wf s /\ alloc_all E /\ holds (heap s) p T /\
  makes (aitisa_duplicate (HPtr p) HNull) E s T' /\
  prodZ (a_dims T) = d /\ prodZ (a_dims T') = 1.
Proof.
  intros Hd. assert (valid (huge d)) as Hv by (apply huge_valid; lia).
  pose proof (fx_holds [huge d] 0 (huge d) eq_refl Hv) as Hh. cbn [Nat.mul] in Hh.
  assert (to_int d = 1) as Ht by (subst d; reflexivity).
  exists E0, (fx [huge d]), 0%nat, (huge d). eexists.
  split_and!; [apply fx_wf|done|exact Hh| | |].
  - apply duplicate_gen; [apply fx_wf|done|done|exact Hh|done| |].
    + apply slice_ok_intro; [done|done|done|].
      intros [|i] d' b s t H1 H2 H3 H4; [|done]. cbn [huge a_dims lookup list_lookup fmap list_fmap zeros ones replicate length] in *.
      simplify_eq. rewrite Ht. unfold INT_MAX. lia.
    + cbn [huge a_dims fmap list_fmap length]. rewrite Ht. vm_compute. discriminate.
  - unfold prodZ. cbn. lia.
  - cbn [huge a_dims fmap list_fmap length]. rewrite Ht. reflexivity.
Qed.
Lemma duplicate_truncates : exists E s p T T',
  wf s /\ alloc_all E /\ holds (heap s) p T /\
  makes (aitisa_duplicate (HPtr p) HNull) E s T' /\
  prodZ (a_dims T) = 4294967297 /\ prodZ (a_dims T') = 1.
Proof. by apply huge_truncates. Qed.
