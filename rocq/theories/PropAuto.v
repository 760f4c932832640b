(** * PropAuto: properties C63-C65 of the automatic test harness *)
From stdpp Require Import gmap list.
From Coq Require Import ZArith Lia Reals Floats.SpecFloat.
From Flocq Require Import IEEE754.BinarySingleNaN.
From Verif Require Import Base Mem Spec SpecReal SpecError ModelCore ModelBasic ModelMath ModelAuto SpecAuto.
From Verif Require Import ProofAuto ProofAuto2 ProofAuto3 ProofAutoLit ProofMath ProofCore3 Fixture.
Open Scope Z_scope.

(** ** C63: natural_assign fills the buffer with 1, 2, 3, ... or 0.1, 0.2, 0.3, ... *)
Theorem C63_natural_assign : forall E s b tg l t len,
  heap s !! b = Some (Blk tg (CData l)) -> 0 <= len <= Z.of_nat (length l) -> len < UINT32_MOD ->
  exists ws, natural_assign (HPtr b) len (code_of t) E s
    = Done tt (St (<[b := Blk tg (CData (cells t ws ++ drop (length ws * tsz t) l))]> (heap s)) (ctr s) (rpos s)) /\
  length ws = Z.to_nat (len / Z.of_nat (tsz t)) /\
  forall i w, ws !! i = Some w -> natural_spec t i w.
Proof. exact natural_assign_ok. Qed.
Print Assumptions C63_natural_assign.

Theorem C63_unknown_type : forall E s p len c, tc_of c = None -> natural_assign p len c E s = Done tt s.
Proof. exact natural_assign_unknown. Qed.
Print Assumptions C63_unknown_type.

Theorem C63_operand : forall dims t dev E s, wf s -> fits (tsz t) dims ->
  prodZ dims * Z.of_nat (tsz t) < UINT32_MOD -> alloc_all E ->
  exists p len s' ws, natural_operand dims (code_of t) E s = Done (p, len) s' /\ wf s' /\ heap s ⊆ heap s' /\
    (forall i w, ws !! i = Some w -> natural_spec t i w) /\
    supplied (heap s') (Opd dims (code_of t) (dev_type dev) p len) (AT t dev dims ws).
Proof. exact natural_operand_ok. Qed.
Print Assumptions C63_operand.

(** 23 bytes are five int32; the sixth is left alone. *)
Example C63_natural_assign_ex :
  heap (fx [T_i32]) !! 4%nat = Some (Blk 0 (CData (cells I32 (a_vals T_i32)))) /\
  0 <= 23 <= Z.of_nat (length (cells I32 (a_vals T_i32))) /\ 23 < UINT32_MOD /\
  heap (match natural_assign (HPtr 4) 23 4 E0 (fx [T_i32]) with Done _ s' => s' | _ => s_empty end) !! 4%nat
  = Some (Blk 0 (CData (cells I32 (VI <$> [1; 2; 3; 4; 5; -1])))).
Proof. split_and!; try (vm_compute; reflexivity); vm_compute; discriminate. Qed.
Example C63_wraps : natural_elem I8 127 = Some (VI (-128)) /\ natural_elem U8 255 = Some (VI 0).
Proof. done. Qed.
Example C63_operand_ex : wf s_empty /\ fits (tsz F64) [2013; 2018] /\
  prodZ [2013; 2018] * Z.of_nat (tsz F64) < UINT32_MOD /\ alloc_all E0.
Proof. split_and!; [exact s_empty_wf|lit_fits|reflexivity|done]. Qed.
Example C63_unknown_type_ex : tc_of 10 = None. Proof. done. Qed.

(** ** C64: the verdict of a comparison is whether the two results agree *)
Theorem C64_compare : forall E s dev t same A U ra ru, valid A -> valid U ->
  shows (heap s) ra A -> shows (heap s) ru U -> a_type A = t ->
  exists b, compare dev t same ra ru E s = Done b s /\ (b = true <-> agree dev same A U).
Proof. exact compare_ok. Qed.
Print Assumptions C64_compare.

(** A sample with an arbitrary user: the verdict is true iff the user's result agrees
    with the library's. *)
Theorem C64_sample : forall {X} (U : user X) E s op x1 x2 dev same T1 T2 T V, wf s -> alloc_all E ->
  supplied (heap s) x1 T1 -> supplied (heap s) x2 T2 -> computes E op (on (Dev 0 0) T1) (on (Dev 0 0) T2) T ->
  valid T -> valid V ->
  (forall s1, keeps s s1 -> exists r s2, user_run U x1 x2 E s1 = Done r s2 /\ shows (heap s2) r V /\ keeps s1 s2) ->
  exists b s', auto_case op U x1 x2 dev (a_type T) same E s = Done b s' /\
    (b = true <-> agree (default (dev_type (a_dev T)) dev) same T V).
Proof. exact @sample_verdict. Qed.
Print Assumptions C64_sample.

(** The float comparison: finite, and the rounded difference below the double 1e-3; so it
    accepts differences up to 0.000999 and nothing above 0.001001. *)
Theorem C64_float_exact : forall t x y, is_float t = true ->
  valid_binary (fprec t) (femax t) x = true -> valid_binary (fprec t) (femax t) y = true ->
  same_float t (VF x) (VF y) = true <->
  is_finite_SF x = true /\ is_finite_SF y = true /\ (Rabs (rnd t (RV x - RV y)) < rnd F64 (1 / 1000))%R.
Proof. exact same_float_iff'. Qed.
Print Assumptions C64_float_exact.
(** The integer comparison is equality. *)
Theorem C64_int_exact : forall t x y, is_float t = false -> val_ok t x -> val_ok t y -> same_int x y = true <-> x = y.
Proof. exact same_int_iff. Qed.
Print Assumptions C64_int_exact.
(** The device table: device type n with id 0, and nothing else *)
Theorem C64_devices : forall n E s,
  int_to_device n E s = if (0 <=? n) && (n <? 2) then Done (Dev n 0) s else UB UB_oob.
Proof. exact devices_at. Qed.
Print Assumptions C64_devices.
Theorem C64_float_tolerance : forall t x y, is_float t = true ->
  valid_binary (fprec t) (femax t) x = true -> valid_binary (fprec t) (femax t) y = true ->
  (same_float t (VF x) (VF y) = true ->
     is_finite_SF x = true /\ is_finite_SF y = true /\ (Rabs (RV x - RV y) <= 1001 / 1000000)%R) /\
  (is_finite_SF x = true -> is_finite_SF y = true -> (Rabs (RV x - RV y) <= 999 / 1000000)%R ->
     same_float t (VF x) (VF y) = true).
Proof. exact same_float_near. Qed.
Print Assumptions C64_float_tolerance.

Definition T_i32'' : atensor := AT I32 cpu [2; 3] (VI <$> [1; 2; 3; 4; 5; 7]).
Definition out0 (k : nat) : outcome := Out 4 0 (HPtr (5 * k + 1)) 2 (HPtr (5 * k + 4)) 24.
Example C64_compare_ex :
  valid T_i32 /\ shows (heap (fx [T_i32; T_i32; T_i32''])) (out0 0) T_i32 /\
  shows (heap (fx [T_i32; T_i32; T_i32''])) (out0 1) T_i32 /\
  compare 0 I32 same_int (out0 0) (out0 1) E0 (fx [T_i32; T_i32; T_i32'']) = Done true (fx [T_i32; T_i32; T_i32'']) /\
  compare 0 I32 same_int (out0 0) (out0 2) E0 (fx [T_i32; T_i32; T_i32'']) = Done false (fx [T_i32; T_i32; T_i32'']).
Proof.
  split_and!; [exact T_i32_valid| | |vm_compute; reflexivity|vm_compute; reflexivity].
  - split_and!; try reflexivity; [eexists 1%nat, 0%nat; split; reflexivity|]. exists 4%nat, 0%nat, []. split; reflexivity.
  - split_and!; try reflexivity; [eexists 6%nat, 0%nat; split; reflexivity|]. exists 9%nat, 0%nat, []. split; reflexivity.
Qed.
Example C64_float_ex : let f z := VF (flt_of_Z F32 z) in
  same_float F32 (f 7) (f 7) = true /\ same_float F32 (f 7) (f 8) = false /\
  same_float F32 (VF S754_nan) (VF S754_nan) = false /\
  same_float F32 (VF (S754_infinity false)) (VF (S754_infinity false)) = false.
Proof. vm_compute. split_and!; reflexivity. Qed.

(** ** C65: the library registered as its own user implementation *)
(** On the CPU it passes, unless a float result is infinite or NaN. *)
Theorem C65_cpu : forall E s op x1 x2 T1 T2 T, wf s -> alloc_all E ->
  x_device x1 = 0 -> x_device x2 = 0 ->
  supplied (heap s) x1 T1 -> supplied (heap s) x2 T2 -> computes E op (on (Dev 0 0) T1) (on (Dev 0 0) T2) T ->
  valid T -> init T ->
  exists b s', auto_case op (itself op) x1 x2 None (a_type T) (same_as (a_type T)) E s = Done b s' /\
    (b = true <-> (is_float (a_type T) = true -> Forall finite_val (a_vals T))).
Proof. exact self_verdict. Qed.
Print Assumptions C65_cpu.

(** Naturally assigned arithmetic samples of any shape pass. *)
Theorem C65_natural : forall E s o t dims, wf s -> alloc_all E -> fits (tsz t) dims ->
  prodZ dims * Z.of_nat (tsz t) < UINT32_MOD -> prodZ dims <= INT_MAX -> natural_case t o (prodZ dims) ->
  exists p1 l1 s1 p2 l2 s2 s3,
    natural_operand dims (code_of t) E s = Done (p1, l1) s1 /\
    natural_operand dims (code_of t) E s1 = Done (p2, l2) s2 /\
    auto_case (aitisa_binary_op o) (itself (aitisa_binary_op o))
      (Opd dims (code_of t) 0 p1 l1) (Opd dims (code_of t) 0 p2 l2) None t (same_as t) E s2 = Done true s3.
Proof. exact natural_pass. Qed.
Print Assumptions C65_natural.

(** On CUDA the refused operation leaves the result unset, and resolving it is
    undefined. *)
Theorem C65_cuda_refuted : forall E s op x1 x2 T1 T2 T dev t same, wf s -> alloc_all E ->
  x_device x1 = 1 -> x_device x2 = 1 ->
  supplied (heap s) x1 T1 -> supplied (heap s) x2 T2 -> computes E op (on (Dev 0 0) T1) (on (Dev 0 0) T2) T ->
  (forall s p1 p2 o, holds (heap s) p1 (on (Dev 1 0) T1) -> holds (heap s) p2 (on (Dev 1 0) T2) ->
     exists x, refuses (op (HPtr p1) (HPtr p2) o) E s o x) ->
  auto_case op (itself op) x1 x2 dev t same E s = UB UB_uninit.
Proof. exact self_stuck. Qed.
Print Assumptions C65_cuda_refuted.

(** The narrow types wrap to zero: dividing 256 naturally assigned uint8 is undefined. *)
Definition narrow_sample : M bool :=
  let* (p1, l1) := natural_operand [256] 1 in
  let* (p2, l2) := natural_operand [256] 1 in
  auto_case aitisa_div (itself aitisa_div) (Opd [256] 1 0 p1 l1) (Opd [256] 1 0 p2 l2) None U8 same_int.
Theorem C65_narrow_refuted : exists u, narrow_sample E0 s_empty = UB u.
Proof. eexists. vm_compute. reflexivity. Qed.
Print Assumptions C65_narrow_refuted.

(** The samples of binary_op_test.h *)
Example C65_natural_ex :
  wf s_empty /\ alloc_all E0 /\
  (fits (tsz I32) [10; 6] /\ prodZ [10; 6] * Z.of_nat (tsz I32) < UINT32_MOD /\ natural_case I32 OpAdd (prodZ [10; 6])) /\
  (fits (tsz U64) [10; 3; 2] /\ prodZ [10; 3; 2] * Z.of_nat (tsz U64) < UINT32_MOD /\ natural_case U64 OpMul (prodZ [10; 3; 2])) /\
  (fits (tsz F32) [5] /\ prodZ [5] * Z.of_nat (tsz F32) < UINT32_MOD /\ natural_case F32 OpDiv (prodZ [5])).
Proof. split_and!; try exact s_empty_wf; try lit_fits; try reflexivity; try done. Qed.

Definition cuda_case : operand := Opd [2; 3] 4 1 (HPtr 4) 24.
Example C65_cuda_ex :
  supplied (heap (fx [T_i32])) cuda_case T_i32 /\
  computes E0 (aitisa_binary_op OpAdd) (on (Dev 0 0) T_i32) (on (Dev 0 0) T_i32)
    (AT I32 (Dev 0 0) [2; 3] (VI <$> [10; -14; 0; 24; 6; -2])) /\
  (forall s p1 p2 o, holds (heap s) p1 (on (Dev 1 0) T_i32) -> holds (heap s) p2 (on (Dev 1 0) T_i32) ->
     exists x, refuses (aitisa_binary_op OpAdd (HPtr p1) (HPtr p2) o) E0 s o x).
Proof.
  split_and!.
  - split_and!; try reflexivity; [exact T_i32_valid|]. exists 4%nat, 0%nat, []. split; reflexivity.
  - intros s p1 p2 o Hwf H1 H2.
    apply (binary_rule OpAdd p1 p2 (on (Dev 0 0) T_i32) (on (Dev 0 0) T_i32)); try done.
    repeat constructor.
  - intros s p1 p2 o H1 H2. eexists. eapply binary_not_cpu; [exact H1|exact H2|]. intros [? _]. done.
Qed.
