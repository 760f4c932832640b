(** * PropScale: scaling by an integer scalar, for every scalar (C36) *)
From stdpp Require Import gmap list.
From Coq Require Import ZArith Lia Reals.
From Verif Require Import Base Mem Spec SpecReal SpecScale ModelCore ModelBasic ModelMath Logic ProofScale Fixture.
Open Scope Z_scope.

(** The scalar is replaced by the nearest double.  When that fits the type the
    elements are multiplied by it, and otherwise the call is undefined. *)
Theorem C36_scalar_left : forall p1 p2 T1 T2 o E s z w,
  wf s -> alloc_all E -> hooks_ok E -> holds (heap s) p1 T1 -> holds (heap s) p2 T2 ->
  a_type T2 = a_type T1 -> dev_type (a_dev T1) = 0 -> dev_type (a_dev T2) = 0 ->
  a_dims T1 = [] -> a_vals T1 = [VI z] -> init T1 -> init T2 -> nearest_double z w ->
  scales (aitisa_dot (HPtr p1) (HPtr p2) o) E s (a_type T1) (a_dev T1) T2 w.
Proof. exact scale_left. Qed.
Print Assumptions C36_scalar_left.
Theorem C36_scalar_right : forall p1 p2 T1 T2 o E s z w,
  wf s -> alloc_all E -> hooks_ok E -> holds (heap s) p1 T1 -> holds (heap s) p2 T2 ->
  a_type T2 = a_type T1 -> dev_type (a_dev T1) = 0 -> dev_type (a_dev T2) = 0 ->
  a_dims T2 = [] -> a_dims T1 <> [] -> a_vals T2 = [VI z] -> init T1 -> init T2 -> nearest_double z w ->
  scales (aitisa_dot (HPtr p1) (HPtr p2) o) E s (a_type T1) (a_dev T1) T1 w.
Proof. exact scale_right. Qed.
Print Assumptions C36_scalar_right.
(** Every integer has one nearest double, which is an integer and, up to 2^53, the
    number itself ... *)
Theorem C36_nearest : forall z,
  (exists w, nearest_double z w /\ forall w', nearest_double z w' -> w' = w) /\
  (Z.abs z <= 2 ^ 53 -> nearest_double z z).
Proof.
  intros z. split; [|apply nearest_small]. destruct (round_int z) as (w & Hw). exists w. split; [exact Hw|].
  intros w' Hw'. exact (nearest_unique _ _ _ Hw' Hw).
Qed.
Print Assumptions C36_nearest.
(** ... and it fits the type, except for the largest 64-bit numbers. *)
Theorem C36_fits : forall t z w, is_float t = false -> tmin t <= z <= tmax t -> nearest_double z w ->
  (tmin t <= w <= tmax t <-> match t with I64 => z < 2 ^ 63 - 512 | U64 => z < 2 ^ 64 - 1024 | _ => True end).
Proof. exact nearest_fits. Qed.
Print Assumptions C36_fits.

(** 2^53 + 3 is rounded to 2^53 + 4. *)
Definition T_big : atensor := AT I64 cpu [] [VI 9007199254740995].
Definition T_ones : atensor := AT I64 cpu [2] [VI 1; VI (-2)].
Example C36_scalar_ex : nearest_double 9007199254740995 9007199254740996 /\
  holds (heap (fx [T_big; T_ones])) 0 T_big /\ holds (heap (fx [T_big; T_ones])) 5 T_ones /\ init T_big /\ init T_ones /\
  Forall (op_defined I64 OpMul (VI 9007199254740996)) (a_vals T_ones).
Proof.
  split.
  { apply nearest_lit; [by vm_compute|].
    replace (flt_of_Z F64 9007199254740995) with (Floats.SpecFloat.S754_finite false 4503599627370498 1) by (vm_compute; reflexivity).
    unfold Flocq.IEEE754.BinarySingleNaN.SF2R, Flocq.Core.Defs.F2R.
    cbn [Flocq.Core.Defs.Fnum Flocq.Core.Defs.Fexp Flocq.Core.Zaux.cond_Zopp Flocq.Core.Raux.bpow].
    rewrite <-mult_IZR. reflexivity. }
  split; [exact (fx_holds [T_big; T_ones] 0 T_big eq_refl ltac:(lit_valid))|].
  split; [exact (fx_holds [T_big; T_ones] 1 T_ones eq_refl ltac:(lit_valid))|].
  split; [|split]; repeat constructor; vm_compute; discriminate.
Qed.
Example C36_scalar_run : exists r s',
  aitisa_dot (HPtr 0) (HPtr 5) HNull E0 (fx [T_big; T_ones]) = Done r s' /\
  peek E0 s' r = Some (SUCCESS, [2], VI <$> [9007199254740996; -18014398509481992]).
Proof. apply run_ex. vm_compute. reflexivity. Qed.
