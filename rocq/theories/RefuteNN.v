(** * RefuteNN: witnesses for the properties of src/nn that do not hold *)
From stdpp Require Import gmap list.
From Coq Require Import ZArith Lia Floats.SpecFloat.
From Verif Require Import Base Mem Spec SpecReal SpecNN ModelCore ModelBasic ModelMath ModelNN Logic
  ProofCore ProofCore2 Fixture.
Open Scope Z_scope.

(** An environment with another exp. *)
Definition Eexp (f : spec_float -> spec_float) : env :=
  Env (fun _ _ _ => true) 0 0 (fun k => Z.of_nat k * 37) f (fun _ => INTERNAL_ERROR) 1000.

(** NaN, -0 and the infinities *)
Definition T_special : atensor := AT F32 cpu [4]
  (VF <$> [S754_nan; S754_zero true; S754_infinity true; S754_infinity false]).

(** Softmax stores each exponential in the element type.  For an integer type
    that is a conversion out of range as soon as exp(x) is too large: here
    exp(100) is taken to be 2^144, its correct order of magnitude. *)
Definition T_100 : atensor := AT I32 cpu [1; 2] [VI 100; VI 0].
Lemma T_100_valid : valid T_100. Proof. lit_valid. Qed.
Definition exp_144 (_ : spec_float) : spec_float := S754_finite false (2 ^ 52) 92.
Lemma exp_144_ok : exp_ok exp_144.
Proof. done. Qed.
Lemma softmax_int_ub : exists E s p T,
  wf s /\ alloc_all E /\ hooks_ok E /\ exp_ok (e_exp E) /\ holds (heap s) p T /\ init T /\
  a_type T = I32 /\ Forall (fun d => 0 < d) (a_dims T) /\
  aitisa_softmax (HPtr p) (-1) HNull E s = UB UB_fconv /\
  aitisa_softmax (HPtr p) 1 HNull E s = UB UB_fconv.
Proof.
  exists (Eexp exp_144), (fx [T_100]), 0%nat, T_100.
  split_and!; [apply fx_wf|done|done|done|exact (fx_holds [T_100] 0 T_100 eq_refl T_100_valid)| |done| | |].
  - repeat constructor; vm_compute; discriminate.
  - by repeat constructor.
  - vm_compute. reflexivity.
  - vm_compute. reflexivity.
Qed.
