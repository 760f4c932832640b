(** * RefuteMath: witnesses for the properties of src/math that do not hold *)
From stdpp Require Import gmap list.
From Coq Require Import ZArith Lia Floats.SpecFloat.
From Verif Require Import Base Mem Spec SpecReal ModelCore ModelBasic ModelMath Logic ProofCore ProofCore2 ProofSqrt Fixture.
Open Scope Z_scope.

Definition T_max : atensor := AT I32 cpu [2] [VI INT_MAX; VI 1].
Definition T_one : atensor := AT I32 cpu [2] [VI 1; VI 1].
Definition T_u16 : atensor := AT U16 cpu [1] [VI 65535].
Lemma T_max_valid : valid T_max. Proof. lit_valid. Qed.
Lemma T_one_valid : valid T_one. Proof. lit_valid. Qed.
Lemma T_u16_valid : valid T_u16. Proof. lit_valid. Qed.

(** int32 addition overflows. *)
Lemma add_overflow : exists E s p1 p2 T1 T2,
  wf s /\ alloc_all E /\ holds (heap s) p1 T1 /\ holds (heap s) p2 T2 /\
  a_type T1 = I32 /\ a_type T2 = I32 /\ a_dims T1 = a_dims T2 /\ init T1 /\ init T2 /\
  aitisa_add (HPtr p1) (HPtr p2) HNull E s = UB UB_overflow.
Proof.
  exists E0, (fx [T_max; T_one]), 0%nat, 5%nat, T_max, T_one.
  split_and!; [apply fx_wf|done|exact (fx_holds [T_max; T_one] 0 T_max eq_refl T_max_valid)|
    exact (fx_holds [T_max; T_one] 1 T_one eq_refl T_one_valid)|done|done|done| | |].
  - repeat constructor; vm_compute; discriminate.
  - repeat constructor; vm_compute; discriminate.
  - vm_compute. reflexivity.
Qed.
(** So does the product of two unsigned 16-bit elements, which C computes in int. *)
Lemma mul_u16_overflow : exists E s p T,
  wf s /\ alloc_all E /\ holds (heap s) p T /\ a_type T = U16 /\ init T /\
  aitisa_mul (HPtr p) (HPtr p) HNull E s = UB UB_overflow.
Proof.
  exists E0, (fx [T_u16]), 0%nat, T_u16.
  split_and!; [apply fx_wf|done|exact (fx_holds [T_u16] 0 T_u16 eq_refl T_u16_valid)|done| |].
  - repeat constructor; vm_compute; discriminate.
  - vm_compute. reflexivity.
Qed.

(** The root of a 64-bit integer goes through double: for 94906267^2 - 1 it is
    rounded up to 94906267. *)
Definition big_sq : Z := 94906267 * 94906267 - 1.
Lemma sqrt_one z y : val_ok I64 (VI z) -> 0 <= z -> sqrt_val I64 (VI z) = Some (VI y) ->
  let T := AT I64 cpu [1] [VI z] in
  holds (heap (fx [T])) 0 T /\ makes (aitisa_sqrt (HPtr 0) HNull) E0 (fx [T]) (AT I64 cpu [1] [VI y]).
Proof.
  intros Hv Hz Hy T.
  assert (holds (heap (fx [T])) 0 T) as Hh.
  { apply (fx_holds [T] 0); [done|]. lit_valid. }
  split; [done|]. apply (sqrt_vals 0 T); [apply fx_wf|done|done| | |].
  - repeat constructor; apply Hv.
  - repeat constructor. cbn. lia.
  - by repeat constructor.
Qed.
Lemma sqrt_rounds_up : exists E s p z y,
  wf s /\ alloc_all E /\ holds (heap s) p (AT I64 cpu [1] [VI z]) /\ 0 <= z /\
  makes (aitisa_sqrt (HPtr p) HNull) E s (AT I64 cpu [1] [VI y]) /\ z < y * y.
Proof.
  destruct (sqrt_one big_sq 94906267) as [H1 H2].
  - vm_compute. repeat split; discriminate.
  - vm_compute. discriminate.
  - vm_compute. reflexivity.
  - exists E0, (fx [AT I64 cpu [1] [VI big_sq]]), 0%nat, big_sq, 94906267.
    split; [apply fx_wf|]. split; [exact E0_alloc|]. split; [exact H1|].
    split; [vm_compute; discriminate|]. split; [exact H2|vm_compute; reflexivity].
Qed.
