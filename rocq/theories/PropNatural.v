(** * PropNatural: every naturally assigned arithmetic sample (C65) *)
From stdpp Require Import gmap list.
From Coq Require Import ZArith Lia.
From Verif Require Import Base Mem Spec SpecReal SpecError ModelCore ModelMath ModelAuto SpecAuto SpecNatural Logic ProofNatural Fixture.
Open Scope Z_scope.

(** Any type, any operation, any shape below 4 GiB: if every element operation is defined, the library passes its own test, *)
Theorem C65_natural_exact : forall E s o t dims, wf s -> alloc_all E -> fits (tsz t) dims ->
  prodZ dims * Z.of_nat (tsz t) < UINT32_MOD -> natural_def t o (prodZ dims) ->
  exists p1 l1 s1 p2 l2 s2 s3,
    natural_operand dims (code_of t) E s = Done (p1, l1) s1 /\
    natural_operand dims (code_of t) E s1 = Done (p2, l2) s2 /\
    auto_case (aitisa_binary_op o) (itself (aitisa_binary_op o))
      (Opd dims (code_of t) 0 p1 l1) (Opd dims (code_of t) 0 p2 l2) None t (same_as t) E s2 = Done true s3.
Proof. exact nat_pass. Qed.
Print Assumptions C65_natural_exact.
(** and otherwise the harness itself is undefined, whoever the user is and whatever device is demanded. *)
Theorem C65_natural_always_refuted : forall E s o t dims, wf s -> alloc_all E -> fits (tsz t) dims ->
  prodZ dims * Z.of_nat (tsz t) < UINT32_MOD -> ~ natural_def t o (prodZ dims) ->
  exists p1 l1 s1 p2 l2 s2,
    natural_operand dims (code_of t) E s = Done (p1, l1) s1 /\
    natural_operand dims (code_of t) E s1 = Done (p2, l2) s2 /\
    forall X (U : user X) dev1 dev2 dev t' same,
    auto_case (aitisa_binary_op o) U (Opd dims (code_of t) dev1 p1 l1) (Opd dims (code_of t) dev2 p2 l2) dev t' same E s2 = UB UB_overflow.
Proof. exact nat_stuck. Qed.
Print Assumptions C65_natural_always_refuted.

(** 300 uint8 can be added, subtracted and multiplied but not divided; 250 by 200 uint16 cannot be multiplied. *)
Example C65_natural_exact_ex : wf s_empty /\ alloc_all E0 /\
  fits (tsz U8) [3; 100] /\ prodZ [3; 100] * Z.of_nat (tsz U8) < UINT32_MOD /\
  natural_def U8 OpMul (prodZ [3; 100]) /\ ~ natural_def U8 OpDiv (prodZ [3; 100]) /\
  fits (tsz U16) [250; 200] /\ prodZ [250; 200] * Z.of_nat (tsz U16) < UINT32_MOD /\
  natural_def U16 OpDiv (prodZ [250; 200]) /\ ~ natural_def U16 OpMul (prodZ [250; 200]).
Proof.
  split_and!; try exact s_empty_wf; try lit_fits; try reflexivity; try done.
  - intros [_ H]. specialize (H eq_refl). vm_compute in H. done.
  - intros [_ H]. specialize (H (or_intror eq_refl)). vm_compute in H. done.
Qed.
