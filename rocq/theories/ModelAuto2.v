(** * ModelAuto2: samples with one operand (/repo/auto_test/test_code/activation_test.h)

    Simplifications as in ModelAuto. The googletest library is not part of the
    repository; [float_eq] is its documented ASSERT_FLOAT_EQ. *)
From stdpp Require Import gmap list.
From Coq Require Import ZArith Floats.SpecFloat.
From Verif Require Import Base Mem ModelCore ModelAuto.
Open Scope Z_scope.

(** The user's functions, basic.h:28-52 and activation_test.h:150-167 *)
Record user1 (X : Type) := User1 {
  u1_create : Z -> Z -> list Z -> Z -> hval -> Z -> M X;
  u1_op : X -> M X;
  u1_resolve : X -> M outcome }.
Arguments User1 {X} _ _ _. Arguments u1_create {X} _ _ _ _ _ _ _. Arguments u1_op {X} _ _. Arguments u1_resolve {X} _ _.
(** The library as its own user *)
Definition itself1 (op : hval -> hval -> M (status * hval)) : user1 hval :=
  User1 (fun dt dev dims ndim data len =>
           let* d := int_to_dtype dt in
           let* v := int_to_device dev in
           let* (_, x) := aitisa_create d v dims ndim data len HUndef in ret x)
        (fun x => let* (_, z) := op x HUndef in ret z)
        (fun x => let* (_, r) := aitisa_resolve x in ret (outcome_of r)).

(** The library's part of a sample, activation_test.h:76-91, the user's,
    activation_test.h:93-109, and the comparison, activation_test.h:111-141: the result
    must be on device 1. *)
Definition library_run1 (op : hval -> hval -> M (status * hval)) (x : operand) : M outcome :=
  let* d := int_to_dtype (x_dtype x) in
  let* v := int_to_device 0 in
  let* (_, a) := aitisa_create d v (x_dims x) (Z.of_nat (length (x_dims x))) (x_data x) (x_len x) HUndef in
  let* (_, ar) := op a HUndef in
  let* (_, r) := aitisa_resolve ar in
  ret (outcome_of r).
Definition user_run1 {X} (U : user1 X) (x : operand) : M outcome :=
  let* u := u1_create U (x_dtype x) (x_device x) (x_dims x) (Z.of_nat (length (x_dims x))) (x_data x) (x_len x) in
  let* ur := u1_op U u in
  u1_resolve U ur.
Definition auto_case1 {X} (op : hval -> hval -> M (status * hval)) (U : user1 X)
    (x : operand) (t : tcode) (same : val -> val -> bool) : M bool :=
  let* ra := library_run1 op x in
  let* ru := user_run1 U x in
  compare 1 t same ra ru.

(** The bits of a float: sign and magnitude *)
Definition float_bits (x : spec_float) : Z :=
  let sign (s : bool) := if s then 2 ^ 31 else 0 in
  match x with
  | S754_zero s => sign s
  | S754_infinity s => sign s + 255 * 2 ^ 23
  | S754_nan => 255 * 2 ^ 23 + 2 ^ 22
  | S754_finite s m e =>
      if Z.pos m <? 2 ^ 23 then sign s + Z.pos m
      else sign s + (e + 150) * 2 ^ 23 + (Z.pos m - 2 ^ 23)
  end.
(** googletest's SignAndMagnitudeToBiased and AlmostEquals on float *)
Definition biased (b : Z) : Z := if 2 ^ 31 <=? b then 2 ^ 32 - b else 2 ^ 31 + b.
Definition almost_equals (x y : spec_float) : bool :=
  match x, y with
  | S754_nan, _ | _, S754_nan => false
  | _, _ => let a := biased (float_bits x) in let b := biased (float_bits y) in
            (if b <=? a then a - b else b - a) <=? 4
  end.
(** ASSERT_FLOAT_EQ on elements of type [t], activation_test.h:128 and 136: doubles are
    converted to float first. *)
Definition float_eq (t : tcode) (x y : val) : bool :=
  match x, y with
  | VF a, VF b => almost_equals (flt_conv F32 a) (flt_conv F32 b)
  | _, _ => false
  end.
