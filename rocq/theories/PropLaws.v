(** * PropLaws: algebraic laws (C51) *)
From stdpp Require Import gmap list.
From Coq Require Import ZArith Lia Floats.SpecFloat.
From Verif Require Import Base Mem Spec SpecReal SpecNN ModelCore ModelBasic ModelMath ModelNN.
From Flocq Require Import BinarySingleNaN.
From Verif Require Import Fixture ProofLaws ProofNN ProofDot.
Open Scope Z_scope.

(** C51.  A law about a call on the result [T1] of another is stated for every
    state that holds [T1], so in particular for the one the first call leaves. *)

(** Addition and multiplication commute: same type, extents and elements; the
    result is on the device of the left operand. *)
Theorem C51_commute : forall op p1 p2 T1 T2 o1 o2 E s, op = OpAdd \/ op = OpMul ->
  wf s -> alloc_all E -> holds (heap s) p1 T1 -> holds (heap s) p2 T2 ->
  a_type T2 = a_type T1 -> a_dims T2 = a_dims T1 -> dev_type (a_dev T1) = 0 -> dev_type (a_dev T2) = 0 ->
  prodZ (a_dims T1) <= INT_MAX -> init T1 -> init T2 -> Forall2 (op_defined (a_type T1) op) (a_vals T1) (a_vals T2) ->
  exists ws, makes (aitisa_binary_op op (HPtr p1) (HPtr p2) o1) E s (AT (a_type T1) (a_dev T1) (a_dims T1) ws) /\
             makes (aitisa_binary_op op (HPtr p2) (HPtr p1) o2) E s (AT (a_type T1) (a_dev T2) (a_dims T1) ws).
Proof. exact commute. Qed.
Print Assumptions C51_commute.

(** x - x is zero, for integers and for finite floats; x / x is one. *)
Theorem C51_sub_self : forall p T o E s, wf s -> alloc_all E -> holds (heap s) p T -> dev_type (a_dev T) = 0 ->
  prodZ (a_dims T) <= INT_MAX -> init T -> is_float (a_type T) = false ->
  makes (aitisa_sub (HPtr p) (HPtr p) o) E s (AT (a_type T) (a_dev T) (a_dims T) (replicate (length (a_vals T)) (VI 0))).
Proof. exact sub_self_int. Qed.
Print Assumptions C51_sub_self.
Theorem C51_sub_self_float : forall p T o E s, wf s -> alloc_all E -> holds (heap s) p T -> dev_type (a_dev T) = 0 ->
  prodZ (a_dims T) <= INT_MAX -> init T -> Forall (fun v => exists f, v = VF f /\ is_finite_SF f = true) (a_vals T) ->
  makes (aitisa_sub (HPtr p) (HPtr p) o) E s
    (AT (a_type T) (a_dev T) (a_dims T) (replicate (length (a_vals T)) (VF (S754_zero false)))).
Proof. exact sub_self_float. Qed.
Print Assumptions C51_sub_self_float.
Theorem C51_div_self : forall p T o E s, wf s -> alloc_all E -> holds (heap s) p T -> dev_type (a_dev T) = 0 ->
  prodZ (a_dims T) <= INT_MAX -> init T -> is_float (a_type T) = false -> VI 0 ∉ a_vals T ->
  makes (aitisa_div (HPtr p) (HPtr p) o) E s (AT (a_type T) (a_dev T) (a_dims T) (replicate (length (a_vals T)) (VI 1))).
Proof. exact div_self. Qed.
Print Assumptions C51_div_self.
(** (x + y) - y is x for integers, even when the sum wraps around. *)
Theorem C51_add_sub : forall p1 p2 T1 T2 o E s,
  wf s -> alloc_all E -> holds (heap s) p1 T1 -> holds (heap s) p2 T2 ->
  a_type T2 = a_type T1 -> a_dims T2 = a_dims T1 -> dev_type (a_dev T1) = 0 -> dev_type (a_dev T2) = 0 ->
  prodZ (a_dims T1) <= INT_MAX -> init T1 -> init T2 -> is_float (a_type T1) = false ->
  Forall2 (op_defined (a_type T1) OpAdd) (a_vals T1) (a_vals T2) ->
  exists T3, makes (aitisa_add (HPtr p1) (HPtr p2) o) E s T3 /\
    forall p3 p2' o' E' s', wf s' -> alloc_all E' -> holds (heap s') p3 T3 -> holds (heap s') p2' T2 ->
      makes (aitisa_sub (HPtr p3) (HPtr p2') o') E' s' T1.
Proof. exact add_sub. Qed.
Print Assumptions C51_add_sub.

(** Casting through an integer type at least as wide as the target changes nothing. *)
Theorem C51_cast_cast : forall p T t2 t3 o E s, wf s -> alloc_all E -> holds (heap s) p T -> init T ->
  is_float (a_type T) = false -> is_float t2 = false -> is_float t3 = false -> bits t3 <= bits t2 ->
  t2 <> a_type T -> t3 <> t2 -> fits (tsz t2) (a_dims T) ->
  exists T2 ws, makes (aitisa_cast (HPtr p) (dtype_of t2) o) E s T2 /\
    (forall p' o' E' s', wf s' -> alloc_all E' -> holds (heap s') p' T2 ->
       makes (aitisa_cast (HPtr p') (dtype_of t3) o') E' s' (AT t3 (a_dev T) (a_dims T) ws)) /\
    (t3 <> a_type T -> forall p' o' E' s', wf s' -> alloc_all E' -> holds (heap s') p' T ->
       makes (aitisa_cast (HPtr p') (dtype_of t3) o') E' s' (AT t3 (a_dev T) (a_dims T) ws)) /\
    (t3 = a_type T -> ws = a_vals T).
Proof. exact cast_cast. Qed.
Print Assumptions C51_cast_cast.
(** Only the last of two reshapes counts; reshaping to the own extents is the identity. *)
Theorem C51_reshape_reshape : forall p T d1 d2 o E s, wf s -> alloc_all E -> holds (heap s) p T ->
  fits (tsz (a_type T)) d1 -> fits (tsz (a_type T)) d2 -> prodZ d1 = prodZ (a_dims T) -> prodZ d2 = prodZ (a_dims T) ->
  exists T1 T2, makes (aitisa_reshape (HPtr p) d1 (Z.of_nat (length d1)) o) E s T1 /\
    makes (aitisa_reshape (HPtr p) d2 (Z.of_nat (length d2)) o) E s T2 /\ (d2 = a_dims T -> T2 = T) /\
    forall p' o' E' s', wf s' -> alloc_all E' -> holds (heap s') p' T1 ->
      makes (aitisa_reshape (HPtr p') d2 (Z.of_nat (length d2)) o') E' s' T2.
Proof. exact reshape_reshape. Qed.
Print Assumptions C51_reshape_reshape.
(** Casting and reshaping commute. *)
Theorem C51_cast_reshape : forall p T t2 d o E s ws, wf s -> alloc_all E -> holds (heap s) p T -> t2 <> a_type T ->
  fits (tsz (a_type T)) d -> fits (tsz t2) d -> fits (tsz t2) (a_dims T) -> prodZ d = prodZ (a_dims T) ->
  Forall2 (fun v w => cast_val (a_type T) t2 v = Some w) (a_vals T) ws ->
  exists T1 T2 T3, makes (aitisa_cast (HPtr p) (dtype_of t2) o) E s T1 /\
    makes (aitisa_reshape (HPtr p) d (Z.of_nat (length d)) o) E s T2 /\
    (forall p' o' E' s', wf s' -> alloc_all E' -> holds (heap s') p' T1 ->
       makes (aitisa_reshape (HPtr p') d (Z.of_nat (length d)) o') E' s' T3) /\
    (forall p' o' E' s', wf s' -> alloc_all E' -> holds (heap s') p' T2 ->
       makes (aitisa_cast (HPtr p') (dtype_of t2) o') E' s' T3).
Proof. exact cast_reshape. Qed.
Print Assumptions C51_cast_reshape.
(** Squeezing is reshaping to the extents other than 1. *)
Theorem C51_squeeze_reshape : forall p T o o' E s,
  wf s -> alloc_all E -> hooks_ok E -> holds (heap s) p T -> Forall (fun d => d <> 0) (a_dims T) ->
  let d := filter (fun d => d <> 1) (a_dims T) in
  exists T2, makes (aitisa_squeeze (HPtr p) [] 0 o) E s T2 /\ makes (aitisa_reshape (HPtr p) d (Z.of_nat (length d)) o') E s T2.
Proof. exact squeeze_reshape. Qed.
Print Assumptions C51_squeeze_reshape.

(** Slicing out the whole box is duplicating: both return the tensor itself. *)
Theorem C51_slice_full : forall p T o o' E s, wf s -> alloc_all E -> hooks_ok E -> holds (heap s) p T -> a_dims T <> [] ->
  Forall (fun d => 0 < d <= INT_MAX) (a_dims T) -> prodZ (a_dims T) <= INT_MAX ->
  let n := length (a_dims T) in
  makes (aitisa_slice (HPtr p) (replicate n 0) (a_dims T) (replicate n 1) o) E s T /\
  makes (aitisa_duplicate (HPtr p) o') E s T.
Proof. exact slice_full. Qed.
Print Assumptions C51_slice_full.
(** A slice of a slice is a slice, of every [t1 * t2]-th element. *)
Theorem C51_slice_slice : forall p T b1 s1 t1 b2 s2 t2 o o' E s,
  wf s -> alloc_all E -> hooks_ok E -> holds (heap s) p T -> a_dims T <> [] ->
  slice_ok (a_dims T) b1 s1 t1 -> Forall (fun s => 0 < s) s1 -> prodZ (slice_dims s1 t1) <= INT_MAX ->
  slice_ok (slice_dims s1 t1) b2 s2 t2 -> Forall (fun s => 0 < s) s2 -> prodZ (slice_dims s2 t2) <= INT_MAX ->
  Forall (fun t => t <= INT_MAX) (zip_with Z.mul t1 t2) ->
  exists T1 T2, makes (aitisa_slice (HPtr p) b1 s1 t1 o) E s T1 /\
    makes (aitisa_slice (HPtr p) (comp_begin b1 t1 b2) (zip_with (fun t s => t * (s - 1) + 1) t1 s2) (zip_with Z.mul t1 t2) o') E s T2 /\
    forall p' o' E' s', wf s' -> alloc_all E' -> hooks_ok E' -> holds (heap s') p' T1 ->
      makes (aitisa_slice (HPtr p') b2 s2 t2 o') E' s' T2.
Proof. exact slice_slice. Qed.
Print Assumptions C51_slice_slice.

(** Relu is idempotent; dot and matmul agree on matrices. *)
Theorem C51_relu_relu : forall p T o E s, wf s -> holds (heap s) p T -> init T ->
  exists T', makes_or_nomem (aitisa_relu (HPtr p) o) E s o T' /\
    (forall p' o' E' s', wf s' -> holds (heap s') p' T' ->
       makes_or_nomem (aitisa_relu (HPtr p') o') E' s' o' T').
Proof. exact relu_twice. Qed.
Print Assumptions C51_relu_relu.
Theorem C51_dot_matmul : forall p1 p2 T1 T2 o E s,
  holds (heap s) p1 T1 -> holds (heap s) p2 T2 ->
  a_type T2 = a_type T1 -> dev_type (a_dev T1) = 0 -> dev_type (a_dev T2) = 0 ->
  length (a_dims T1) = 2%nat -> length (a_dims T2) = 2%nat ->
  aitisa_dot (HPtr p1) (HPtr p2) o E s = aitisa_matmul (HPtr p1) (HPtr p2) o E s.
Proof. exact dot_mm. Qed.
Print Assumptions C51_dot_matmul.

Definition l_s : st := fx [T_i32; T_i32'; T_f32].
Lemma l_1 : holds (heap l_s) 0 T_i32.
Proof. exact (fx_holds [T_i32; T_i32'; T_f32] 0 T_i32 eq_refl T_i32_valid). Qed.
Lemma l_2 : holds (heap l_s) 5 T_i32'.
Proof. exact (fx_holds [T_i32; T_i32'; T_f32] 1 T_i32' eq_refl T_i32'_valid). Qed.
Lemma l_3 : holds (heap l_s) 10 T_f32.
Proof. exact (fx_holds [T_i32; T_i32'; T_f32] 2 T_f32 eq_refl T_f32_valid). Qed.
Example C51_ex_arith : wf l_s /\ init T_i32 /\ init T_i32' /\ init T_f32 /\
  Forall2 (op_defined I32 OpAdd) (a_vals T_i32) (a_vals T_i32') /\
  Forall2 (op_defined I32 OpMul) (a_vals T_i32) (a_vals T_i32') /\
  VI 0 ∉ a_vals T_i32' /\ Forall (fun v => exists f, v = VF f /\ is_finite_SF f = true) (a_vals T_f32).
Proof.
  split_and!; [apply fx_wf|..].
  all: try (repeat constructor; vm_compute; done).
  - cbn. rewrite !elem_of_cons, elem_of_nil. intros H. decompose [or] H; congruence.
  - repeat constructor; eexists; (split; [reflexivity|vm_compute; reflexivity]).
Qed.
Example C51_ex_shape : fits (tsz I32) [3; 2] /\ prodZ [3; 2] = prodZ (a_dims T_i32) /\ bits I16 <= bits I64 /\
  Forall (fun d => 0 < d <= INT_MAX) (a_dims T_i32) /\
  slice_ok (a_dims T_i32) [0; 0] [2; 3] [1; 2] /\ slice_dims [2; 3] [1; 2] = [2; 2] /\
  slice_ok [2; 2] [1; 0] [1; 2] [1; 1] /\ comp_begin [0; 0] [1; 2] [1; 0] = [1; 0].
Proof. split_and!; try done; [lit_fits|repeat constructor; done|..]; cbn; lia. Qed.
