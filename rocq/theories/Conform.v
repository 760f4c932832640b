(** * Conform: the project's own unit tests, replayed in the model

    The scripts below follow /repo/test/*_test.cpp line by line: they create the
    tensors, assign their elements, call the operation, compare the result with
    the figures printed in the test, and destroy everything.  They say nothing
    for all inputs; they check that the model computes what the authors observed
    of the C code. *)
From stdpp Require Import gmap list.
From Coq Require Import ZArith Floats.SpecFloat.
From Verif Require Import Base Mem Spec SpecHeap ModelCore ModelBasic ModelMath ModelNN Fixture.
Open Scope Z_scope.

(** The decimal literal n * 10^-k as a double. *)
Definition dec (n : Z) (k : nat) : spec_float := ddiv (dbl_of_Z n) (dbl_of_Z (10 ^ Z.of_nat k)).

(** A libm: exp in fixed point with 120 fractional bits, by Taylor's series at
    x / 1024 followed by ten squarings. *)
Definition fixed (f : spec_float) : Z :=
  match f with
  | S754_finite s m e => let z := Z.shiftl (Z.pos m) (e + 120) in if s then - z else z
  | _ => 0
  end.
Definition exp_fixed (x : Z) : Z :=
  let r := Z.shiftr x 10 in
  let t := fold_left (fun '(term, sum) k => let term := Z.shiftr (term * r) 120 / k in (term, sum + term))
             (seqZ 1 25) (2 ^ 120, 2 ^ 120) in
  Nat.iter 10 (fun y => Z.shiftr (y * y) 120) t.2.
Definition exp_dbl (f : spec_float) : spec_float := binary_normalize 53 1024 (exp_fixed (fixed f)) (-120) false.

(** The machine the tests run on: memory for everything, malloc and free
    installed, rand() equidistributed over [0, 2^31). *)
Definition Etest : env :=
  Env (fun _ _ _ => true) 0 0 (fun k => (Z.of_nat k * 1103515245 + 12345) mod 2147483648) exp_dbl
      (fun _ => SUCCESS) (Z.to_nat 10000).

(** EXPECT_TRUE and friends *)
Definition expect (b : bool) : M unit := assert_ b.
(** A call that must answer SUCCESS, and one whose status is ignored. *)
Definition run (x : oper) : M hval :=
  let* (s, o) := run_op x HUndef in expect (bool_decide (s = SUCCESS)) ;;; ret o.
Definition run_any (x : oper) : M hval := let* (_, o) := run_op x HUndef in ret o.
Definition new (t : tcode) (dims : list Z) : M hval :=
  run (OCreate (dtype_of t) cpu dims (Z.of_nat (length dims)) HNull 0).
Definition full (t : tcode) (dims : list Z) (v : spec_float) : M hval :=
  run (OFull (dtype_of t) cpu dims (Z.of_nat (length dims)) v).
(** The *_assign_* helpers: data[i] = f(i), the right-hand side being a double. *)
Definition assign (x : hval) (t : tcode) (f : spec_float -> spec_float) : M unit :=
  let* n := tensor_size x in
  let* p := tensor_data x in
  for64 0 n (fun i _ => storei p t i (VF (flt_conv t (f (dbl_of_Z i))))) tt.
Definition iassign (x : hval) (f : Z -> Z) : M unit :=
  let* n := tensor_size x in
  let* p := tensor_data x in
  for64 0 n (fun i _ => storei p I32 i (VI (f i))) tt.
Definition free_all (l : list hval) : M unit :=
  foldr (fun x k => (let* (s, _) := aitisa_destroy x in expect (bool_decide (s = SUCCESS))) ;;; k) (ret tt) l.

Definition dims_are (x : hval) (dims : list Z) : M unit :=
  let* nd := tensor_ndim x in
  expect (nd =? Z.of_nat (length dims)) ;;;
  let* d := tensor_dims x in expect (bool_decide (d = dims)).
Definition type_is (x : hval) (t : tcode) : M unit :=
  let* dt := tensor_dtype x in expect (d_code dt =? code_of t).
(** Compares all elements; stricter than the tests in that the number of
    elements must be that of the list as well. *)
Definition all_are {A} (t : tcode) (ok : A -> val -> bool) (x : hval) (l : list A) : M unit :=
  let* n := tensor_size x in
  expect (n =? Z.of_nat (length l)) ;;;
  let* p := tensor_data x in
  for64 0 n (fun i _ =>
    let* v := loadi p t i in
    let* a := aget l i in expect (ok a v)) tt.
Definition ints_are (t : tcode) : hval -> list Z -> M unit :=
  all_are t (fun a v => match v with VI z => z =? a | _ => false end).
(** EXPECT_EQ on floating values *)
Definition same (t : tcode) : hval -> list spec_float -> M unit :=
  all_are t (fun a v => match v with VF f => SFeqb f (flt_conv t a) | _ => false end).
(** abs(x - y) < eps *)
Definition near (t : tcode) (eps : spec_float) : hval -> list spec_float -> M unit :=
  all_are t (fun a v => match v with
    | VF f => SFltb (flt_conv F64 (SFabs (flt_op t OpSub f (flt_conv t a)))) eps
    | _ => false end).
(** EXPECT_FLOAT_EQ: at most four floats apart. *)
Definition ordinal (f : spec_float) : option Z :=
  match f with
  | S754_zero _ => Some 0
  | S754_finite s m e => let z := (e + 149) * 8388608 + Z.pos m in Some (if s then - z else z)
  | _ => None
  end.
Definition float_eq (t : tcode) : hval -> list spec_float -> M unit :=
  all_are t (fun a v => match v with
    | VF f => match ordinal f, ordinal (flt_conv t a) with
              | Some x, Some y => Z.abs (x - y) <=? 4
              | _, _ => false end
    | _ => false end).

(** ** The tests *)


(** test/binary_test.cpp:35-65 *)
Definition Binary_add : M unit :=
  let* a := new F32 [4] in
  let* b := new F32 [4] in
  assign a F32 (fun i => dmul i (dec 1 1)) ;;;
  assign b F32 (fun i => dmul i (dec 1 1)) ;;;
  let* o := run (OBinary OpAdd a b) in
  dims_are o [4] ;;;
  float_eq F32 o [dec 0 0; dec 2 1; dec 4 1; dec 6 1] ;;;
  free_all [a; b; o].

(** test/binary_test.cpp:67-97 *)
Definition Binary_sub : M unit :=
  let* a := new F32 [4] in
  let* b := new F32 [4] in
  assign a F32 (fun i => dmul i (dec 2 1)) ;;;
  assign b F32 (fun i => dmul i (dec 1 1)) ;;;
  let* o := run (OBinary OpSub a b) in
  dims_are o [4] ;;;
  float_eq F32 o [dec 0 0; dec 1 1; dec 2 1; dec 3 1] ;;;
  free_all [a; b; o].

(** test/binary_test.cpp:99-129 *)
Definition Binary_mul : M unit :=
  let* a := new F32 [4] in
  let* b := new F32 [4] in
  assign a F32 (fun i => dmul i (dec 1 1)) ;;;
  assign b F32 (fun i => dmul i (dec 1 1)) ;;;
  let* o := run (OBinary OpMul a b) in
  dims_are o [4] ;;;
  float_eq F32 o [dec 0 0; dec 1 2; dec 4 2; dec 9 2] ;;;
  free_all [a; b; o].

(** test/matmul_test.cpp:23-54 *)
Definition Matmul_vector_vector : M unit :=
  let* a := new F32 [4] in
  let* b := new F32 [4] in
  assign a F32 (fun i => dmul i (dec 1 1)) ;;;
  assign b F32 (fun i => dmul i (dec 1 1)) ;;;
  let* o := run (OMatmul a b) in
  dims_are o [1] ;;;
  float_eq F32 o [dec 14 2] ;;;
  free_all [a; b; o].

(** test/matmul_test.cpp:56-88 *)
Definition Matmul_matrix_vector : M unit :=
  let* a := full F32 [5; 4] (dec 14 1) in
  let* b := full F32 [4] (dec 2 0) in
  assign a F32 (fun i => dmul i (dec 1 1)) ;;;
  assign b F32 (fun i => dmul i (dec 1 1)) ;;;
  let* o := run (OMatmul a b) in
  dims_are o [5] ;;;
  float_eq F32 o [dec 14 2; dec 38 2; dec 62 2; dec 86 2; dec 11 1] ;;;
  free_all [a; b; o].

(** test/matmul_test.cpp:90-123 *)
Definition Matmul_matrix_matrix : M unit :=
  let* a := full F32 [5; 4] (dec 21 1) in
  let* b := full F32 [4; 3] (dec 2 0) in
  assign a F32 (fun i => dmul i (dec 1 1)) ;;;
  assign b F32 (fun i => dmul i (dec 1 1)) ;;;
  let* o := run (OMatmul a b) in
  dims_are o [5; 3] ;;;
  float_eq F32 o [dec 42 2; dec 48 2; dec 54 2; dec 114 2; dec 136 2; dec 158 2; dec 186 2; dec 224 2; dec 262 2; dec 258 2; dec 312 2; dec 366 2; dec 33 1; dec 4 0; dec 47 1] ;;;
  free_all [a; b; o].

(** test/matmul_test.cpp:125-157 *)
Definition Matmul_vector_matrix : M unit :=
  let* a := full F32 [5] (dec 14 1) in
  let* b := full F32 [5; 4] (dec 2 0) in
  assign a F32 (fun i => dmul i (dec 1 1)) ;;;
  assign b F32 (fun i => dmul i (dec 1 1)) ;;;
  let* o := run (OMatmul a b) in
  dims_are o [4] ;;;
  float_eq F32 o [dec 12 1; dec 13 1; dec 14 1; dec 15 1] ;;;
  free_all [a; b; o].

(** test/matmul_test.cpp:159-193 *)
Definition Matmul_cube_vector : M unit :=
  let* a := full F32 [5; 4; 3] (dec 14 1) in
  let* b := full F32 [3] (dec 2 0) in
  assign a F32 (fun i => dmul i (dec 1 1)) ;;;
  assign b F32 (fun i => dmul i (dec 1 1)) ;;;
  let* o := run (OMatmul a b) in
  dims_are o [5; 4] ;;;
  float_eq F32 o [dec 5 2; dec 14 2; dec 23 2; dec 32 2; dec 41 2; dec 5 1; dec 59 2; dec 68 2; dec 77 2; dec 86 2; dec 95 2; dec 104 2; dec 113 2; dec 122 2; dec 131 2; dec 14 1; dec 149 2; dec 158 2; dec 167 2; dec 176 2] ;;;
  free_all [a; b; o].

(** test/matmul_test.cpp:195-229 *)
Definition Matmul_vector_cube : M unit :=
  let* a := full F32 [3] (dec 14 1) in
  let* b := full F32 [5; 3; 4] (dec 2 0) in
  assign a F32 (fun i => dmul i (dec 1 1)) ;;;
  assign b F32 (fun i => dmul i (dec 1 1)) ;;;
  let* o := run (OMatmul a b) in
  dims_are o [5; 4] ;;;
  float_eq F32 o [dec 2 1; dec 23 2; dec 26 2; dec 29 2; dec 56 2; dec 59 2; dec 62 2; dec 65 2; dec 92 2; dec 95 2; dec 98 2; dec 101 2; dec 128 2; dec 131 2; dec 134 2; dec 137 2; dec 164 2; dec 167 2; dec 17 1; dec 173 2] ;;;
  free_all [a; b; o].

(** test/matmul_test.cpp:231-265 *)
Definition Matmul_tensor_tensor : M unit :=
  let* a := full F32 [2; 1; 3; 4] (dec 14 1) in
  let* b := full F32 [2; 4; 2] (dec 2 0) in
  assign a F32 (fun i => dmul i (dec 1 1)) ;;;
  assign b F32 (fun i => dmul i (dec 1 1)) ;;;
  let* o := run (OMatmul a b) in
  dims_are o [2; 2; 3; 2] ;;;
  float_eq F32 o [dec 28 2; dec 34 2; dec 76 2; dec 98 2; dec 124 2; dec 162 2; dec 76 2; dec 82 2; dec 252 2; dec 274 2; dec 428 2; dec 466 2; dec 172 2; dec 226 2; dec 22 1; dec 29 1; dec 268 2; dec 354 2; dec 604 2; dec 658 2; dec 78 1; dec 85 1; dec 956 2; dec 1042 2] ;;;
  free_all [a; b; o].

(** test/dot_test.cpp:24-54 *)
Definition Dot_Dim2DotDim2 : M unit :=
  let* a := new F32 [3; 3] in
  let* b := new F32 [3; 3] in
  assign a F32 (fun i => dmul i (dec 1 1)) ;;;
  assign b F32 (fun i => dmul i (dec 1 1)) ;;;
  let* o := run (ODot a b) in
  near F32 (dec 1 5) o [dec 15 2; dec 18 2; dec 21 2; dec 42 2; dec 54 2; dec 66 2; dec 69 2; dec 9 1; dec 111 2] ;;;
  free_all [a; b; o].

(** test/dot_test.cpp:56-86 *)
Definition Dot_Dim2DotDim0 : M unit :=
  let* a := new F32 [3; 3] in
  let* b := full F32 [] (dec 2 0) in
  assign a F32 (fun i => dmul i (dec 1 1)) ;;;
  let* o := run (ODot a b) in
  near F32 (dec 1 5) o [dec 0 0; dec 2 1; dec 4 1; dec 6 1; dec 8 1; dec 1 0; dec 12 1; dec 14 1; dec 16 1] ;;;
  free_all [a; b; o].

(** test/dot_test.cpp:88-118 *)
Definition Dot_Dim1DotDim1 : M unit :=
  let* a := new F32 [5] in
  let* b := new F32 [5] in
  assign a F32 (fun i => dmul i (dec 1 1)) ;;;
  assign b F32 (fun i => dmul i (dec 1 1)) ;;;
  let* o := run (ODot a b) in
  near F32 (dec 1 5) o [dec 3 1] ;;;
  free_all [a; b; o].

(** test/dot_test.cpp:120-154 *)
Definition Dot_Dim3DotDim1 : M unit :=
  let* a := new F32 [2; 5; 6] in
  let* b := new F32 [6] in
  assign a F32 (fun i => dmul i (dec 1 1)) ;;;
  assign b F32 (fun i => dmul i (dec 1 1)) ;;;
  let* o := run (ODot a b) in
  near F32 (dec 1 5) o [dec 55 2; dec 145 2; dec 235 2; dec 325 2; dec 415 2; dec 505 2; dec 595 2; dec 685 2; dec 775 2; dec 865 2] ;;;
  free_all [a; b; o].

(** test/dot_test.cpp:156-191 *)
Definition Dot_Dim4DotDim3 : M unit :=
  let* a := new F32 [2; 3; 2; 3] in
  let* b := new F32 [2; 3; 2] in
  assign a F32 (fun i => dmul i (dec 1 1)) ;;;
  assign b F32 (fun i => dmul i (dec 1 1)) ;;;
  let* o := run (ODot a b) in
  near F32 (dec 1 5) o [dec 1 1; dec 13 2; dec 28 2; dec 31 2; dec 28 2; dec 4 1; dec 1 0; dec 112 2; dec 46 2; dec 67 2; dec 172 2; dec 193 2; dec 64 2; dec 94 2; dec 244 2; dec 274 2; dec 82 2; dec 121 2; dec 316 2; dec 355 2; dec 1 0; dec 148 2; dec 388 2; dec 436 2; dec 118 2; dec 175 2; dec 46 1; dec 517 2; dec 136 2; dec 202 2; dec 532 2; dec 598 2; dec 154 2; dec 229 2; dec 604 2; dec 679 2; dec 172 2; dec 256 2; dec 676 2; dec 76 1; dec 19 1; dec 283 2; dec 748 2; dec 841 2; dec 208 2; dec 31 1; dec 82 1; dec 922 2] ;;;
  free_all [a; b; o].

(** test/batch_norm_test.cpp:21-76 *)
Definition BatchNorm_Input5dAxis4 : M unit :=
  let* x := new F64 [2; 1; 2; 1; 2] in
  let* mean := new F64 [2] in
  let* variance := new F64 [2] in
  let* scale := new F64 [2] in
  let* bias := new F64 [2] in
  assign x F64 (fun i => dadd (dmul i (dec 1 1)) (dec 0 0)) ;;;
  assign mean F64 (fun i => dadd (dmul i (dec 1 1)) (dec 5 1)) ;;;
  assign variance F64 (fun i => dadd (dmul i (dec 1 1)) (dec 11 1)) ;;;
  assign scale F64 (fun i => dadd (dmul i (dec 1 1)) (dec 1 0)) ;;;
  assign bias F64 (fun i => dadd (dmul i (dec 1 1)) (dec 0 0)) ;;;
  let* o := run (OBatchNorm x 4 scale bias mean variance (dec 1 5)) in
  near F64 (dec 1 6) o [dec (-476729) 6; dec (-402077) 6; dec (-286037) 6; dec (-201246) 6; dec (-95346) 6; dec (-415) 6; dec 95346 6; dec 200415 6] ;;;
  free_all [x; mean; variance; scale; bias; o].

(** test/batch_norm_test.cpp:78-137 *)
Definition BatchNorm_Input4dAxis1 : M unit :=
  let* x := new F64 [2; 3; 2; 2] in
  let* mean := new F64 [3] in
  let* variance := new F64 [3] in
  let* scale := new F64 [3] in
  let* bias := new F64 [3] in
  assign x F64 (fun i => dadd (dmul i (dec 1 1)) (dec 0 0)) ;;;
  assign mean F64 (fun i => dadd (dmul i (dec 1 1)) (dec 5 1)) ;;;
  assign variance F64 (fun i => dadd (dmul i (dec 1 1)) (dec 11 1)) ;;;
  assign scale F64 (fun i => dadd (dmul i (dec 1 1)) (dec 1 0)) ;;;
  assign bias F64 (fun i => dadd (dmul i (dec 1 1)) (dec 0 0)) ;;;
  let* o := run (OBatchNorm x 1 scale bias mean variance (dec 1 5)) in
  near F64 (dec 1 6) o [dec (-476729) 6; dec (-381383) 6; dec (-286037) 6; dec (-190692) 6; dec (-100831) 6; dec (-415) 6; dec 1 1; dec 200415 6; dec 305247 6; dec 410493 6; dec 51574 5; dec 620986 6; dec 667421 6; dec 762767 6; dec 858112 6; dec 953458 6; dec 1104154 6; dec 1204569 6; dec 1304985 6; dec 14054 4; dec 1568205 6; dec 1673452 6; dec 1778698 6; dec 1883945 6] ;;;
  free_all [x; mean; variance; scale; bias; o].

(** test/batch_norm_test.cpp:139-196 *)
Definition BatchNorm_Input2dAxis1 : M unit :=
  let* x := new F64 [3; 4] in
  let* mean := new F64 [4] in
  let* variance := new F64 [4] in
  let* scale := new F64 [4] in
  let* bias := new F64 [4] in
  assign x F64 (fun i => dadd (dmul i (dec 1 1)) (dec 0 0)) ;;;
  assign mean F64 (fun i => dadd (dmul i (dec 1 1)) (dec 5 1)) ;;;
  assign variance F64 (fun i => dadd (dmul i (dec 1 1)) (dec 11 1)) ;;;
  assign scale F64 (fun i => dadd (dmul i (dec 1 1)) (dec 1 0)) ;;;
  assign bias F64 (fun i => dadd (dmul i (dec 1 1)) (dec 0 0)) ;;;
  let* o := run (OBatchNorm x 1 scale bias mean variance (dec 1 5)) in
  near F64 (dec 1 6) o [dec (-476729) 6; dec (-402077) 6; dec (-326233) 6; dec (-249348) 6; dec (-95346) 6; dec (-415) 6; dec 94753 6; dec 19013 5; dec 286037 6; dec 401246 6; dec 51574 5; dec 629609 6] ;;;
  free_all [x; mean; variance; scale; bias; o].

(** test/broadcast_test.cpp:10-21 *)
Definition Broadcast_4D_6D : M unit :=
  let* (s, out) := aitisa_broadcast_array [1; 3; 4; 2] 4 [5; 1; 2; 3; 1; 2] 6
                     (Some <$> [0; 0; 0; 0; 0; 0]) 6 in
  expect (bool_decide (s = SUCCESS)) ;;;
  expect (bool_decide (out = Some <$> [5; 1; 2; 3; 4; 2])).

(** test/cast_test.cpp:32-63 *)
Definition Cast_FloatToInt32 : M unit :=
  let* x := new F32 [3; 2] in
  let* factor := full F32 [3; 2] (dec 7 0) in
  assign x F32 (fun i => dmul i (dec 1 1)) ;;;
  let* temp := run (OBinary OpMul x factor) in
  let* o := run (OCast temp (dtype_of I32)) in
  type_is x F32 ;;;
  type_is o I32 ;;;
  ints_are I32 o [0; 0; 1; 2; 2; 3] ;;;
  free_all [factor; x; temp; o].

(** test/cast_test.cpp:65-99 *)
Definition Cast_Int32ToDouble : M unit :=
  let* x := new I32 [3; 2] in
  let* factor := full I32 [3; 2] (dec 2 0) in
  iassign x (fun i => i) ;;;
  let* temp := run (OBinary OpMul x factor) in
  let* o := run (OCast temp (dtype_of F64)) in
  type_is x I32 ;;;
  type_is o F64 ;;;
  near F64 (dec 1 5) o (dbl_of_Z <$> [0; 2; 4; 6; 8; 10]) ;;;
  free_all [factor; x; temp; o].

(** test/conv_test.cpp:14-62 *)
Definition Conv2D_P0S1D1 : M unit :=
  let* x := full F32 [2; 2; 5; 5] (dec 1 0) in
  let* w := full F32 [3; 2; 3; 3] (dec 1 0) in
  let* o := run_any (OConv2d x w [1; 1] [0; 0] [1; 1] 1) in
  same F32 o (repeat (dbl_of_Z 18) (Z.to_nat 54)) ;;;
  free_all [x; w; o].

(** test/conv_test.cpp:64-95 *)
Definition Conv2D_P2S1D1 : M unit :=
  let* x := full F32 [1; 1; 5; 5] (dec 1 0) in
  let* w := full F32 [1; 1; 2; 2] (dec 1 0) in
  let* o := run_any (OConv2d x w [2; 2] [1; 1] [2; 2] 1) in
  same F32 o (dbl_of_Z <$> [1; 2; 1; 2; 4; 2; 1; 2; 1]) ;;;
  free_all [x; w; o].

(** test/conv_test.cpp:97-156 *)
Definition Conv3D_P0S1D1 : M unit :=
  let* x := full F32 [2; 2; 5; 5; 5] (dec 1 0) in
  let* w := full F32 [3; 2; 3; 3; 3] (dec 1 0) in
  let* o := run_any (OConv3d x w [1; 1; 1] [0; 0; 0] [1; 1; 1] 1) in
  same F32 o (repeat (dbl_of_Z 54) (Z.to_nat 162)) ;;;
  free_all [x; w; o].

(** test/dropout_test.cpp:22-46 *)
Definition Dropout_Rate40percent : M unit :=
  let* x := new F32 [30; 20] in
  assign x F32 (fun i => dadd (dmul i (dec 1 1)) (dec 1 0)) ;;;
  let* o := run (ODropout x (dec 4 1)) in
  let* n := tensor_size o in
  let* p := tensor_data o in
  let* zeros := for64 0 n (fun i k =>
      let* v := loadi p F32 i in
      ret (match v with VF (S754_zero _) => k + 1 | _ => k end)) 0 in
  expect (SFltb (SFabs (dsub (ddiv (dbl_of_Z zeros) (dbl_of_Z n)) (dec 4 1))) (dec 2 1)) ;;;
  free_all [x; o].

(** test/duplicate_test.cpp:20-46 *)
Definition Duplicate_Float : M unit :=
  let* x := new F32 [3; 2] in
  assign x F32 (fun i => dmul i (dec 1 1)) ;;;
  let* o := run (ODuplicate x) in
  dims_are o [3; 2] ;;;
  same F32 o [dec 0 0; dec 1 1; dec 2 1; dec 3 1; dec 4 1; dec 5 1] ;;;
  free_all [x; o].

(** test/pooling_test.cpp:47-79 *)
Definition Pooling1D_MaxFloatK2S2P0D2 : M unit :=
  let* x := new F32 [2; 3; 9] in
  assign x F32 (fun i => dmul i (dec 1 1)) ;;;
  let* o := run (OPooling x PMax [2] [2] [0] [2]) in
  near F32 (dec 1 4) o [dec 2 1; dec 4 1; dec 6 1; dec 8 1; dec 11 1; dec 13 1; dec 15 1; dec 17 1; dec 2 0; dec 22 1; dec 24 1; dec 26 1; dec 29 1; dec 31 1; dec 33 1; dec 35 1; dec 38 1; dec 4 0; dec 42 1; dec 44 1; dec 47 1; dec 49 1; dec 51 1; dec 53 1] ;;;
  free_all [x; o].

(** test/pooling_test.cpp:81-109 *)
Definition Pooling2D_AvgInt32K3S3P0D1 : M unit :=
  let* x := new I32 [1; 2; 9; 9] in
  iassign x (fun i => i) ;;;
  let* o := run (OPooling x PAvg [3; 3] [3; 3] [0; 0] [1; 1]) in
  ints_are I32 o [10; 13; 16; 37; 40; 43; 64; 67; 70; 91; 94; 97; 118; 121; 124; 145; 148; 151] ;;;
  free_all [x; o].

(** test/pooling_test.cpp:111-142 *)
Definition Pooling2D_MaxDoubleK6S6P3D1 : M unit :=
  let* x := new F64 [1; 2; 15; 15] in
  assign x F64 (fun i => dmul i (dec 1 1)) ;;;
  let* o := run (OPooling x PMax [6; 6] [6; 6] [3; 3] [1; 1]) in
  near F64 (dec 1 4) o [dec 32 1; dec 38 1; dec 44 1; dec 122 1; dec 128 1; dec 134 1; dec 212 1; dec 218 1; dec 224 1; dec 257 1; dec 263 1; dec 269 1; dec 347 1; dec 353 1; dec 359 1; dec 437 1; dec 443 1; dec 449 1] ;;;
  free_all [x; o].

(** test/pooling_test.cpp:144-169 *)
Definition Pooling3D_MaxInt32K3S5P0D2 : M unit :=
  let* x := new I32 [1; 2; 5; 10; 9] in
  iassign x (fun i => i) ;;;
  let* o := run (OPooling x PMax [3; 3; 3] [5; 5; 5] [0; 0; 1] [2; 2; 2]) in
  ints_are I32 o [399; 404; 444; 449; 849; 854; 894; 899] ;;;
  free_all [x; o].

(** test/relu_test.cpp:20-43 *)
Definition Relu_Float : M unit :=
  let* x := new F32 [2; 3] in
  assign x F32 (fun i => dsub (dmul i (dec 1 1)) (dec 3 1)) ;;;
  let* o := run (ORelu x) in
  near F32 (dec 1 6) o [dec 0 0; dec 0 0; dec 0 0; dec 0 0; dec 1 1; dec 2 1] ;;;
  free_all [x; o].

(** test/reshape_test.cpp:19-41 *)
Definition Reshape_Int32 : M unit :=
  let* x := new I32 [2; 1; 5; 10] in
  iassign x (fun i => i * 4) ;;;
  let* o := run (OReshape x [2; 5; 10] 3) in
  dims_are o [2; 5; 10] ;;;
  ints_are I32 o ((fun i => i * 4) <$> seqZ 0 100) ;;;
  free_all [x; o].

(** test/sigmoid_test.cpp:20-42 *)
Definition Sigmoid_Float : M unit :=
  let* x := new F32 [2; 3] in
  assign x F32 (fun i => dmul i (dec 1 1)) ;;;
  let* o := run (OSigmoid x) in
  near F32 (dec 1 5) o [dec 5 1; dec 524979 6; dec 549834 6; dec 574443 6; dec 598688 6; dec 622459 6] ;;;
  free_all [x; o].

(** test/slice_test.cpp:32-56 *)
Definition Slice_StepIsOne : M unit :=
  let* x := new F32 [2; 4; 5] in
  assign x F32 (fun i => dmul i (dec 1 1)) ;;;
  let* o := run (OSlice x [1; 1; 2] [1; 2; 3] [1; 1; 1]) in
  near F32 (dec 1 5) o [dec 27 1; dec 28 1; dec 29 1; dec 32 1; dec 33 1; dec 34 1] ;;;
  free_all [x; o].

(** test/slice_test.cpp:58-81 *)
Definition Slice_StepNotOne : M unit :=
  let* x := new I32 [2; 5; 10] in
  iassign x (fun i => i) ;;;
  let* o := run (OSlice x [0; 1; 2] [2; 4; 6] [1; 2; 3]) in
  ints_are I32 o [12; 15; 32; 35; 62; 65; 82; 85] ;;;
  free_all [x; o].

(** test/softmax_test.cpp:36-60 *)
Definition Softmax_FloatAll : M unit :=
  let* x := new F32 [2; 3] in
  assign x F32 (fun i => dadd (dmul (dmul i i) (dec 1 1)) (dmul i (dec 1 1))) ;;;
  let* o := run (OSoftmax x (-1)) in
  near F32 (dec 1 5) o [dec 287 4; dec 3506 5; dec 523 4; dec 953 4; dec 2121 4; dec 57654 5] ;;;
  free_all [x; o].

(** test/softmax_test.cpp:62-91 *)
Definition Softmax_DoubleAxis1 : M unit :=
  let* x := new F64 [2; 3; 5] in
  assign x F64 (fun i => dadd (dmul (dmul i i) (dec 2 3)) (dmul i (dec 3 1))) ;;;
  let* o := run (OSoftmax x 1) in
  near F64 (dec 1 6) o [dec 33064 6; dec 31908 6; dec 30789 6; dec 29706 6; dec 28659 6; dec 155782 6; dec 153369 6; dec 15098 5; dec 148614 6; dec 146272 6; dec 811154 6; dec 814723 6; dec 818232 6; dec 82168 5; dec 825069 6; dec 19208 6; dec 18514 6; dec 17843 6; dec 17196 6; dec 16571 6; dec 122161 6; dec 120123 6; dec 118111 6; dec 116125 6; dec 114165 6; dec 858631 6; dec 861363 6; dec 864046 6; dec 866679 6; dec 869264 6] ;;;
  free_all [x; o].

(** test/sqrt_test.cpp:31-56 *)
Definition Sqrt_Float : M unit :=
  let* x := new F32 [2; 3] in
  assign x F32 (fun i => dmul i (dec 2 0)) ;;;
  let* o := run (OSqrt x) in
  near F32 (dec 1 6) o [dec 0 0; dec 1414214 6; dec 2 0; dec 244949 5; dec 2828427 6; dec 3162278 6] ;;;
  free_all [x; o].

(** test/sqrt_test.cpp:58-79 *)
Definition Sqrt_Int32 : M unit :=
  let* x := new I32 [2; 3] in
  iassign x (fun i => i * 4) ;;;
  let* o := run (OSqrt x) in
  ints_are I32 o [0; 2; 2; 3; 4; 4] ;;;
  free_all [x; o].

(** test/squeeze_test.cpp:20-45 *)
Definition Squeeze_Axis : M unit :=
  let* x := new I32 [2; 1; 5; 1; 10; 1] in
  iassign x (fun i => i) ;;;
  let* o := run (OSqueeze x [1; 3; 4] 3) in
  dims_are o [2; 5; 10; 1] ;;;
  free_all [x; o].

(** test/squeeze_test.cpp:47-70 *)
Definition Squeeze_All : M unit :=
  let* x := new I32 [2; 1; 5; 1; 10; 1] in
  iassign x (fun i => i) ;;;
  let* o := run (OSqueeze x [] 0) in
  dims_are o [2; 5; 10] ;;;
  free_all [x; o].

(** test/tensor_test.cpp:9-18 *)
Definition TensorStruct_MemberAccess : M unit :=
  let* x := new I32 [2; 3; 4] in
  let* nd := tensor_ndim x in
  let* n := tensor_size x in
  expect ((nd =? 3) && (n =? 24)) ;;;
  free_all [x].

(** test/tensor_test.cpp:20-44 *)
Definition TensorStruct_Factories : M unit :=
  let* x := full I32 [2; 3; 4] (dec 73 1) in
  ints_are I32 x (repeat 7 (Z.to_nat 24)) ;;;
  free_all [x] ;;;
  let* y := full F32 [1; 2; 3; 4] (dec 2 0) in
  same F32 y (repeat (dbl_of_Z 2) (Z.to_nat 24)) ;;;
  free_all [y].

(** ** All of them *)
Definition suite : list (M unit) :=
  [Binary_add; Binary_sub; Binary_mul; Matmul_vector_vector; Matmul_matrix_vector;
   Matmul_matrix_matrix; Matmul_vector_matrix; Matmul_cube_vector; Matmul_vector_cube;
   Matmul_tensor_tensor; Dot_Dim2DotDim2; Dot_Dim2DotDim0; Dot_Dim1DotDim1; Dot_Dim3DotDim1;
   Dot_Dim4DotDim3; BatchNorm_Input5dAxis4; BatchNorm_Input4dAxis1; BatchNorm_Input2dAxis1;
   Broadcast_4D_6D; Cast_FloatToInt32; Cast_Int32ToDouble; Conv2D_P0S1D1; Conv2D_P2S1D1;
   Conv3D_P0S1D1; Dropout_Rate40percent; Duplicate_Float; Pooling1D_MaxFloatK2S2P0D2;
   Pooling2D_AvgInt32K3S3P0D1; Pooling2D_MaxDoubleK6S6P3D1; Pooling3D_MaxInt32K3S5P0D2;
   Relu_Float; Reshape_Int32; Sigmoid_Float; Slice_StepIsOne; Slice_StepNotOne;
   Softmax_FloatAll; Softmax_DoubleAxis1; Sqrt_Float; Sqrt_Int32; Squeeze_Axis; Squeeze_All;
   TensorStruct_MemberAccess; TensorStruct_Factories].

(** A test passes if no expectation fails, nothing undefined happens, and no
    memory is left at the end. *)
Definition passes (t : M unit) : bool :=
  match t Etest s_empty with Done _ s => bool_decide (map_to_list (heap s) = []) | _ => false end.
Definition passed : list bool := passes <$> suite.

Example suite_passes : Forall (fun t => passes t = true) suite.
Proof.
  apply Forall_fmap with (f := passes) (P := fun b => b = true).
  vm_compute. repeat constructor.
Qed.
