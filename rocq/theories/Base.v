(** * Base: C scalar types, element values and their arithmetic

    Models the scalar layer that every kernel of /repo relies on: the ten
    element types (src/core/types.h:10-30), C integer promotion / conversion /
    overflow rules and IEEE-754 arithmetic (Coq's own [SpecFloat], radix 2,
    round to nearest even; binary32 = (24,128), binary64 = (53,1024)).

    Everything here is a total computable function.  [None] means that the C
    expression has undefined behaviour. *)
From stdpp Require Import gmap list.
From Coq Require Import ZArith Floats.SpecFloat.
Open Scope Z_scope.

(** ** Element types: src/core/types.h:10-22 ([TypeCode]) *)
Inductive tcode := I8 | U8 | I16 | U16 | I32 | U32 | I64 | U64 | F32 | F64.

Global Instance tcode_eq_dec : EqDecision tcode.
Proof. solve_decision. Defined.

Global Instance spec_float_eq_dec : EqDecision spec_float.
Proof. solve_decision. Defined.

(** The numeric value of the enumerators, src/core/types.h:10-22. *)
Definition code_of (t : tcode) : Z :=
  match t with
  | I8 => 0 | U8 => 1 | I16 => 2 | U16 => 3 | I32 => 4
  | U32 => 5 | I64 => 6 | U64 => 7 | F32 => 8 | F64 => 9
  end.

(** The [case] labels of the dispatch macros, src/core/dispatch.h:14-63, and
    the index of the function tables, src/core/types.c:145-191: every other
    code hits [default] (or is an out-of-bounds table index). *)
Definition tc_of (c : Z) : option tcode :=
  if c =? 0 then Some I8 else if c =? 1 then Some U8 else
  if c =? 2 then Some I16 else if c =? 3 then Some U16 else
  if c =? 4 then Some I32 else if c =? 5 then Some U32 else
  if c =? 6 then Some I64 else if c =? 7 then Some U64 else
  if c =? 8 then Some F32 else if c =? 9 then Some F64 else None.

(** [sizeof] of the C type, src/core/types.c:10-22. *)
Definition tsz (t : tcode) : nat :=
  match t with
  | I8 | U8 => 1 | I16 | U16 => 2 | I32 | U32 | F32 => 4
  | I64 | U64 | F64 => 8
  end%nat.

(** [DataType], src/core/types.h:27-30: an arbitrary code and a byte size. *)
Record dtype := DT { d_code : Z; d_size : Z }.

(** The public constants [kInt8] .. [kDouble], src/core/types.c:10-22. *)
Definition dtype_of (t : tcode) : dtype := DT (code_of t) (Z.of_nat (tsz t)).

(** [Device], src/core/device.h:11-24; [DEVICE_CPU] = 0. *)
Record device := Dev { dev_type : Z; dev_id : Z }.

(** ** Statuses: src/core/status.h:4-14 *)
Inductive status :=
  | SUCCESS | TYPE_MISMATCH | DIMENSIONS_MISMATCH | INVALID_ARGUMENT
  | NOT_SUPPORTED | ALLOC_FAILED | OUT_OF_RANGE | INTERNAL_ERROR | MATH_ERROR.

Global Instance status_eq_dec : EqDecision status.
Proof. solve_decision. Defined.

(** ** Element values: an integer, a float, or an indeterminate value *)
Inductive val := VI (z : Z) | VF (f : spec_float) | VU.

Global Instance val_eq_dec : EqDecision val.
Proof. solve_decision. Defined.

(** ** C integer ranges (LP64, two's complement) *)
Definition INT_MIN : Z := -2147483648.
Definition INT_MAX : Z := 2147483647.
Definition INT64_MIN : Z := -9223372036854775808.
Definition INT64_MAX : Z := 9223372036854775807.
Definition UINT32_MOD : Z := 4294967296.
Definition SIZE_MOD : Z := 18446744073709551616.
Definition PTRDIFF_MAX : Z := 9223372036854775807.

Definition is_float (t : tcode) : bool :=
  match t with F32 | F64 => true | _ => false end.

Definition is_signed (t : tcode) : bool :=
  match t with I8 | I16 | I32 | I64 => true | _ => false end.

(** Width in bits. *)
Definition bits (t : tcode) : Z := 8 * Z.of_nat (tsz t).

Definition tmin (t : tcode) : Z := if is_signed t then - 2 ^ (bits t - 1) else 0.
Definition tmax (t : tcode) : Z :=
  if is_signed t then 2 ^ (bits t - 1) - 1 else 2 ^ bits t - 1.

Definition in_range (t : tcode) (z : Z) : bool := (tmin t <=? z) && (z <=? tmax t).

(** Integer conversion: modulo 2^bits (C11 6.3.1.3; implementation-defined for
    signed targets, gcc/clang reduce modulo 2^N). *)
Definition wrap (t : tcode) (z : Z) : Z :=
  if is_signed t then (z + 2 ^ (bits t - 1)) mod 2 ^ bits t - 2 ^ (bits t - 1)
  else z mod 2 ^ bits t.

(** The usual arithmetic conversions on two operands of type [t]: types
    narrower than [int] are promoted to [int] (C11 6.3.1.1, 6.3.1.8). *)
Definition promote (t : tcode) : tcode :=
  match t with I8 | U8 | I16 | U16 => I32 | _ => t end.

(** ** IEEE-754 formats *)
Definition fprec (t : tcode) : Z := match t with F32 => 24 | _ => 53 end.
Definition femax (t : tcode) : Z := match t with F32 => 128 | _ => 1024 end.

(** Integer to double, (double)z : rounded to nearest even. *)
Definition dbl_of_Z (z : Z) : spec_float := binary_normalize 53 1024 z 0 false.

(** Integer to float type [t]. *)
Definition flt_of_Z (t : tcode) (z : Z) : spec_float :=
  binary_normalize (fprec t) (femax t) z 0 false.

(** Conversion between float formats: re-rounding to the target format. *)
Definition flt_conv (t : tcode) (f : spec_float) : spec_float :=
  match f with
  | S754_finite s m e => binary_round (fprec t) (femax t) s m e
  | _ => f
  end.

(** Truncation towards zero of a float: [None] on NaN and infinities. *)
Definition flt_trunc (f : spec_float) : option Z :=
  match f with
  | S754_zero _ => Some 0
  | S754_finite s m e =>
      let a := if 0 <=? e then Z.pos m * 2 ^ e else Z.pos m / 2 ^ (- e) in
      Some (if s then - a else a)
  | _ => None
  end.

(** C [floor] and [ceil] on doubles (math.h), on finite arguments. *)
Definition Zfloor_of (f : spec_float) : option Z :=
  match f with
  | S754_zero _ => Some 0
  | S754_finite s m e =>
      let z := if s then Z.neg m else Z.pos m in
      Some (if 0 <=? e then z * 2 ^ e else z / 2 ^ (- e))
  | _ => None
  end.
Definition Zceil_of (f : spec_float) : option Z :=
  match f with
  | S754_zero _ => Some 0
  | S754_finite s m e =>
      let z := if s then Z.neg m else Z.pos m in
      Some (if 0 <=? e then z * 2 ^ e else - ((- z) / 2 ^ (- e)))
  | _ => None
  end.
Definition dbl_floor (f : spec_float) : spec_float :=
  match Zfloor_of f with Some z => dbl_of_Z z | None => f end.
Definition dbl_ceil (f : spec_float) : spec_float :=
  match Zceil_of f with Some z => dbl_of_Z z | None => f end.

Definition dadd := SFadd 53 1024.
Definition dsub := SFsub 53 1024.
Definition dmul := SFmul 53 1024.
Definition ddiv := SFdiv 53 1024.
Definition dsqrt := SFsqrt 53 1024.
Definition fzero : spec_float := S754_zero false.
Definition done : spec_float := dbl_of_Z 1.

(** ** Conversions of element values *)

(** (double)x for x of element type [t]; [None] on an indeterminate value. *)
Definition to_double (t : tcode) (v : val) : option spec_float :=
  match v with
  | VI z => if is_float t then None else Some (dbl_of_Z z)
  | VF f => if is_float t then Some (flt_conv F64 f) else None
  | VU => None
  end.

(** (T)d for a double [d]: C11 6.3.1.4/6.3.1.5.  Out-of-range float to integer
    conversion is undefined. *)
Definition of_double (t : tcode) (f : spec_float) : option val :=
  if is_float t then Some (VF (flt_conv t f))
  else match flt_trunc f with
       | Some z => if in_range t z then Some (VI z) else None
       | None => None
       end.

(** (T2)x for x of type [t1]: the element conversion of src/basic/cast.c:4-9. *)
Definition cast_val (t1 t2 : tcode) (v : val) : option val :=
  match v with
  | VI z =>
      if is_float t1 then None
      else if is_float t2 then Some (VF (flt_of_Z t2 z))
      else Some (VI (wrap t2 z))
  | VF f =>
      if is_float t1 then
        if is_float t2 then Some (VF (flt_conv t2 f))
        else match flt_trunc f with
             | Some z => if in_range t2 z then Some (VI z) else None
             | None => None
             end
      else None
  | VU => None
  end.

(** ** Arithmetic on element values *)
Inductive binop := OpAdd | OpSub | OpMul | OpDiv.

(** The operation in the promoted type [pt]: signed overflow, division by zero
    and MIN / -1 are undefined; unsigned arithmetic is modulo 2^N. *)
Definition int_op (pt : tcode) (o : binop) (a b : Z) : option Z :=
  let fin r := if is_signed pt then (if in_range pt r then Some r else None)
               else Some (wrap pt r) in
  match o with
  | OpAdd => fin (a + b)
  | OpSub => fin (a - b)
  | OpMul => fin (a * b)
  | OpDiv => if b =? 0 then None else fin (Z.quot a b)
  end.

Definition flt_op (t : tcode) (o : binop) : spec_float -> spec_float -> spec_float :=
  match o with
  | OpAdd => SFadd (fprec t) (femax t)
  | OpSub => SFsub (fprec t) (femax t)
  | OpMul => SFmul (fprec t) (femax t)
  | OpDiv => SFdiv (fprec t) (femax t)
  end.

(** [c = a op b] for lvalues of type [t]: src/math/binary_op.c:5-193. *)
Definition bin_val (t : tcode) (o : binop) (a b : val) : option val :=
  match a, b with
  | VI x, VI y =>
      if is_float t then None
      else match int_op (promote t) o x y with
           | Some r => Some (VI (wrap t r))
           | None => None
           end
  | VF x, VF y => if is_float t then Some (VF (flt_op t o x y)) else None
  | _, _ => None
  end.

(** [c += a * b] for lvalues of type [t], as in the kernels
    src/math/matmul.c:26-48, src/math/dot.c:11-16 and src/nn/conv.c:111:
    product and sum are computed in the promoted type, then converted. *)
Definition mac_val (t : tcode) (c a b : val) : option val :=
  match c, a, b with
  | VI z, VI x, VI y =>
      if is_float t then None
      else match int_op (promote t) OpMul x y with
           | Some m => match int_op (promote t) OpAdd z m with
                       | Some r => Some (VI (wrap t r))
                       | None => None
                       end
           | None => None
           end
  | VF z, VF x, VF y =>
      if is_float t then Some (VF (flt_op t OpAdd z (flt_op t OpMul x y))) else None
  | _, _, _ => None
  end.

(** [x > 0] and [x < 0]; [None] on an indeterminate value. *)
Definition gt0_val (t : tcode) (v : val) : option bool :=
  match v with
  | VI z => if is_float t then None else Some (0 <? z)
  | VF f => if is_float t then Some (SFltb fzero f) else None
  | VU => None
  end.
Definition lt0_val (t : tcode) (v : val) : option bool :=
  match v with
  | VI z => if is_float t then None else Some (z <? 0)
  | VF f => if is_float t then Some (SFltb f fzero) else None
  | VU => None
  end.

(** The literal 0 assigned to an lvalue of type [t]. *)
Definition zero_val (t : tcode) : val := if is_float t then VF fzero else VI 0.

(** Well-typed, initialised element of type [t].  Floats are in the canonical
    representation of their format (SpecFloat's [valid_binary]). *)
Definition val_ok (t : tcode) (v : val) : Prop :=
  match v with
  | VI z => is_float t = false /\ tmin t <= z <= tmax t
  | VF f => is_float t = true /\ valid_binary (fprec t) (femax t) f = true
  | VU => False
  end.
