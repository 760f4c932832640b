(** * ModelAuto: the automatic test harness
      (/repo/auto_test/basic.h, basic.cpp, test_code/ *_test.h)

    Simplifications: printing and timing are left out.  The generators of
    random_assign (basic.cpp:42-72) are not modelled: a random input is any input.
    [ASSERT_*] ends the test with a failure: the verdict [false].  The user's
    implementation is an arbitrary collection of functions.  The statuses of all
    library calls are ignored, as in the code. *)
From stdpp Require Import gmap list.
From Coq Require Import ZArith Floats.SpecFloat.
From Verif Require Import Base Mem ModelCore ModelSample.
Open Scope Z_scope.

(** aitisa_dtypes, aitisa_devices, basic.cpp:6-12 *)
Definition aitisa_dtypes : list dtype := dtype_of <$> [I8; U8; I16; U16; I32; U32; I64; U64; F32; F64].
Definition aitisa_devices : list device := [Dev 0 0; Dev 1 0].
(** aitisa_int_to_dtype, aitisa_int_to_device, elem_size: basic.h:12-16 *)
Definition int_to_dtype (n : Z) : M dtype := aget aitisa_dtypes n.
Definition int_to_device (n : Z) : M device := aget aitisa_devices n.
Definition elem_size (n : Z) : M Z := let* d := int_to_dtype n in ret (d_size d mod UINT32_MOD).

(** 0.1 and 1e-3 as doubles *)
Definition d_tenth : spec_float := S754_finite false 7205759403792794 (-56).
Definition d_milli : spec_float := S754_finite false 4611686018427388 (-62).

(** The right-hand sides in natural_assign_int and natural_assign_float,
    basic.cpp:14-25.  (T)i + 1 is computed in the promoted type of T; the other one
    in double.  The results are converted to T. *)
Definition natural_elem (t : tcode) (i : Z) : option val :=
  if is_float t then
    match to_double t (VF (flt_of_Z t i)) with
    | Some d => of_double t (dadd (dmul d d_tenth) d_tenth)
    | None => None
    end
  else
    let z := wrap t i + 1 in
    match t with
    | I32 => if z <=? INT_MAX then Some (VI z) else None
    | I64 => if z <=? INT64_MAX then Some (VI z) else None
    | _ => Some (VI (wrap t z))
    end.

(** natural_assign, basic.cpp:26-40 *)
Definition natural_assign (data : hval) (len dtype : Z) : M unit :=
  match tc_of dtype with
  | Some t =>
      for64 0 (len / Z.of_nat (tsz t)) (fun i _ =>
        let* v := opt (natural_elem t i) UB_overflow in
        storei data t i v) tt
  | None => ret tt
  end.

(** What a test fixture does per operand, e.g. binary_op_test.h:40-60:
    nelem is an unsigned int multiplied by int64_t extents. *)
Definition operand_len (dims : list Z) (dtype : Z) : M Z :=
  let* nelem := for64 0 (Z.of_nat (length dims)) (fun j n =>
      let* d := aget dims j in
      let* n := ck64 (n * d) in
      ret (n mod UINT32_MOD)) 1 in
  let* es := elem_size dtype in
  ret (nelem * es mod UINT32_MOD).
Definition natural_operand (dims : list Z) (dtype : Z) : M (hval * Z) :=
  let* len := operand_len dims dtype in
  let* p := new_arr len (CData (replicate (Z.to_nat len) MU)) in
  natural_assign p len dtype ;;;
  ret (p, len).

(** One operand of a sample *)
Record operand := Opd { x_dims : list Z; x_dtype : Z; x_device : Z; x_data : hval; x_len : Z }.

(** What resolving a result yields, after DTYPE_TO_INT and DEVICE_TO_INT *)
Record outcome := Out { r_code : Z; r_dev : Z; r_shape : hval; r_rank : Z; r_buf : hval; r_bytes : Z }.
Definition outcome_of (r : resolved) : outcome :=
  Out (d_code (r_dtype r)) (dev_type (r_device r)) (r_dims r) (r_ndim r) (r_data r) (r_len r).

(** The user's functions on tensors of type [X], basic.h:28-52 and
    binary_op_test.h:206-221; dtype and device are passed as numbers. *)
Record user (X : Type) := User {
  u_create : Z -> Z -> list Z -> Z -> hval -> Z -> M X;
  u_op : X -> X -> M X;
  u_resolve : X -> M outcome }.
Arguments User {X} _ _ _. Arguments u_create {X} _ _ _ _ _ _ _. Arguments u_op {X} _ _ _. Arguments u_resolve {X} _ _.

(** The library as its own user: REGISTER_BASIC and REGISTER_BINARY_OP with the
    library's functions. *)
Definition itself (op : hval -> hval -> hval -> M (status * hval)) : user hval :=
  User (fun dt dev dims ndim data len =>
          let* d := int_to_dtype dt in
          let* v := int_to_device dev in
          let* (_, x) := aitisa_create d v dims ndim data len HUndef in ret x)
       (fun x y => let* (_, z) := op x y HUndef in ret z)
       (fun x => let* (_, r) := aitisa_resolve x in ret (outcome_of r)).

(** The comparison, binary_op_test.h:145-196 (the other test files have the same
    text).  [dev]: the device the result must be on; [t], [same]: the element type
    and the comparison written for this sample. *)
Definition compare (dev : Z) (t : tcode) (same : val -> val -> bool) (a u : outcome) : M bool :=
  if negb (r_rank a =? r_rank u) then ret false
  else if negb (dev =? r_dev u) then ret false
  else if negb (r_code a =? r_code u) then ret false
  else
    let* c := iter_ret (Z.to_nat (r_rank a)) 0 (fun j size =>
        let* l := int_array (r_shape a) in
        let* d := aget l j in
        let* size := ck64 (size * d) in
        let* l' := int_array (r_shape u) in
        let* d' := aget l' j in
        if negb (d =? d') then ret (Return tt) else ret (Next size)) 1 in
    match c with
    | Return _ => ret false
    | Next size =>
        if negb (r_bytes a =? r_bytes u) then ret false
        else
          let* c := iter_ret (Z.to_nat size) 0 (fun j _ =>
              let* x := loadi (r_buf a) t j in
              let* y := loadi (r_buf u) t j in
              if negb (same x y) then ret (Return tt) else ret (Next tt)) tt in
          match c with Return _ => ret false | Next _ => ret true end
    end.

(** The library's part of a sample with two operands, binary_op_test.h:101-120 (always
    on the CPU), and the user's, binary_op_test.h:122-144; likewise matmul_test.h. *)
Definition library_run (op : hval -> hval -> hval -> M (status * hval)) (x1 x2 : operand) : M outcome :=
  let* d1 := int_to_dtype (x_dtype x1) in
  let* d2 := int_to_dtype (x_dtype x2) in
  let* v := int_to_device 0 in
  let* (_, a1) := aitisa_create d1 v (x_dims x1) (Z.of_nat (length (x_dims x1))) (x_data x1) (x_len x1) HUndef in
  let* (_, a2) := aitisa_create d2 v (x_dims x2) (Z.of_nat (length (x_dims x2))) (x_data x2) (x_len x2) HUndef in
  let* (_, ar) := op a1 a2 HUndef in
  let* (_, r) := aitisa_resolve ar in
  ret (outcome_of r).
Definition user_run {X} (U : user X) (x1 x2 : operand) : M outcome :=
  let* u1 := u_create U (x_dtype x1) (x_device x1) (x_dims x1) (Z.of_nat (length (x_dims x1))) (x_data x1) (x_len x1) in
  let* u2 := u_create U (x_dtype x2) (x_device x2) (x_dims x2) (Z.of_nat (length (x_dims x2))) (x_data x2) (x_len x2) in
  let* ur := u_op U u1 u2 in
  u_resolve U ur.

(** One sample, binary_op_test.h:100-196.  [dev] is [None] where the result must be on
    the device of the library's result. *)
Definition auto_case {X} (op : hval -> hval -> hval -> M (status * hval)) (U : user X)
    (x1 x2 : operand) (dev : option Z) (t : tcode) (same : val -> val -> bool) : M bool :=
  let* ra := library_run op x1 x2 in
  let* ru := user_run U x1 x2 in
  compare (default (r_dev ra) dev) t same ra ru.

(** ASSERT_EQ on integers, and ASSERT_TRUE(abs(x - y) < 1e-3): the difference is
    computed in the element type and compared in double ([abs] is std::abs here; with
    only C's abs(int) in scope the difference would be truncated first). *)
Definition same_int (x y : val) : bool :=
  match x, y with VI a, VI b => a =? b | _, _ => false end.
Definition same_float (t : tcode) (x y : val) : bool :=
  match x, y with
  | VF a, VF b => SFltb (flt_conv F64 (SFabs (SFsub (fprec t) (femax t) a b))) d_milli
  | _, _ => false
  end.
