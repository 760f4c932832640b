(** * ModelMath: src/math *)
From stdpp Require Import gmap list.
From Coq Require Import ZArith Floats.SpecFloat.
From Verif Require Import Base Mem ModelCore ModelBasic.
Open Scope Z_scope.

Definition DEVICE_CPU : Z := 0.

(** The device test at the head of the binary operations,
    src/math/binary_op.c:205-208, src/math/matmul.c:91-94, src/math/dot.c:300-303 *)
Definition not_cpu (d1 d2 : device) : bool :=
  negb (dev_type d1 =? DEVICE_CPU) || negb (dev_type d2 =? DEVICE_CPU).

(** ** src/math/binary_op.c *)

(** aitisa_add / aitisa_sub / aitisa_mul / aitisa_div,
    src/math/binary_op.c:204-248, 250-294, 296-340, 342-386: four copies of the
    same code that differ in the operation code only.  a, b, c are one-element
    libc buffers whose content is kept in local variables; reading or writing
    them requires a non-NULL block of at least sizeof(T) bytes. *)
Definition aitisa_binary_op (op : binop) (t1 t2 : hval) (o : hval)
  : M (status * hval) :=
  let* dev1 := tensor_device t1 in
  let* dev2 := tensor_device t2 in
  if not_cpu dev1 dev2 then ret (NOT_SUPPORTED, o)
  else
    let* dt1 := tensor_dtype t1 in
    let* dt2 := tensor_dtype t2 in
    if negb (d_code dt1 =? d_code dt2) then ret (TYPE_MISMATCH, o)
    else
      let* nd1 := tensor_ndim t1 in
      let* nd2 := tensor_ndim t2 in
      if negb (nd1 =? nd2) then ret (INVALID_ARGUMENT, o)
      else
        let* dims1 := tensor_dims t1 in
        let* dims2 := tensor_dims t2 in
        let* c := iter_ret (Z.to_nat nd1) 0 (fun i _ =>
            let* x := aget dims1 i in
            let* y := aget dims2 i in
            if negb (x =? y) then ret (Return INVALID_ARGUMENT) else ret (Next tt)) tt in
        match c with
        | Return s => ret (s, o)
        | Next _ =>
            let* (s, o) := aitisa_create dt1 dev1 dims1 nd1 HNull 0 o in
            if negb (bool_decide (s = SUCCESS)) then ret (s, o)
            else
              let* size := tensor_size t1 in
              let* data1 := tensor_data t1 in
              let* data2 := tensor_data t2 in
              let* data_o := tensor_data o in
              let* a := libc_malloc (d_size dt1) CRaw in
              let* b := libc_malloc (d_size dt1) CRaw in
              let* c := libc_malloc (d_size dt1) CRaw in
              for32 0 size (fun i _ =>
                let* t := type_table dt1 in
                check (Z.of_nat (tsz t) <=? d_size dt1) UB_oob ;;;
                let* x := loadi data1 t i in
                touch a ;;;
                let* y := loadi data2 t i in
                touch b ;;;
                let* z := opt (bin_val t op x y) UB_overflow in
                touch c ;;;
                storei data_o t i z) tt ;;;
              libc_free a ;;; libc_free b ;;; libc_free c ;;;
              ret (SUCCESS, o)
        end.

(** The four entry points, src/math/binary_op.c:204,250,296,342. *)
Definition aitisa_add := aitisa_binary_op OpAdd.
Definition aitisa_sub := aitisa_binary_op OpSub.
Definition aitisa_mul := aitisa_binary_op OpMul.
Definition aitisa_div := aitisa_binary_op OpDiv.

(** ** src/math/sqrt.c *)

(** (typename)sqrt(x), src/math/sqrt.c:25: through double. *)
Definition sqrt_val (t : tcode) (v : val) : option val :=
  match to_double t v with
  | Some d => of_double t (dsqrt d)
  | None => None
  end.

(** sqrt_create_output, src/math/sqrt.c:5-18 *)
Definition sqrt_create_output (input o : hval) : M (status * hval) :=
  let* dims := tensor_dims input in
  let* ndim := tensor_ndim input in
  let* dt := tensor_dtype input in
  let* dev := tensor_device input in
  let* (s, new) := aitisa_create dt dev dims ndim HNull 0 HUndef in
  ret (s, if bool_decide (s = SUCCESS) then new else o).

(** sqrt_kernel, src/math/sqrt.c:20-26 *)
Definition sqrt_kernel (t : tcode) (input o : hval) (size : Z) : M status :=
  let* ind := tensor_data input in
  let* outd := tensor_data o in
  let* c := iter_ret (Z.to_nat size) 0 (fun i _ =>
      let* v := loadi ind t i in
      let* neg := opt (lt0_val t v) UB_uninit in
      if (neg : bool) then ret (Return MATH_ERROR)
      else
        let* w := opt (sqrt_val t v) UB_fconv in
        storei outd t i w ;;;
        ret (Next tt)) tt in
  match c with Return s => ret s | Next _ => ret SUCCESS end.

(** aitisa_sqrt with sqrt_template, src/math/sqrt.c:28-42 *)
Definition aitisa_sqrt (input o : hval) : M (status * hval) :=
  let* (s, o) := sqrt_create_output input o in
  if negb (bool_decide (s = SUCCESS)) then ret (s, o)
  else
    let* size := tensor_size input in
    let* dt := tensor_dtype input in
    let* s := dispatch_all dt (fun t => sqrt_kernel t input o size) (ret NOT_SUPPORTED) in
    ret (s, o).

(** ** src/math/matmul.c *)

(** batch_strides, src/math/matmul.c:11-23.  [strides] is the scratch array. *)
Definition batch_strides (dims : list Z) (ndim : Z) (strides : list (option Z))
    (nstride : Z) : M (list (option Z)) :=
  let* (strides, _) := for64 0 nstride (fun i '(strides, stride) =>
      let* d := if 0 <=? ndim - 1 - i
                then let* d := aget dims (ndim - 1 - i) in ret (Some d)
                else ret None in
      match d with
      | Some d =>
          if negb (d =? 1) then
            let* strides := aset strides (nstride - 1 - i) (Some stride) in
            let* stride := ck64 (stride * d) in
            ret (strides, stride)
          else
            let* strides := aset strides (nstride - 1 - i) (Some 0) in
            ret (strides, stride)
      | None =>
          let* strides := aset strides (nstride - 1 - i) (Some 0) in
          ret (strides, stride)
      end) (strides, 1) in
  ret strides.

(** C[ci] += A[ai] * B[bi] for element pointers given as buffer + byte offset.
    (The int64_t index arithmetic of the kernels is not checked for overflow
    separately: an overflowing index is out of bounds.) *)
Definition mac (t : tcode) (A : hval) (oa ai : Z) (B : hval) (ob bi : Z)
    (C : hval) (oc ci : Z) : M unit :=
  let sz := Z.of_nat (tsz t) in
  let* c := load C t (oc + ci * sz) in
  let* a := load A t (oa + ai * sz) in
  let* b := load B t (ob + bi * sz) in
  let* r := opt (mac_val t c a b) UB_overflow in
  store C t (oc + ci * sz) r.

(** VV_KERNEL, src/math/matmul.c:26-29 *)
Definition vv_kernel (t : tcode) (X Y Z0 : hval) (L : Z) : M unit :=
  for32 0 L (fun i _ => mac t X 0 i Y 0 i Z0 0 0) tt.

(** MV_KERNEL, src/math/matmul.c:32-37 *)
Definition mv_kernel (t : tcode) (A X B : hval) (m n : Z) : M unit :=
  for32 0 m (fun i _ =>
    for32 0 n (fun j _ => mac t A 0 (i * n + j) X 0 j B 0 i) tt) tt.

(** MM_KERNEL, src/math/matmul.c:40-48 *)
Definition mm_kernel (t : tcode) (A : hval) (oa : Z) (B : hval) (ob : Z)
    (C : hval) (oc : Z) (m k n : Z) : M unit :=
  for32 0 m (fun i _ =>
    for32 0 n (fun j _ =>
      for32 0 k (fun q _ =>
        mac t A oa (i * k + q) B ob (q * n + j) C oc (i * n + j)) tt) tt) tt.

(** BATCH_MM_KERNEL, src/math/matmul.c:51-57.  As, Bs, Cs hold byte offsets into
    the three data buffers. *)
Definition batch_mm_kernel (t : tcode) (A : hval) (As : list Z) (B : hval)
    (Bs : list Z) (C : hval) (Cs : list Z) (m k n n_batch : Z) : M unit :=
  for64 0 n_batch (fun bth _ =>
    let* oa := aget As bth in
    let* ob := aget Bs bth in
    let* oc := aget Cs bth in
    mm_kernel t A oa B ob C oc m k n) tt.

(** vv_template .. batch_mm_template, src/math/matmul.c:60-86 *)
Definition vv_template (dt : dtype) (X Y Z0 : hval) (L : Z) : M status :=
  dispatch_all dt (fun t => vv_kernel t X Y Z0 L ;;; ret SUCCESS) (ret NOT_SUPPORTED).
Definition mv_template (dt : dtype) (A X B : hval) (m n : Z) : M status :=
  dispatch_all dt (fun t => mv_kernel t A X B m n ;;; ret SUCCESS) (ret NOT_SUPPORTED).
Definition mm_template (dt : dtype) (A B C : hval) (m k n : Z) : M status :=
  dispatch_all dt (fun t => mm_kernel t A 0 B 0 C 0 m k n ;;; ret SUCCESS)
    (ret NOT_SUPPORTED).
Definition batch_mm_template (dt : dtype) (A : hval) (As : list Z) (B : hval)
    (Bs : list Z) (C : hval) (Cs : list Z) (m k n n_batch : Z) : M status :=
  dispatch_all dt (fun t => batch_mm_kernel t A As B Bs C Cs m k n n_batch ;;;
                            ret SUCCESS) (ret NOT_SUPPORTED).

(** The tail shared by the three batched cases of aitisa_matmul,
    src/math/matmul.c:198-223, 247-272 and 308-345: allocate As, Bs, Cs, fill
    them with the byte offsets of the [i]-th matrices, run the kernel, free. *)
Definition matmul_batches (tensor1 tensor2 o : hval) (n_batch m k n : Z)
    (offs : Z -> M (Z * Z)) (mat1 mat2 mat3 : Z) : M status :=
  let* pa := scratch (8 * n_batch) in
  let* pb := scratch (8 * n_batch) in
  let* pc := scratch (8 * n_batch) in
  let* data1 := tensor_data tensor1 in
  let* data2 := tensor_data tensor2 in
  let* data_o := tensor_data o in
  let* dt := tensor_dtype tensor1 in
  let* (As, Bs, Cs) := for64 0 n_batch (fun i '(As, Bs, Cs) =>
      let* (f1, f2) := offs i in
      let* a := ck64 (f1 * mat1 * d_size dt) in
      touch pa ;;;
      let* b := ck64 (f2 * mat2 * d_size dt) in
      touch pb ;;;
      let* c := ck64 (i * mat3 * d_size dt) in
      touch pc ;;;
      ret (As ++ [a], Bs ++ [b], Cs ++ [c])) ([], [], []) in
  let* s := batch_mm_template dt data1 As data2 Bs data_o Cs m k n n_batch in
  if negb (bool_decide (s = SUCCESS)) then ret s
  else
    raw_dealloc pc ;;; raw_dealloc pb ;;; raw_dealloc pa ;;;
    ret SUCCESS.

(** The conversion of a batch's linear index to the batch offsets of both
    operands, src/math/matmul.c:322-334 *)
Definition batch_offset (dims_out s1 s2 : list Z) (ndim_batch : Z) (i : Z)
  : M (Z * Z) :=
  let* c := iter_ret (Z.to_nat ndim_batch) 0 (fun j '(idx, f1, f2) =>
      let* dim := aget dims_out (ndim_batch - 1 - j) in
      let* r := rem64 idx dim in
      let* x1 := aget s1 (ndim_batch - 1 - j) in
      let* f1 := ck64 (f1 + r * x1) in
      let* x2 := aget s2 (ndim_batch - 1 - j) in
      let* f2 := ck64 (f2 + r * x2) in
      let* idx := div64 idx dim in
      if idx =? 0 then ret (Return (f1, f2)) else ret (Next (idx, f1, f2)))
      (i, 0, 0) in
  match c with
  | Return r => ret r
  | Next (_, f1, f2) => ret (f1, f2)
  end.

(** aitisa_full(dtype(tensor1), device(tensor1), dims_out, ndim_out, 0.0, output)
    as called by src/math/matmul.c:108,127,147,168,192,241,293 and
    src/math/dot.c:80 *)
Definition zeros_like (tensor1 : hval) (dims : list Z) (ndim : Z) (o : hval)
  : M (status * hval) :=
  let* dt := tensor_dtype tensor1 in
  let* dev := tensor_device tensor1 in
  aitisa_full dt dev dims ndim fzero o.

(** vector-vector, src/math/matmul.c:98-115 *)
Definition matmul_vv (t1 t2 o : hval) : M (status * hval) :=
  let* d1 := tensor_dim t1 0 in
  let* d2 := tensor_dim t2 0 in
  if negb (d1 =? d2) then ret (DIMENSIONS_MISMATCH, o)
  else
    let* (s, o) := zeros_like t1 [1] 1 o in
    if negb (bool_decide (s = SUCCESS)) then ret (s, o)
    else
      let* dt := tensor_dtype t1 in
      let* x := tensor_data t1 in
      let* y := tensor_data t2 in
      let* z := tensor_data o in
      let* s := vv_template dt x y z d1 in
      ret (s, o).

(** matrix-vector, src/math/matmul.c:116-134 *)
Definition matmul_mv (t1 t2 o : hval) : M (status * hval) :=
  let* m := tensor_dim t1 0 in
  let* k := tensor_dim t1 1 in
  let* d2 := tensor_dim t2 0 in
  if negb (k =? d2) then ret (DIMENSIONS_MISMATCH, o)
  else
    let* (s, o) := zeros_like t1 [m] 1 o in
    if negb (bool_decide (s = SUCCESS)) then ret (s, o)
    else
      let* dt := tensor_dtype t1 in
      let* x := tensor_data t1 in
      let* y := tensor_data t2 in
      let* z := tensor_data o in
      let* s := mv_template dt x y z m k in
      ret (s, o).

(** matrix-matrix, src/math/matmul.c:135-155 *)
Definition matmul_mm (t1 t2 o : hval) : M (status * hval) :=
  let* m := tensor_dim t1 0 in
  let* k := tensor_dim t1 1 in
  let* k2 := tensor_dim t2 0 in
  let* n := tensor_dim t2 1 in
  if negb (k =? k2) then ret (DIMENSIONS_MISMATCH, o)
  else
    let* (s, o) := zeros_like t1 [m; n] 2 o in
    if negb (bool_decide (s = SUCCESS)) then ret (s, o)
    else
      let* dt := tensor_dtype t1 in
      let* x := tensor_data t1 in
      let* y := tensor_data t2 in
      let* z := tensor_data o in
      let* s := mm_template dt x y z m k n in
      ret (s, o).

(** vector-matrix, src/math/matmul.c:156-175 *)
Definition matmul_vm (t1 t2 o : hval) : M (status * hval) :=
  let* k := tensor_dim t1 0 in
  let* k2 := tensor_dim t2 0 in
  let* n := tensor_dim t2 1 in
  if negb (k =? k2) then ret (DIMENSIONS_MISMATCH, o)
  else
    let* (s, o) := zeros_like t1 [n] 1 o in
    if negb (bool_decide (s = SUCCESS)) then ret (s, o)
    else
      let* dt := tensor_dtype t1 in
      let* x := tensor_data t1 in
      let* y := tensor_data t2 in
      let* z := tensor_data o in
      let* s := mm_template dt x y z 1 k n in
      ret (s, o).

(** tensor-vector, src/math/matmul.c:176-223.  dims_out is not tested for NULL. *)
Definition matmul_tv (t1 t2 o : hval) (nd1 : Z) : M (status * hval) :=
  let* m := tensor_dim t1 (nd1 - 2) in
  let* k := tensor_dim t1 (nd1 - 1) in
  let* k2 := tensor_dim t2 0 in
  let n := 1 in
  if negb (k =? k2) then ret (DIMENSIONS_MISMATCH, o)
  else
    let ndim_out := nd1 - 1 in
    let* p := scratch (8 * ndim_out) in
    let* dims_out := for64 0 ndim_out (fun i acc =>
        let* d := tensor_dim t1 i in touch p ;;; ret (acc ++ [d])) [] in
    let* (s, o) := zeros_like t1 dims_out ndim_out o in
    if negb (bool_decide (s = SUCCESS)) then ret (s, o)
    else
      let* dims1 := tensor_dims t1 in
      let* n_batch := size_to_dim (nd1 - 2) dims1 nd1 in
      let* mat1 := ck64 (m * k) in
      let* mat3 := ck64 (m * n) in
      let* s := matmul_batches t1 t2 o n_batch m k n (fun i => ret (i, 0)) mat1 0 mat3 in
      if negb (bool_decide (s = SUCCESS)) then ret (s, o)
      else raw_dealloc p ;;; ret (SUCCESS, o).

(** vector-tensor, src/math/matmul.c:224-272 *)
Definition matmul_vt (t1 t2 o : hval) (nd2 : Z) : M (status * hval) :=
  let m := 1 in
  let* k := tensor_dim t1 0 in
  let* k2 := tensor_dim t2 (nd2 - 2) in
  let* n := tensor_dim t2 (nd2 - 1) in
  if negb (k =? k2) then ret (DIMENSIONS_MISMATCH, o)
  else
    let ndim_out := nd2 - 1 in
    let* p := scratch (8 * ndim_out) in
    let* dims_out := for64 0 (ndim_out - 1) (fun i acc =>
        let* d := tensor_dim t2 i in touch p ;;; ret (acc ++ [d])) [] in
    let* d := tensor_dim t2 (nd2 - 1) in
    touch p ;;;
    let dims_out := dims_out ++ [d] in
    let* (s, o) := zeros_like t1 dims_out ndim_out o in
    if negb (bool_decide (s = SUCCESS)) then ret (s, o)
    else
      let* dims2 := tensor_dims t2 in
      let* n_batch := size_to_dim (nd2 - 2) dims2 nd2 in
      let* mat2 := ck64 (k2 * n) in
      let* mat3 := ck64 (m * n) in
      let* s := matmul_batches t1 t2 o n_batch m k n (fun i => ret (0, i)) 0 mat2 mat3 in
      if negb (bool_decide (s = SUCCESS)) then ret (s, o)
      else raw_dealloc p ;;; ret (SUCCESS, o).

(** tensor-tensor, src/math/matmul.c:273-349; max_int64_ is 8-8 *)
Definition matmul_tt (t1 t2 o : hval) (nd1 nd2 : Z) : M (status * hval) :=
  let* m := tensor_dim t1 (nd1 - 2) in
  let* k := tensor_dim t1 (nd1 - 1) in
  let* k2 := tensor_dim t2 (nd2 - 2) in
  let* n := tensor_dim t2 (nd2 - 1) in
  if negb (k =? k2) then ret (DIMENSIONS_MISMATCH, o)
  else
    let ndim_out := Z.max nd1 nd2 in
    let* p := scratch (8 * ndim_out) in
    let* dims1 := tensor_dims t1 in
    let* dims2 := tensor_dims t2 in
    let* (s, dims_out) := aitisa_broadcast_array dims1 (Z.max (nd1 - 2) 0)
        dims2 (Z.max (nd2 - 2) 0) (arr p ndim_out) (ndim_out - 2) in
    if negb (bool_decide (s = SUCCESS)) then ret (s, o)
    else
      let* dims_out := aset dims_out (ndim_out - 2) (Some m) in
      let* dims_out := aset dims_out (ndim_out - 1) (Some n) in
      let* dims_out := force_array dims_out in
      let* (s, o) := zeros_like t1 dims_out ndim_out o in
      if negb (bool_decide (s = SUCCESS)) then ret (s, o)
      else
        let ndim_batch := ndim_out - 2 in
        let* p1 := scratch (8 * ndim_batch) in
        let* p2 := scratch (8 * ndim_batch) in
        let* s1 := batch_strides dims1 (nd1 - 2) (arr p1 ndim_batch) ndim_batch in
        let* s2 := batch_strides dims2 (nd2 - 2) (arr p2 ndim_batch) ndim_batch in
        let* s1 := force_array s1 in
        let* s2 := force_array s2 in
        let* n_batch := size_to_dim ndim_batch dims_out ndim_out in
        let* mat1 := ck64 (m * k) in
        let* mat2 := ck64 (k2 * n) in
        let* mat3 := ck64 (m * n) in
        let* s := matmul_batches t1 t2 o n_batch m k n
                    (batch_offset dims_out s1 s2 ndim_batch) mat1 mat2 mat3 in
        if negb (bool_decide (s = SUCCESS)) then ret (s, o)
        else raw_dealloc p2 ;;; raw_dealloc p1 ;;; raw_dealloc p ;;; ret (SUCCESS, o).

(** aitisa_matmul, src/math/matmul.c:89-354 *)
Definition aitisa_matmul (t1 t2 o : hval) : M (status * hval) :=
  let* dev1 := tensor_device t1 in
  let* dev2 := tensor_device t2 in
  if not_cpu dev1 dev2 then ret (NOT_SUPPORTED, o)
  else
    let* nd1 := tensor_ndim t1 in
    let* nd2 := tensor_ndim t2 in
    if (nd1 =? 1) && (nd2 =? 1) then matmul_vv t1 t2 o
    else if (nd1 =? 2) && (nd2 =? 1) then matmul_mv t1 t2 o
    else if (nd1 =? 2) && (nd2 =? 2) then matmul_mm t1 t2 o
    else if (nd1 =? 1) && (nd2 =? 2) then matmul_vm t1 t2 o
    else if (3 <=? nd1) && (nd2 =? 1) then matmul_tv t1 t2 o nd1
    else if (nd1 =? 1) && (3 <=? nd2) then matmul_vt t1 t2 o nd2
    else if ((3 <=? nd1) && (2 <=? nd2)) || ((2 <=? nd1) && (3 <=? nd2))
         then matmul_tt t1 t2 o nd1 nd2
    else ret (INVALID_ARGUMENT, o).

(** ** src/math/dot.c *)

(** dot_kernel, src/math/dot.c:11-16 *)
Definition dot_kernel (t : tcode) (d1 d2 : hval) (size : Z) (d_o : hval) : M unit :=
  storei d_o t 0 (zero_val t) ;;;
  for32 0 size (fun i _ => mac t d1 0 i d2 0 i d_o 0 0) tt.

(** dot_get_value, src/math/dot.c:25-33 *)
Definition dot_get_value (t : hval) (idx : Z) : M (status * spec_float) :=
  let* dt := tensor_dtype t in
  dispatch_all dt (fun tc =>
    let* d := tensor_data t in
    let* v := loadi d tc idx in
    let* f := opt (to_double tc v) UB_uninit in
    ret (SUCCESS, f)) (ret (NOT_SUPPORTED, S754_nan)).

(** scalar_tensor_mul, src/math/dot.c:35-68 *)
Definition scalar_tensor_mul (t1 t2 o : hval) : M (status * hval) :=
  let* nd1 := tensor_ndim t1 in
  let* nd2 := tensor_ndim t2 in
  let* dt := tensor_dtype t1 in
  let* dev := tensor_device t1 in
  let big := if nd2 <? nd1 then t1 else t2 in
  let small := if nd2 <? nd1 then t2 else t1 in
  let* out_ndim := tensor_ndim big in
  let* out_dims := tensor_dims big in
  let* (s, value) := dot_get_value small 0 in
  if negb (bool_decide (s = SUCCESS)) then ret (s, o)
  else
    let* (s, new) := aitisa_full dt dev out_dims out_ndim value HUndef in
    if negb (bool_decide (s = SUCCESS)) then ret (s, o)
    else
      let* (s, o) := aitisa_mul new big o in
      let* _ := aitisa_destroy new in
      ret (s, o).

(** vector_vector_dot with dot_template, src/math/dot.c:18-23 and 70-90 *)
Definition vector_vector_dot (t1 t2 o : hval) : M (status * hval) :=
  let* d1 := tensor_dim t1 0 in
  let* d2 := tensor_dim t2 0 in
  if negb (d1 =? d2) then ret (DIMENSIONS_MISMATCH, o)
  else
    let* (s, o) := zeros_like t1 [1] 1 o in
    if negb (bool_decide (s = SUCCESS)) then ret (s, o)
    else
      let* dt := tensor_dtype t1 in
      let* x := tensor_data t1 in
      let* y := tensor_data t2 in
      let* size := tensor_size t1 in
      let* z := tensor_data o in
      let* s := dispatch_all dt (fun t => dot_kernel t x y size z ;;; ret SUCCESS)
                  (ret NOT_SUPPORTED) in
      ret (s, o).

(** The update of an int index recorder, src/math/dot.c:155-163, 265-274 and
    279-287: axes [n-1 .. 0] except [skip], carry when reaching the extent. *)
Definition dot_advance (n : nat) (skip : Z) (dims idx : list Z) : M (list Z) :=
  iter_down_break n (fun i idx =>
    if i =? skip then ret (idx, true)
    else
      let* x := aget idx i in
      let* x := ck32 (x + 1) in
      let* d := aget dims i in
      if d <=? x then let* idx := aset idx i 0 in ret (idx, true)
      else let* idx := aset idx i x in ret (idx, false)) idx.

(** tensor_vector_dot, src/math/dot.c:92-171 *)
Definition tensor_vector_dot (t1 t2 o : hval) : M (status * hval) :=
  let* nd1 := tensor_ndim t1 in
  let* dims1 := tensor_dims t1 in
  let* dims2 := tensor_dims t2 in
  let* x := aget dims1 (nd1 - 1) in
  let* y := aget dims2 0 in
  if negb (x =? y) then ret (INVALID_ARGUMENT, o)
  else
    let out_ndim := nd1 - 1 in
    let* p := scratch (8 * out_ndim) in
    if is_null p then ret (ALLOC_FAILED, o)
    else
      let* out_dims := for64 0 out_ndim (fun i acc =>
          let* d := aget dims1 i in ret (acc ++ [d])) [] in
      let* dt := tensor_dtype t1 in
      let* dev := tensor_device t1 in
      let* (s, new) := aitisa_create dt dev out_dims out_ndim HNull 0 HUndef in
      if negb (bool_decide (s = SUCCESS)) then ret (s, o)
      else
        let o := new in
        raw_dealloc p ;;;
        let* p1 := scratch (4 * nd1) in
        let* p2 := scratch (4 * nd1) in
        let* p3 := scratch (4 * nd1) in
        if is_null p1 || is_null p2 || is_null p3 then ret (ALLOC_FAILED, o)
        else
          let n := Z.to_nat nd1 in
          let idx := replicate n 0 in
          let step := replicate n 1 in
          let* size := aset (replicate n 0) (nd1 - 1) (to_int x) in
          let* nvec := size_to_dim (nd1 - 1) dims1 nd1 in
          let* out_data := tensor_data o in
          let* odt := tensor_dtype o in
          let data_size := d_size odt in
          let* c := iter_ret (Z.to_nat nvec) 0 (fun vec_idx idx =>
              let* (s, vec1) := aitisa_slice t1 idx size step HUndef in
              if negb (bool_decide (s = SUCCESS)) then ret (Return s)
              else
                let* (s, result) := vector_vector_dot vec1 t2 HUndef in
                if negb (bool_decide (s = SUCCESS)) then ret (Return s)
                else
                  let* rdata := tensor_data result in
                  let* off := ck32 (vec_idx * data_size) in
                  memcpy out_data off rdata 0 data_size ;;;
                  let* idx := dot_advance (n - 1) (-1) dims1 idx in
                  let* _ := aitisa_destroy vec1 in
                  let* _ := aitisa_destroy result in
                  check (vec_idx <? INT_MAX) UB_overflow ;;;
                  ret (Next idx)) idx in
          match c with
          | Return s => ret (s, o)
          | Next _ =>
              raw_dealloc p1 ;;; raw_dealloc p2 ;;; raw_dealloc p3 ;;;
              ret (SUCCESS, o)
          end.

(** multidim_dot, src/math/dot.c:173-297 *)
Definition multidim_dot (t1 t2 o : hval) : M (status * hval) :=
  let* nd1 := tensor_ndim t1 in
  let* nd2 := tensor_ndim t2 in
  let* dims1 := tensor_dims t1 in
  let* dims2 := tensor_dims t2 in
  let* x := aget dims1 (nd1 - 1) in
  let* y := aget dims2 (nd2 - 2) in
  if negb (x =? y) then ret (INVALID_ARGUMENT, o)
  else
    let out_ndim := nd1 + nd2 - 2 in
    let* p := scratch (8 * out_ndim) in
    if is_null p then ret (ALLOC_FAILED, o)
    else
      let* out_dims := for64 0 (nd1 - 1) (fun i out =>
          let* d := aget dims1 i in aset out i (Some d)) (arr p out_ndim) in
      let* out_dims := for64 0 nd2 (fun i out =>
          if i <? nd2 - 2 then
            let* d := aget dims2 i in aset out (i + nd1 - 1) (Some d)
          else if nd2 - 2 <? i then
            let* d := aget dims2 i in aset out (i + nd1 - 2) (Some d)
          else ret out) out_dims in
      let* out_dims := force_array out_dims in
      let* dt := tensor_dtype t1 in
      let* dev := tensor_device t1 in
      let* (s, new) := aitisa_create dt dev out_dims out_ndim HNull 0 HUndef in
      if negb (bool_decide (s = SUCCESS)) then ret (s, o)
      else
        let o := new in
        raw_dealloc p ;;;
        let* i1 := scratch (4 * nd1) in
        let* i2 := scratch (4 * nd2) in
        let* z1 := scratch (4 * nd1) in
        let* z2 := scratch (4 * nd2) in
        let* s1 := scratch (4 * nd1) in
        let* s2 := scratch (4 * nd2) in
        if is_null i1 || is_null i2 || is_null z1 || is_null z2
           || is_null s1 || is_null s2 then ret (ALLOC_FAILED, o)
        else
          let n1 := Z.to_nat nd1 in
          let n2 := Z.to_nat nd2 in
          let* size1 := aset (replicate n1 0) (nd1 - 1) (to_int x) in
          let* size2 := aset (replicate n2 0) (nd2 - 2) (to_int y) in
          let step1 := replicate n1 1 in
          let step2 := replicate n2 1 in
          let* nvec1 := size_to_dim (nd1 - 1) dims1 nd1 in
          let* all2 := size_of_dims dims2 nd2 in
          let* nvec2 := div64 all2 y in
          let* out_data := tensor_data o in
          let* odt := tensor_dtype o in
          let data_size := d_size odt in
          let* c := iter_ret (Z.to_nat nvec1) 0 (fun v1 '(idx1, idx2) =>
              let* (s, vec1) := aitisa_slice t1 idx1 size1 step1 HUndef in
              if negb (bool_decide (s = SUCCESS)) then ret (Return s)
              else
                let* c := iter_ret (Z.to_nat nvec2) 0 (fun v2 idx2 =>
                    let* (s, vec2) := aitisa_slice t2 idx2 size2 step2 HUndef in
                    if negb (bool_decide (s = SUCCESS)) then ret (Return s)
                    else
                      let* (s, result) := vector_vector_dot vec1 vec2 HUndef in
                      if negb (bool_decide (s = SUCCESS)) then ret (Return s)
                      else
                        let* rdata := tensor_data result in
                        let* k := ck64 (v1 * nvec2 + v2) in
                        let* off := ck64 (k * data_size) in
                        memcpy out_data off rdata 0 data_size ;;;
                        let* idx2 := dot_advance n2 (nd2 - 2) dims2 idx2 in
                        let* _ := aitisa_destroy vec2 in
                        let* _ := aitisa_destroy result in
                        check (v2 <? INT_MAX) UB_overflow ;;;
                        ret (Next idx2)) idx2 in
                match c with
                | Return s => ret (Return s)
                | Next idx2 =>
                    let* idx1 := dot_advance (n1 - 1) (-1) dims1 idx1 in
                    let* _ := aitisa_destroy vec1 in
                    check (v1 <? INT_MAX) UB_overflow ;;;
                    ret (Next (idx1, idx2))
                end) (replicate n1 0, replicate n2 0) in
          match c with
          | Return s => ret (s, o)
          | Next _ =>
              raw_dealloc i1 ;;; raw_dealloc z1 ;;; raw_dealloc s1 ;;;
              raw_dealloc i2 ;;; raw_dealloc z2 ;;; raw_dealloc s2 ;;;
              ret (SUCCESS, o)
          end.

(** aitisa_dot, src/math/dot.c:299-333 *)
Definition aitisa_dot (t1 t2 o : hval) : M (status * hval) :=
  let* dev1 := tensor_device t1 in
  let* dev2 := tensor_device t2 in
  if not_cpu dev1 dev2 then ret (NOT_SUPPORTED, o)
  else
    let* dt1 := tensor_dtype t1 in
    let* dt2 := tensor_dtype t2 in
    if negb (d_code dt1 =? d_code dt2) then ret (NOT_SUPPORTED, o)
    else
      let* nd1 := tensor_ndim t1 in
      let* nd2 := tensor_ndim t2 in
      if (nd1 =? 1) && (nd2 =? 1) then vector_vector_dot t1 t2 o
      else if (nd1 =? 2) && (nd2 =? 2) then aitisa_matmul t1 t2 o
      else if (nd1 =? 0) || (nd2 =? 0) then scalar_tensor_mul t1 t2 o
      else if nd2 =? 1 then tensor_vector_dot t1 t2 o
      else if (2 <? nd1) && (2 <? nd2) then multidim_dot t1 t2 o
      else ret (INVALID_ARGUMENT, o).
