(** * ModelBasic: src/basic *)
From stdpp Require Import gmap list.
From Coq Require Import ZArith Floats.SpecFloat.
From Verif Require Import Base Mem ModelCore.
Open Scope Z_scope.

(** ** src/basic/index_utils.c *)

(** aitisa_get_stride, src/basic/index_utils.c:4-17 *)
Definition aitisa_get_stride (t : hval) (dimension : Z) : M Z :=
  let* ndim := tensor_ndim t in
  let* dims := tensor_dims t in
  let* min2maj := tensor_min2maj t in
  let* c := iter_ret (Z.to_nat ndim) 0 (fun d stride =>
      let* dim := aget min2maj d in
      if dim =? dimension then ret (Return stride)
      else let* x := aget dims dim in
           let* stride := ck64 (stride * x) in
           ret (Next stride)) 1 in
  match c with Next s => ret s | Return s => ret s end.

(** aitisa_get_all_strides, src/basic/index_utils.c:19-29; [strides] is the
    caller's array, the result its new content. *)
Definition aitisa_get_all_strides (t : hval) (strides : list Z) : M (list Z) :=
  let* ndim := tensor_ndim t in
  let* dims := tensor_dims t in
  let* min2maj := tensor_min2maj t in
  let* (strides, _) := for32 0 ndim (fun d '(strides, stride) =>
      let* dim := aget min2maj d in
      let* strides := aset strides dim stride in
      let* x := aget dims dim in
      let* stride := ck64 (stride * x) in
      ret (strides, stride)) (strides, 1) in
  ret strides.

(** The argument assertions shared by coords_to_linidx and coords_to_offset,
    src/basic/index_utils.c:35-39 and 70-74 *)
Definition assert_coords (ndim : Z) (dims coords : list Z) (len : Z) : M unit :=
  assert_ (len =? ndim) ;;;
  for64 0 ndim (fun i _ =>
    let* c := aget coords i in
    assert_ (0 <=? c) ;;;
    let* d := aget dims i in
    assert_ (c <? d)) tt.

(** aitisa_coords_to_linidx, src/basic/index_utils.c:31-48 *)
Definition aitisa_coords_to_linidx (t : hval) (coords : list Z) (len : Z) : M Z :=
  let* ndim := tensor_ndim t in
  let* dims := tensor_dims t in
  assert_coords ndim dims coords len ;;;
  let* (linidx, _) := iter_down (Z.to_nat ndim) (fun d '(linidx, scale) =>
      let* c := aget coords d in
      let* m := ck64 (scale * c) in
      let* linidx := ck64 (linidx + m) in
      let* x := aget dims d in
      let* scale := ck64 (scale * x) in
      ret (linidx, scale)) (0, 1) in
  ret linidx.

(** aitisa_linidx_to_coords, src/basic/index_utils.c:50-63 *)
Definition aitisa_linidx_to_coords (t : hval) (linidx : Z) (coords : list Z)
  : M (list Z) :=
  let* size := tensor_size t in
  let* ndim := tensor_ndim t in
  let* dims := tensor_dims t in
  assert_ (0 <=? linidx) ;;;
  assert_ (linidx <? size) ;;;
  let* (coords, _) := iter_down (Z.to_nat ndim) (fun d '(coords, divisor) =>
      let* x := aget dims d in
      let* q := div64 linidx divisor in
      let* r := rem64 q x in
      let* coords := aset coords d r in
      let* divisor := ck64 (divisor * x) in
      ret (coords, divisor)) (coords, 1) in
  ret coords.

(** aitisa_coords_to_offset, src/basic/index_utils.c:65-92 *)
Definition aitisa_coords_to_offset (t : hval) (coords : list Z) (len : Z) : M Z :=
  let* ndim := tensor_ndim t in
  let* dims := tensor_dims t in
  let* min2maj := tensor_min2maj t in
  assert_coords ndim dims coords len ;;;
  let* (offset, _, _) := for64 0 ndim (fun d '(offset, scale, first) =>
      let* dim := aget min2maj d in
      let* c := aget coords dim in
      let* x := aget dims dim in
      if (first : bool) then ret (c, x, false)
      else
        let* m := ck64 (scale * c) in
        let* offset := ck64 (offset + m) in
        let* scale := ck64 (scale * x) in
        ret (offset, scale, false)) (0, 1, true) in
  ret offset.

(** aitisa_offset_to_coords, src/basic/index_utils.c:94-109 *)
Definition aitisa_offset_to_coords (t : hval) (offset : Z) (coords : list Z)
  : M (list Z) :=
  let* size := tensor_size t in
  let* ndim := tensor_ndim t in
  let* dims := tensor_dims t in
  let* min2maj := tensor_min2maj t in
  assert_ (0 <=? offset) ;;;
  assert_ (offset <? size) ;;;
  let* (coords, _) := for64 0 ndim (fun d '(coords, divisor) =>
      let* dim := aget min2maj d in
      let* x := aget dims dim in
      let* q := div64 offset divisor in
      let* r := rem64 q x in
      let* coords := aset coords dim r in
      let* divisor := ck64 (divisor * x) in
      ret (coords, divisor)) (coords, 1) in
  ret coords.

(** ** src/basic/broadcast.c *)

(** aitisa_broadcast_array, src/basic/broadcast.c:6-30.  [out] is the caller's
    output array (possibly uninitialised); the result is its new content. *)
Definition aitisa_broadcast_array (d1 : list Z) (n1 : Z) (d2 : list Z) (n2 : Z)
    (out : list (option Z)) (nout : Z) : M (status * list (option Z)) :=
  let* c := iter_ret (Z.to_nat (Z.min n1 n2)) 0 (fun i out =>
      let* a := aget d1 (n1 - i - 1) in
      let* b := aget d2 (n2 - i - 1) in
      if (a =? 1) || (b =? 1) || (a =? b)
      then let* out := aset out (nout - i - 1) (Some (if b <? a then a else b)) in
           ret (Next out)
      else ret (Return (DIMENSIONS_MISMATCH, out))) out in
  match c with
  | Return r => ret r
  | Next out =>
      let i0 := Z.max 0 (Z.min n1 n2) in
      let* out := for64 i0 n1 (fun i out =>
          let* a := aget d1 (n1 - i - 1) in aset out (nout - i - 1) (Some a)) out in
      let i1 := Z.max i0 n1 in
      let* out := for64 i1 n2 (fun i out =>
          let* b := aget d2 (n2 - i - 1) in aset out (nout - i - 1) (Some b)) out in
      ret (SUCCESS, out)
  end.

(** ** src/basic/cast.c *)

(** cast_kernel, src/basic/cast.c:4-9 *)
Definition cast_kernel (t2 t1 : tcode) (ind outd : hval) (size : Z) : M unit :=
  for64 0 size (fun i _ =>
    let* v := loadi ind t1 i in
    let* w := opt (cast_val t1 t2 v) UB_fconv in
    storei outd t2 i w) tt.

(** cast_template, src/basic/cast.c:11-72 *)
Definition cast_template (input : hval) (out_dt : dtype) (o : hval) : M status :=
  let* in_dt := tensor_dtype input in
  let* size := tensor_size input in
  let* ind := tensor_data input in
  let* outd := tensor_data o in
  dispatch_all in_dt (fun t1 =>
    dispatch_all out_dt (fun t2 =>
      cast_kernel t2 t1 ind outd size ;;; ret SUCCESS) (ret NOT_SUPPORTED))
    (ret NOT_SUPPORTED).

(** aitisa_cast, src/basic/cast.c:74-94 *)
Definition aitisa_cast (input : hval) (dt : dtype) (o : hval) : M (status * hval) :=
  let* in_dt := tensor_dtype input in
  if d_code in_dt =? d_code dt then ret (SUCCESS, o)
  else
    let* dev := tensor_device input in
    let* dims := tensor_dims input in
    let* ndim := tensor_ndim input in
    let* (s, new) := aitisa_create dt dev dims ndim HNull 0 HUndef in
    if negb (bool_decide (s = SUCCESS)) then ret (s, o)
    else
      let* s := cast_template input dt new in
      ret (s, new).

(** ** src/basic/factories.c *)

(** aitisa_full, src/basic/factories.c:3-15 *)
Definition aitisa_full (dt : dtype) (dev : device) (dims : list Z) (ndim : Z)
    (value : spec_float) (o : hval) : M (status * hval) :=
  let* (s, new) := aitisa_create dt dev dims ndim HNull 0 HUndef in
  if negb (bool_decide (s = SUCCESS)) then ret (s, o)
  else
    let* size := tensor_size new in
    let* bs := castto_in_place dt value in
    for32 0 size (fun i _ => aitisa_tensor_set_item new i bs) tt ;;;
    ret (SUCCESS, new).

(** ** src/basic/reshape.c *)

(** aitisa_reshape, src/basic/reshape.c:4-27 *)
Definition aitisa_reshape (input : hval) (dims : list Z) (ndim : Z) (o : hval)
  : M (status * hval) :=
  let* in_size := tensor_size input in
  let* out_size := size_of_dims dims ndim in
  if negb (in_size =? out_size) then ret (DIMENSIONS_MISMATCH, o)
  else
    let* dev := tensor_device input in
    let* dt := tensor_dtype input in
    let* (s, new) := aitisa_create dt dev dims ndim HNull 0 HUndef in
    if negb (bool_decide (s = SUCCESS)) then ret (s, o)
    else
      let* ind := tensor_data input in
      let* outd := tensor_data new in
      let* n := ck64 (out_size * d_size dt) in
      memcpy outd 0 ind 0 n ;;;
      ret (SUCCESS, new).

(** ** src/basic/squeeze.c *)

(** aitisa_squeeze, src/basic/squeeze.c:5-61.  [axis] is the caller's array.
    processed_in_dims and out_dims are scratch arrays kept as lists; out_dims is
    read completely by aitisa_reshape's first step (src/basic/reshape.c:8), so
    its entries are forced there. *)
Definition aitisa_squeeze (input : hval) (axis : list Z) (num_axis : Z) (o : hval)
  : M (status * hval) :=
  let* in_dims := tensor_dims input in
  let* in_ndim := tensor_ndim input in
  if num_axis <? 0 then ret (INVALID_ARGUMENT, o)
  else
    let* c := iter_ret (Z.to_nat num_axis) 0 (fun i _ =>
        let* a := aget axis i in
        if a <? 0 then ret (Return INVALID_ARGUMENT) else ret (Next tt)) tt in
    match c with
    | Return s => ret (s, o)
    | Next _ =>
        let* p1 := scratch (8 * in_ndim) in
        if is_null p1 then ret (ALLOC_FAILED, o)
        else
          let* proc := for64 0 in_ndim (fun i acc =>
              let* d := aget in_dims i in ret (acc ++ [d])) [] in
          let* (proc, out_ndim) :=
            if num_axis =? 0 then
              for64 0 in_ndim (fun i '(proc, n) =>
                let* d := aget in_dims i in
                if d =? 1 then let* proc := aset proc i 0 in ret (proc, n - 1)
                else ret (proc, n)) (proc, in_ndim)
            else
              for64 0 num_axis (fun i '(proc, n) =>
                let* a := aget axis i in
                let* d := aget in_dims a in
                if d =? 1 then let* proc := aset proc a 0 in ret (proc, n - 1)
                else ret (proc, n)) (proc, in_ndim) in
          let* p2 := scratch (8 * out_ndim) in
          if is_null p2 then ret (ALLOC_FAILED, o)
          else
            let* (out_dims, _) := for64 0 in_ndim (fun i '(out_dims, j) =>
                let* d := aget proc i in
                if d =? 0 then ret (out_dims, j)
                else let* out_dims := aset out_dims j (Some d) in
                     ret (out_dims, j + 1))
                (arr p2 out_ndim, 0) in
            let* out_dims := force_array out_dims in
            let* (s, o) := aitisa_reshape input out_dims out_ndim o in
            raw_dealloc p1 ;;;
            raw_dealloc p2 ;;;
            ret (s, o)
    end.

(** ** src/basic/slice.c *)

(** (int)ceil((double)size / (double)step), src/basic/slice.c:20 *)
Definition slice_extent (size step : Z) : M Z :=
  let* z := opt (flt_trunc (dbl_ceil (ddiv (dbl_of_Z size) (dbl_of_Z step)))) UB_fconv in
  check ((INT_MIN <=? z) && (z <=? INT_MAX)) UB_fconv ;;; ret z.

(** slice_create_output, src/basic/slice.c:9-48.  out_dims is not tested for
    NULL; when creation fails, *output receives the indeterminate local. *)
Definition slice_create_output (input : hval) (begin size step : list Z) (o : hval)
  : M (status * hval) :=
  let* in_ndim := tensor_ndim input in
  let* p1 := scratch (4 * in_ndim) in
  if is_null p1 then ret (ALLOC_FAILED, o)
  else
    let* (temp, out_ndim) := for32 0 in_ndim (fun i '(temp, n) =>
        let* s := aget size i in
        let* st := aget step i in
        let* e := slice_extent s st in
        ret (temp ++ [e], if 0 <? e then n + 1 else n)) ([], 0) in
    let* p2 := scratch (8 * out_ndim) in
    let* (out_dims, _) := for32 0 in_ndim (fun i '(out_dims, last) =>
        let* e := aget temp i in
        if 0 <? e then
          let* out_dims := aset out_dims last (Some e) in
          ret (out_dims, last + 1)
        else ret (out_dims, last)) (arr p2 out_ndim, 0) in
    raw_dealloc p1 ;;;
    let* dt := tensor_dtype input in
    let* dev := tensor_device input in
    let* out_dims := force_array out_dims in
    let* (s, new) := aitisa_create dt dev out_dims out_ndim HNull 0 HUndef in
    raw_dealloc p2 ;;;
    ret (s, new).

(** slice_check_parameters, src/basic/slice.c:50-63; begin[i] + size[i] is an
    int addition. *)
Definition slice_check_parameters (input : hval) (begin size step : list Z)
  : M status :=
  let* in_ndim := tensor_ndim input in
  let* in_dims := tensor_dims input in
  let* c := iter_ret (Z.to_nat in_ndim) 0 (fun i _ =>
      let* b := aget begin i in
      let* d := aget in_dims i in
      let* s := aget size i in
      let* cond_size := if s <? 0 then ret true
                        else let* e := ck32 (b + s) in ret (d <? e) in
      let* st := aget step i in
      let cond_begin := (b <? 0) || (d <=? b) in
      let cond_step := st <? 1 in
      if cond_begin || cond_size || cond_step then ret (Return INVALID_ARGUMENT)
      else ret (Next tt)) tt in
  match c with Return s => ret s | Next _ => ret SUCCESS end.

(** The update of index_recorder at the end of the kernel,
    src/basic/slice.c:78-86 *)
Definition slice_advance (in_ndim : Z) (begin step boundary idx : list Z)
  : M (list Z) :=
  iter_down_break (Z.to_nat in_ndim) (fun i idx =>
    let* x := aget idx i in
    let* st := aget step i in
    let* x := ck64 (x + st) in
    let* bd := aget boundary i in
    if bd <? x
    then let* b := aget begin i in let* idx := aset idx i b in ret (idx, true)
    else let* idx := aset idx i x in ret (idx, false)) idx.

(** slice_kernel, src/basic/slice.c:65-87 *)
Definition slice_kernel (t : tcode) (input o : hval) (in_ndim : Z)
    (begin step idx0 boundary offs : list Z) : M unit :=
  let* ind := tensor_data input in
  let* outd := tensor_data o in
  let* out_size := tensor_size o in
  let* _ := for32 0 out_size (fun k idx =>
      let* lin := for32 0 in_ndim (fun i lin =>
          let* x := aget idx i in
          let* f := aget offs i in
          let* m := ck64 (x * f) in
          ck64 (lin + m)) 0 in
      let* v := loadi ind t lin in
      storei outd t k v ;;;
      slice_advance in_ndim begin step boundary idx) idx0 in
  ret tt.

(** slice_template, src/basic/slice.c:89-123 *)
Definition slice_template (input : hval) (begin size step : list Z) (o : hval)
  : M status :=
  let* in_ndim := tensor_ndim input in
  let* in_dims := tensor_dims input in
  let* p1 := scratch (8 * in_ndim) in
  let* p2 := scratch (8 * in_ndim) in
  let* p3 := scratch (8 * in_ndim) in
  if is_null p1 || is_null p2 || is_null p3 then ret ALLOC_FAILED
  else
    let* (idx, boundary) := for32 0 in_ndim (fun i '(idx, boundary) =>
        let* b := aget begin i in
        let* s := aget size i in
        let* e := ck64 (b + s - 1) in
        ret (idx ++ [b], boundary ++ [e])) ([], []) in
    let* offs := aset (arr p3 in_ndim) (in_ndim - 1) (Some 1) in
    let* offs := iter_down (Z.to_nat (in_ndim - 1)) (fun i offs =>
        let* f := uget offs (i + 1) in
        let* d := aget in_dims (i + 1) in
        let* m := ck64 (f * d) in
        aset offs i (Some m)) offs in
    let* offs := force_array offs in
    let* dt := tensor_dtype input in
    dispatch_all dt (fun t =>
      slice_kernel t input o in_ndim begin step idx boundary offs ;;;
      raw_dealloc p1 ;;; raw_dealloc p2 ;;; raw_dealloc p3 ;;;
      ret SUCCESS) (ret NOT_SUPPORTED).

(** aitisa_slice, src/basic/slice.c:125-135 *)
Definition aitisa_slice (input : hval) (begin size step : list Z) (o : hval)
  : M (status * hval) :=
  let* s := slice_check_parameters input begin size step in
  if negb (bool_decide (s = SUCCESS)) then ret (s, o)
  else
    let* (s, o) := slice_create_output input begin size step o in
    if negb (bool_decide (s = SUCCESS)) then ret (s, o)
    else
      let* s := slice_template input begin size step o in
      ret (s, o).

(** ** src/basic/duplicate.c *)

(** aitisa_duplicate, src/basic/duplicate.c:5-28; (int)(dims[i]) truncates. *)
Definition aitisa_duplicate (input : hval) (o : hval) : M (status * hval) :=
  let* dims := tensor_dims input in
  let* nd := tensor_ndim input in
  let ndim := to_int nd in
  let* p1 := scratch (4 * ndim) in
  let* p2 := scratch (4 * ndim) in
  let* p3 := scratch (4 * ndim) in
  if is_null p1 || is_null p2 || is_null p3 then ret (ALLOC_FAILED, o)
  else
    let* (begin, size, step) := for64 0 ndim (fun i '(begin, size, step) =>
        let* d := aget dims i in
        ret (begin ++ [0], size ++ [to_int d], step ++ [1])) ([], [], []) in
    let* (s, new) := aitisa_slice input begin size step HUndef in
    let o' := if bool_decide (s = SUCCESS) then new else o in
    raw_dealloc p1 ;;; raw_dealloc p2 ;;; raw_dealloc p3 ;;;
    ret (s, o').
