(** * ModelCore: src/core

    Conventions: an output parameter [Tensor *output] is modelled as an extra
    argument [o : hval] (the variable's old content) and returned as the second
    component of the result.  Arrays passed by the caller are lists (the array's
    content); reading past their end is undefined behaviour. *)
From stdpp Require Import gmap list.
From Coq Require Import ZArith Floats.SpecFloat.
From Verif Require Import Base Mem.
Open Scope Z_scope.

(** ** src/core/utils.h *)

(** size_of_dims, src/core/utils.h:9-15 (the [int] parameter truncates). *)
Definition size_of_dims (dims : list Z) (ndim : Z) : M Z :=
  for64 0 (to_int ndim) (fun i r => let* d := aget dims i in ck64 (r * d)) 1.

(** size_from_dim, src/core/utils.h:20-26 *)
Definition size_from_dim (k : Z) (dims : list Z) (ndim : Z) : M Z :=
  for64 k (to_int ndim) (fun i r => let* d := aget dims i in ck64 (r * d)) 1.

(** size_to_dim, src/core/utils.h:31-37 (int loop counter) *)
Definition size_to_dim (k : Z) (dims : list Z) (ndim : Z) : M Z :=
  for32 0 k (fun i r => let* d := aget dims i in ck64 (r * d)) 1.

(** size_between_dim, src/core/utils.h:42-54 *)
Definition size_between_dim (k l : Z) (dims : list Z) (ndim : Z) : M Z :=
  if k <? l
  then for32 (to_int (k + 1)) l (fun i r => let* d := aget dims i in ck64 (r * d)) 1
  else for32 (to_int (l + 1)) k (fun i r => let* d := aget dims i in ck64 (r * d)) 1.

(** ** src/core/shape.c *)

Definition LAYOUT_DENSE : Z := 0.

(** Storing the entries [l] computed by a loop into the freshly allocated
    int64_t array [p] of [cap] bytes. *)
Definition fill_ints (p : hval) (cap : Z) (l : list Z) : M unit :=
  match l with
  | [] => ret tt
  | _ => check (8 * Z.of_nat (length l) <=? cap) UB_oob ;;; set_content p (CInts l)
  end.

(** aitisa_create_default_layout, src/core/shape.c:5-20.  Returns the status and
    the new layout->min2maj; the entry loop 16-18 computes ndim-1-i. *)
Definition create_default_layout (ltype ndim : Z) : M (status * hval) :=
  if negb (ltype =? LAYOUT_DENSE) then ret (NOT_SUPPORTED, HUndef)
  else
    let* p := if ndim =? 0 then ret HNull
              else raw_alloc (8 * ndim) (fun _ => CInts []) in
    if negb (ndim =? 0) && is_null p then ret (ALLOC_FAILED, HNull)
    else
      let* l := for64 0 ndim (fun i acc => ret (acc ++ [ndim - 1 - i])) [] in
      fill_ints p (to_size (8 * ndim)) l ;;;
      ret (SUCCESS, p).

(** aitisa_create_shape, src/core/shape.c:31-46.  Returns the status, the new
    shape->dims and shape->layout.min2maj. *)
Definition create_shape (ltype : Z) (dims : list Z) (ndim : Z)
  : M (status * hval * hval) :=
  let* p := if ndim =? 0 then ret HNull
            else raw_alloc (8 * ndim) (fun _ => CInts []) in
  if negb (ndim =? 0) && is_null p then ret (ALLOC_FAILED, HNull, HUndef)
  else
    let* l := for64 0 ndim (fun i acc => let* d := aget dims i in ret (acc ++ [d])) [] in
    fill_ints p (to_size (8 * ndim)) l ;;;
    let* (s, m) := create_default_layout ltype ndim in
    ret (s, p, m).

(** aitisa_destroy_layout, src/core/shape.c:22-29 *)
Definition destroy_layout (min2maj : hval) : M unit :=
  if is_null min2maj then ret tt else raw_dealloc min2maj.

(** aitisa_destroy_shape, src/core/shape.c:48-56 *)
Definition destroy_shape (dims min2maj : hval) : M unit :=
  (if is_null dims then ret tt else raw_dealloc dims) ;;;
  destroy_layout min2maj.

(** ** src/core/storage.c *)

(** aitisa_create_storage, src/core/storage.c:4-24.  [data] is NULL or the
    caller's buffer.  dtype.size * size is computed in int64_t. *)
Definition create_storage (dt : dtype) (dev : device) (size : Z) (data : hval)
  : M (status * hval) :=
  let* p := raw_alloc 32 CRaw in
  if is_null p then ret (ALLOC_FAILED, HUndef)
  else
    let* d := if is_null data
              then let* n := ck64 (d_size dt * size) in
                   raw_alloc n (fun n => CData (replicate (Z.to_nat n) MU))
              else ret data in
    if is_null d then ret (ALLOC_FAILED, HUndef)
    else
      set_content p (CStorage (SI dt dev size d)) ;;;
      ret (SUCCESS, p).

(** aitisa_destroy_storage, src/core/storage.c:26-37 *)
Definition destroy_storage (storage : hval) : M unit :=
  if is_null storage then ret tt
  else
    let* s := get_simpl storage in
    (if is_null (s_data s) then ret tt else raw_dealloc (s_data s)) ;;;
    raw_dealloc storage.

(** ** src/core/tensor.h accessors *)

(** aitisa_tensor_ndim, src/core/tensor.h:38-40 *)
Definition tensor_ndim (t : hval) : M Z := let* i := get_timpl t in ret (t_ndim i).

(** Content of an int64_t array pointer; NULL stands for the empty array (any
    access to it is then out of bounds). *)
Definition int_array (p : hval) : M (list Z) :=
  if is_null p then ret [] else get_ints p.

(** aitisa_tensor_dims, src/core/tensor.h:52-54 (content of the array) *)
Definition tensor_dims (t : hval) : M (list Z) :=
  let* i := get_timpl t in int_array (t_dims i).

(** aitisa_tensor_shape(t).layout.min2maj, src/core/tensor.h:66-68 *)
Definition tensor_min2maj (t : hval) : M (list Z) :=
  let* i := get_timpl t in int_array (t_min2maj i).

(** aitisa_tensor_dim, src/core/tensor.h:45-47 *)
Definition tensor_dim (t : hval) (d : Z) : M Z :=
  let* l := tensor_dims t in aget l d.

(** aitisa_tensor_size, src/core/tensor.h:59-61 *)
Definition tensor_size (t : hval) : M Z := let* i := get_timpl t in ret (t_size i).

(** t->storage->... *)
Definition tensor_storage (t : hval) : M simpl :=
  let* i := get_timpl t in get_simpl (t_storage i).

(** aitisa_tensor_data_type, src/core/tensor.h:87-89 *)
Definition tensor_dtype (t : hval) : M dtype :=
  let* s := tensor_storage t in ret (s_dtype s).

(** aitisa_tensor_data, src/core/tensor.h:95-97 *)
Definition tensor_data (t : hval) : M hval :=
  let* s := tensor_storage t in ret (s_data s).

(** aitisa_tensor_device, src/core/tensor.h:102-104 *)
Definition tensor_device (t : hval) : M device :=
  let* s := tensor_storage t in ret (s_device s).

(** aitisa_tensor_set_item, src/core/tensor.h:109-115; [bs] are the bytes of the
    object that [value] points to. *)
Definition aitisa_tensor_set_item (t : hval) (idx : Z) (bs : list mv) : M unit :=
  let* data := tensor_data t in
  let* dt := tensor_dtype t in
  let* off := ck64 (idx * d_size dt) in
  if d_size dt =? 0 then ret tt
  else
    check (d_size dt <=? Z.of_nat (length bs)) UB_oob ;;;
    store_bytes data off (take (Z.to_nat (d_size dt)) bs).

(** ** src/core/tensor.c *)

(** aitisa_create, src/core/tensor.c:6-21.  [sizeof( *tensor)] is 56.  The header
    is published (turned from raw bytes into a tensor block) at the end; on every
    error path the blocks allocated so far stay allocated and *output is not
    written. *)
Definition aitisa_create (dt : dtype) (dev : device) (dims : list Z) (ndim : Z)
    (data : hval) (len : Z) (o : hval) : M (status * hval) :=
  let* t := raw_alloc 56 CRaw in
  if is_null t then ret (ALLOC_FAILED, o)
  else
    let* size := size_of_dims dims ndim in
    let* bad := if is_null data then ret false
                else check (negb (d_size dt =? 0)) UB_divzero ;;;
                     ret (negb (len / d_size dt =? size)) in
    if bad then ret (INVALID_ARGUMENT, o)
    else
      let* (s, pd, pm) := create_shape LAYOUT_DENSE dims ndim in
      if negb (bool_decide (s = SUCCESS)) then ret (s, o)
      else
        let* (s, st) := create_storage dt dev size data in
        if negb (bool_decide (s = SUCCESS)) then ret (s, o)
        else
          set_content t (CTensor (TI size 0 ndim pd LAYOUT_DENSE pm st)) ;;;
          ret (SUCCESS, t).

(** aitisa_destroy, src/core/tensor.c:23-30.  The argument is the content of the
    caller's variable, the result its new content. *)
Definition aitisa_destroy (v : hval) : M (status * hval) :=
  if is_null v then ret (SUCCESS, v)
  else
    let* i := get_timpl v in
    destroy_shape (t_dims i) (t_min2maj i) ;;;
    destroy_storage (t_storage i) ;;;
    raw_dealloc v ;;;
    ret (SUCCESS, HNull).

(** What aitisa_resolve writes through its out parameters. *)
Record resolved := Resolved {
  r_dtype : dtype; r_device : device; r_dims : hval; r_ndim : Z;
  r_data : hval; r_len : Z }.

(** aitisa_resolve, src/core/tensor.c:32-42: there is no return statement, the
    caller sees garbage. *)
Definition aitisa_resolve (t : hval) : M (status * resolved) :=
  let* i := get_timpl t in
  let* s := get_simpl (t_storage i) in
  let* n := ck64 (t_size i * d_size (s_dtype s)) in
  let* g := ask (fun E => e_garbage E 0%nat) in
  ret (g, Resolved (s_dtype s) (s_device s) (t_dims i) (t_ndim i)
             (s_data s) (n mod UINT32_MOD)).

(** ** src/core/types.c: typed access through function tables *)

(** Indexing a table of TYPE_NTYPES function pointers, src/core/types.c:173-191
    and src/math/binary_op.c:200-202. *)
Definition type_table (dt : dtype) : M tcode := opt (tc_of (d_code dt)) UB_oob.

(** castto_<type>_value(&value, &value), src/core/types.c:80-95, called in place
    on a local double by src/basic/factories.c:9: the first bytes of the local
    become the converted value.  Returns the 8 bytes of the local. *)
Definition castto_in_place (dt : dtype) (d : spec_float) : M (list mv) :=
  let* t := type_table dt in
  let* v := opt (of_double t d) UB_fconv in
  ret (encode t v ++ drop (tsz t) (encode F64 (VF d))).

(** ** src/core/dispatch.h *)

(** AITISA_DISPATCH_ALL_TYPES_RETURN, src/core/dispatch.h:31-45 *)
Definition dispatch_all {A} (dt : dtype) (k : tcode -> M A) (dflt : M A) : M A :=
  match tc_of (d_code dt) with Some t => k t | None => dflt end.

(** AITISA_DISPATCH_FLOATING_TYPES_RETURN, src/core/dispatch.h:57-63 *)
Definition dispatch_float {A} (dt : dtype) (k : tcode -> M A) (dflt : M A) : M A :=
  match tc_of (d_code dt) with
  | Some t => if is_float t then k t else dflt
  | None => dflt
  end.
