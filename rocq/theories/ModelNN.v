(** * ModelNN: src/nn *)
From stdpp Require Import gmap list.
From Coq Require Import ZArith Floats.SpecFloat.
From Verif Require Import Base Mem ModelCore ModelBasic ModelMath.
Open Scope Z_scope.

(** CHECK_STATUS(m) inside a function that goes on with [k]
    (src/core/types.h: return the status unless it is STATUS_SUCCESS). *)
Definition try_ {A} (m : M (status * hval)) (k : hval -> M (ctl A status))
  : M (ctl A status) :=
  let* (s, h) := m in
  if negb (bool_decide (s = SUCCESS)) then ret (Return s) else k h.

(** while (cond) body, where the body may return from the enclosing function. *)
Fixpoint while_ret_fuel {S R} (n : nat) (body : S -> M (ctl (S * bool) R)) (s : S)
  : M (ctl S R) :=
  match n with
  | O => diverge
  | S n' =>
      let* c := body s in
      match c with
      | Return r => ret (Return r)
      | Next (s', go) => if (go : bool) then while_ret_fuel n' body s' else ret (Next s')
      end
  end.
Definition while_ret {S R} (body : S -> M (ctl (S * bool) R)) (s : S) : M (ctl S R) :=
  fun E x => while_ret_fuel (e_fuel E) body s E x.

(** for (uint32_t i = 0; i < n; i++) with an int64_t bound: beyond 2^32 - 1 the
    counter wraps and the condition stays true (modelled as divergence, even if
    a CHECK_STATUS in the body would leave such a loop earlier). *)
Definition ctl_u32 {S R} (n : Z) (body : Z -> S -> M (ctl S R)) (s : S) : M (ctl S R) :=
  if 2 ^ 32 <=? n then diverge else iter_ret (Z.to_nat n) 0 body s.

(** The creation of an output tensor like the input, src/nn/relu.c:17-25,
    src/nn/sigmoid.c:14-22, src/nn/tanh.c:15-23: *output is written only on
    success. *)
Definition nn_create_like (input o : hval) : M (status * hval) :=
  let* dims := tensor_dims input in
  let* ndim := tensor_ndim input in
  let* dt := tensor_dtype input in
  let* dev := tensor_device input in
  let* (s, new) := aitisa_create dt dev dims ndim HNull 0 HUndef in
  ret (s, if bool_decide (s = SUCCESS) then new else o).

(** The loop over all elements of the three kernels below: out[i] = f(in[i]). *)
Definition map_kernel (f : val -> M val) (t : tcode) (input o : hval) (size : Z)
  : M status :=
  let* ind := tensor_data input in
  let* outd := tensor_data o in
  for64 0 size (fun i _ =>
    let* v := loadi ind t i in
    let* w := f v in
    storei outd t i w) tt ;;;
  ret SUCCESS.

(** ** src/nn/relu.c *)

(** The body of relu_kernel, src/nn/relu.c:8-12 *)
Definition relu_elem (t : tcode) (v : val) : M val :=
  let* pos := opt (gt0_val t v) UB_uninit in
  if (pos : bool) then ret v else ret (zero_val t).

(** aitisa_relu, src/nn/relu.c:15-31 *)
Definition aitisa_relu (input o : hval) : M (status * hval) :=
  let* (s, o) := nn_create_like input o in
  if negb (bool_decide (s = SUCCESS)) then ret (s, o)
  else
    let* size := tensor_size input in
    let* dt := tensor_dtype input in
    let* s := dispatch_all dt (fun t => map_kernel (relu_elem t) t input o size)
                (ret NOT_SUPPORTED) in
    ret (s, o).

(** ** src/nn/sigmoid.c and src/nn/tanh.c *)

(** exp(x) where the argument [x] of type [t] converts to double. *)
Definition exp_of (t : tcode) (v : val) : M spec_float :=
  let* d := opt (to_double t v) UB_uninit in ask (fun E => e_exp E d).

(** -x for an [x] of floating type [t] *)
Definition neg_float (v : val) : val :=
  match v with VF f => VF (SFopp f) | _ => VU end.

(** The right-hand side at src/nn/sigmoid.c:9 *)
Definition sigmoid_elem (t : tcode) (v : val) : M val :=
  let* e := exp_of t (neg_float v) in
  opt (of_double t (ddiv done (dadd done e))) UB_fconv.

(** aitisa_sigmoid, src/nn/sigmoid.c:12-28 *)
Definition aitisa_sigmoid (input o : hval) : M (status * hval) :=
  let* (s, o) := nn_create_like input o in
  if negb (bool_decide (s = SUCCESS)) then ret (s, o)
  else
    let* size := tensor_size input in
    let* dt := tensor_dtype input in
    let* s := dispatch_float dt (fun t => map_kernel (sigmoid_elem t) t input o size)
                (ret NOT_SUPPORTED) in
    ret (s, o).

(** The right-hand side at src/nn/tanh.c:9-10 *)
Definition tanh_elem (t : tcode) (v : val) : M val :=
  let* a := exp_of t v in
  let* b := exp_of t (neg_float v) in
  let* c := exp_of t v in
  let* d := exp_of t (neg_float v) in
  opt (of_double t (ddiv (dsub a b) (dadd c d))) UB_fconv.

(** aitisa_tanh, src/nn/tanh.c:13-29 *)
Definition aitisa_tanh (input o : hval) : M (status * hval) :=
  let* (s, o) := nn_create_like input o in
  if negb (bool_decide (s = SUCCESS)) then ret (s, o)
  else
    let* size := tensor_size input in
    let* dt := tensor_dtype input in
    let* s := dispatch_float dt (fun t => map_kernel (tanh_elem t) t input o size)
                (ret NOT_SUPPORTED) in
    ret (s, o).

(** ** src/nn/dropout.c *)

(** rand() *)
Definition rand_ : M Z := fun E s =>
  Done (e_rand E (rpos s)) (St (heap s) (ctr s) (S (rpos s))).

(** dropout_kernel, src/nn/dropout.c:6-13 *)
Definition dropout_kernel (t : tcode) (tensor : hval) (size rate_line : Z) : M unit :=
  let* data := tensor_data tensor in
  for64 0 size (fun i _ =>
    let* r := rand_ in
    if Z.rem r 100 + 1 <=? rate_line then storei data t i (zero_val t) else ret tt) tt.

(** (int)x for a double [x] *)
Definition int_of_double (x : spec_float) : M Z :=
  let* z := opt (flt_trunc x) UB_fconv in
  check ((INT_MIN <=? z) && (z <=? INT_MAX)) UB_fconv ;;; ret z.

(** dropout_template, src/nn/dropout.c:15-24.  srand(time(NULL)) has no effect
    here because the results of rand() are arbitrary anyway. *)
Definition dropout_template (tensor : hval) (rate : spec_float) : M status :=
  let* size := tensor_size tensor in
  let* dt := tensor_dtype tensor in
  let* rate_line := int_of_double (dmul rate (dbl_of_Z 100)) in
  dispatch_all dt (fun t => dropout_kernel t tensor size rate_line ;;; ret SUCCESS)
    (ret NOT_SUPPORTED).

(** aitisa_dropout, src/nn/dropout.c:26-38 *)
Definition aitisa_dropout (input : hval) (rate : spec_float) (o : hval)
  : M (status * hval) :=
  if SFltb rate fzero || SFltb done rate then ret (INVALID_ARGUMENT, o)
  else
    let* (s, new) := aitisa_duplicate input HUndef in
    if negb (bool_decide (s = SUCCESS)) then ret (s, o)
    else
      let* s := dropout_template new rate in
      if negb (bool_decide (s = SUCCESS)) then ret (s, o) else ret (SUCCESS, new).

(** ** src/nn/softmax.c *)

(** softmax_create_output, src/nn/softmax.c:7-18: *output is overwritten even
    when the creation fails (with an uninitialised pointer). *)
Definition softmax_create_output (input o : hval) : M (status * hval) :=
  let* dims := tensor_dims input in
  let* ndim := tensor_ndim input in
  let* dt := tensor_dtype input in
  let* dev := tensor_device input in
  aitisa_create dt dev dims ndim HNull 0 HUndef.

(** The first pass over one lane, src/nn/softmax.c:26-29 and 59-67:
    exponentials at [start], [start + step], ..., and their sum in double. *)
Definition softmax_exps (t : tcode) (ind outd : hval) (start step n : Z)
  : M spec_float :=
  let* (total, _) := for64 0 n (fun _ '(total, pos) =>
      let* v := loadi ind t pos in
      let* e := exp_of t v in
      let* w := opt (of_double t e) UB_fconv in
      storei outd t pos w ;;;
      let* x := loadi outd t pos in
      let* d := opt (to_double t x) UB_uninit in
      let* pos := ck64 (pos + step) in
      ret (dadd total d, pos)) (fzero, start) in
  ret total.

(** The second pass, src/nn/softmax.c:31-33 and 69-74 *)
Definition softmax_norm (t : tcode) (outd : hval) (start step n : Z)
    (total : spec_float) : M unit :=
  for64 0 n (fun _ pos =>
      let* x := loadi outd t pos in
      let* d := opt (to_double t x) UB_uninit in
      let* w := opt (of_double t (ddiv d total)) UB_fconv in
      storei outd t pos w ;;;
      ck64 (pos + step)) start ;;;
  ret tt.

(** softmax_with_all, src/nn/softmax.c:20-40 *)
Definition softmax_with_all (input o : hval) : M status :=
  let* dt := tensor_dtype input in
  dispatch_all dt (fun t =>
    let* ind := tensor_data input in
    let* outd := tensor_data o in
    let* size := tensor_size input in
    let* total := softmax_exps t ind outd 0 1 size in
    softmax_norm t outd 0 1 size total ;;;
    ret SUCCESS) (ret NOT_SUPPORTED).

(** The update of index_recorder, src/nn/softmax.c:76-84 *)
Definition softmax_advance (n : nat) (axis : Z) (dims idx : list Z) : M (list Z) :=
  iter_down_break n (fun i idx =>
    if i =? axis then ret (idx, true)
    else
      let* x := aget idx i in
      let* x := ck64 (x + 1) in
      let* d := aget dims i in
      if x =? d then let* idx := aset idx i 0 in ret (idx, true)
      else let* idx := aset idx i x in ret (idx, false)) idx.

(** linear_idx += index[i] * offset[i] over all i, src/nn/softmax.c:50-54 and
    src/nn/batch_norm.c:94-97 *)
Definition lin_index (ndim : Z) (index offset : list Z) : M Z :=
  for64 0 ndim (fun i acc =>
    let* x := aget index i in
    let* y := aget offset i in
    let* p := ck64 (x * y) in
    ck64 (acc + p)) 0.

(** offset_recorder, src/nn/softmax.c:113-116 and src/nn/batch_norm.c:213-216.
    The array holds zeros before (never read). *)
Definition row_offsets (ndim : Z) (dims : list Z) : M (list Z) :=
  let* offs := aset (replicate (Z.to_nat ndim) 0) (ndim - 1) 1 in
  iter_down (Z.to_nat (ndim - 1)) (fun i offs =>
    let* d := aget dims (i + 1) in
    let* x := aget offs (i + 1) in
    let* p := ck64 (d * x) in
    aset offs i p) offs.

(** softmax_along_axis_kernel, src/nn/softmax.c:42-85 *)
Definition softmax_axis_kernel (t : tcode) (input o : hval) (ndim : Z)
    (dims : list Z) (axis batch element_offset : Z) (offs : list Z) : M unit :=
  let* ind := tensor_data input in
  let* outd := tensor_data o in
  let* _ := for64 0 batch (fun _ idx =>
      let* start := lin_index ndim idx offs in
      let* n := aget dims axis in
      let* total := softmax_exps t ind outd start element_offset n in
      softmax_norm t outd start element_offset n total ;;;
      softmax_advance (Z.to_nat ndim) axis dims idx)
    (replicate (Z.to_nat ndim) 0) in
  ret tt.

(** softmax_along_axis, src/nn/softmax.c:89-128 *)
Definition softmax_along_axis (input : hval) (axis : Z) (o : hval) : M status :=
  let* dims := tensor_dims input in
  let* ndim := tensor_ndim input in
  let* batch := for64 0 ndim (fun i r =>
      if i =? axis then ret r
      else let* d := aget dims i in ck64 (r * d)) 1 in
  let* p1 := scratch (8 * ndim) in
  let* p2 := scratch (8 * ndim) in
  if is_null p1 || is_null p2 then ret ALLOC_FAILED
  else
    let* offs := row_offsets ndim dims in
    let* element_offset := aget offs axis in
    let* dt := tensor_dtype input in
    let* s := dispatch_all dt (fun t =>
        softmax_axis_kernel t input o ndim dims axis batch element_offset offs ;;;
        ret SUCCESS) (ret NOT_SUPPORTED) in
    if negb (bool_decide (s = SUCCESS)) then ret s
    else raw_dealloc p1 ;;; raw_dealloc p2 ;;; ret SUCCESS.

(** aitisa_softmax, src/nn/softmax.c:130-151 *)
Definition aitisa_softmax (input : hval) (axis : Z) (o : hval) : M (status * hval) :=
  let* ndim := tensor_ndim input in
  if (axis <? -1) || (ndim - 1 <? axis) then ret (NOT_SUPPORTED, o)
  else
    let* (s, o) := softmax_create_output input o in
    if negb (bool_decide (s = SUCCESS)) then ret (s, o)
    else
      let* s := if axis =? -1 then softmax_with_all input o
                else softmax_along_axis input axis o in
      ret (s, o).

(** ** src/nn/pooling.c *)

(** The mode string, src/nn/pooling.c:8-11: "avg", "max" or anything else. *)
Inductive pmode := PAvg | PMax | POther.

(** pooling_create_output, src/nn/pooling.c:26-45, for the only caller's
    axis = 1 and c_start = 2; [out_dims] is the caller's scratch array, filled in
    order. *)
Definition pooling_extent (d k s p dil : Z) : M Z :=
  let* a := ck32 (k - 1) in
  let* b := ck32 (dil * a) in
  let temp := dsub (dadd (dbl_of_Z d) (dmul (dbl_of_Z 2) (dbl_of_Z p))) (dbl_of_Z b) in
  let q := dbl_floor (dadd (ddiv (dsub temp done) (dbl_of_Z s)) done) in
  let* z := opt (flt_trunc q) UB_fconv in
  check ((INT64_MIN <=? z) && (z <=? INT64_MAX)) UB_fconv ;;; ret z.

Definition pooling_create_output (input : hval) (ksize stride padding dilation : list Z)
    (o : hval) : M (status * hval) :=
  let* ndim := tensor_ndim input in
  let* in_dims := tensor_dims input in
  let* d0 := aget in_dims 0 in
  let* d1 := aget in_dims 1 in
  let* out_dims := for64 2 ndim (fun i acc =>
      let* d := aget in_dims i in
      let* k := aget ksize (i - 2) in
      let* s := aget stride (i - 2) in
      let* p := aget padding (i - 2) in
      let* dil := aget dilation (i - 2) in
      let* z := pooling_extent d k s p dil in
      ret (acc ++ [z])) [d0; d1] in
  let* dt := tensor_dtype input in
  let* dev := tensor_device input in
  aitisa_create dt dev out_dims ndim HNull 0 o.

(** head + (ksize - 1) * dilation, src/nn/pooling.c:102, 147 and 152 *)
Definition pool_tail (head k dil : Z) : M Z :=
  let* a := ck32 (k - 1) in
  let* b := ck32 (a * dil) in
  ck64 (head + b).

(** The linear index of the element at [index], or None if it is padding,
    src/nn/pooling.c:114-123.  [index], k_head and k_tail are kept without their
    first two entries, which are written but never read. *)
Definition pool_position (n : Z) (dims strides index : list Z) (bc : Z) : M (option Z) :=
  let* c := iter_ret (Z.to_nat n) 0 (fun j acc =>
      let* x := aget index j in
      let* d := aget dims (j + 2) in
      if (0 <=? x) && (x <? d) then
        let* s := aget strides (j + 2) in
        let* p := ck64 (x * s) in
        let* acc := ck64 (acc + p) in
        ret (Next acc)
      else ret (Return tt)) bc in
  match c with Next acc => ret (Some acc) | Return _ => ret None end.

(** pooling_kernel, src/nn/pooling.c:7-15 *)
Definition pool_kernel (mode : pmode) (t : tcode) (ind : hval) (pos : Z)
    (temp : spec_float) : M spec_float :=
  match mode with
  | PAvg =>
      let* v := loadi ind t pos in
      let* d := opt (to_double t v) UB_uninit in
      ret (dadd temp d)
  | PMax =>
      let* v := loadi ind t pos in
      let* d := opt (to_double t v) UB_uninit in
      ret (if SFltb temp d then d else temp)
  | POther => ret temp
  end.

(** pooling_output_element, src/nn/pooling.c:17-23 *)
Definition pool_output (mode : pmode) (t : tcode) (outd : hval) (pos : Z)
    (temp : spec_float) (window_size : Z) : M unit :=
  match mode with
  | PAvg =>
      let* w := opt (of_double t (ddiv temp (dbl_of_Z window_size))) UB_fconv in
      storei outd t pos w
  | PMax =>
      let* w := opt (of_double t temp) UB_fconv in
      storei outd t pos w
  | POther => ret tt
  end.

(** The update of index, src/nn/pooling.c:129-138; the flag is hasElement. *)
Definition pool_next (n : nat) (dilation head tail index : list Z)
  : M (list Z * bool) :=
  iter_down_break n (fun j '(index, has) =>
    let* x := aget index j in
    let* d := aget dilation j in
    let* x := ck64 (x + d) in
    let* t := aget tail j in
    if t <? x then
      let* h := aget head j in
      let* index := aset index j h in
      ret ((index, if j =? 0 then false else has), true)
    else
      let* index := aset index j x in
      ret ((index, has), false)) (index, true).

(** The update of k_head and k_tail, src/nn/pooling.c:145-156; the flag is
    hasWindow. *)
Definition pool_slide (n : nat) (dims ksize stride padding dilation : list Z)
    (head tail : list Z) : M (list Z * list Z * bool) :=
  iter_down_break n (fun j '(head, tail, has) =>
    let* h := aget head j in
    let* s := aget stride j in
    let* h := ck64 (h + s) in
    let* k := aget ksize j in
    let* dil := aget dilation j in
    let* t := pool_tail h k dil in
    let* p := aget padding j in
    let* d := aget dims (j + 2) in
    let* e := ck64 (p + d) in
    let* e := ck64 (e - 1) in
    if e <? t then
      let* h := ck32 (- p) in
      let* t := pool_tail h k dil in
      let* head := aset head j h in
      let* tail := aset tail j t in
      ret ((head, tail, if j =? 0 then false else has), true)
    else
      let* head := aset head j h in
      let* tail := aset tail j t in
      ret ((head, tail, has), false)) (head, tail, true).

(** The initial k_head and k_tail, src/nn/pooling.c:100-103 *)
Definition pool_init (n : Z) (ksize padding dilation : list Z) : M (list Z * list Z) :=
  for64 0 n (fun j '(head, tail) =>
    let* p := aget padding j in
    let* h := ck32 (0 - p) in
    let* k := aget ksize j in
    let* dil := aget dilation j in
    let* t := pool_tail h k dil in
    ret (head ++ [h], tail ++ [t])) ([], []).

(** One window: the loop over its elements, src/nn/pooling.c:107-139 *)
Definition pool_window (mode : pmode) (dt : dtype) (ind : hval) (n : Z)
    (dims strides dilation head tail : list Z) (bc : Z) : M (ctl spec_float status) :=
  let* c := while_ret (fun '(index, temp) =>
      let* pos := pool_position n dims strides index bc in
      let* c := match pos with
                | Some pos => dispatch_all dt
                    (fun t => let* x := pool_kernel mode t ind pos temp in ret (Next x))
                    (ret (Return NOT_SUPPORTED))
                | None => ret (Next temp)
                end in
      match c with
      | Return s => ret (Return s)
      | Next temp =>
          let* (index, go) := pool_next (Z.to_nat n) dilation head tail index in
          ret (Next ((index, temp), go))
      end) (head, fzero) in
  match c with
  | Return s => ret (Return s)
  | Next (_, temp) => ret (Next temp)
  end.

(** All the windows of one channel, src/nn/pooling.c:97-158 *)
Definition pool_channel (mode : pmode) (dt : dtype) (ind outd : hval) (n : Z)
    (dims strides out_strides ksize stride padding dilation : list Z)
    (window_size s c : Z) : M (ctl unit status) :=
  let* s0 := aget strides 0 in
  let* s1 := aget strides 1 in
  let* a := ck64 (s * s0) in
  let* b := ck64 (c * s1) in
  let* bc := ck64 (a + b) in
  let* s0 := aget out_strides 0 in
  let* s1 := aget out_strides 1 in
  let* a := ck64 (s * s0) in
  let* b := ck64 (c * s1) in
  let* obc := ck64 (a + b) in
  let* (head, tail) := pool_init n ksize padding dilation in
  let* r := while_ret (fun '(head, tail, widx) =>
      let* r := pool_window mode dt ind n dims strides dilation head tail bc in
      match r with
      | Return s => ret (Return s)
      | Next temp =>
          let* os := aget out_strides (n + 1) in
          let* m := ck64 (widx * os) in
          let* opos := ck64 (m + obc) in
          dispatch_all dt (fun t =>
            pool_output mode t outd opos temp window_size ;;;
            let* (head, tail, go) :=
              pool_slide (Z.to_nat n) dims ksize stride padding dilation head tail in
            let* widx := ck32 (widx + 1) in
            ret (Next ((head, tail, widx), go)))
            (ret (Return NOT_SUPPORTED))
      end) (head, tail, 0) in
  match r with Return s => ret (Return s) | Next _ => ret (Next tt) end.

(** pooling_double, src/nn/pooling.c:47-171, for axis = 1.  The six scratch
    arrays are used without a test for NULL; the contents of the two stride arrays
    before aitisa_get_all_strides are modelled as zeros. *)
Definition pooling_double (input : hval) (mode : pmode)
    (ksize stride padding dilation : list Z) (o : hval) : M (status * hval) :=
  let* ndim := tensor_ndim input in
  let* in_dims := tensor_dims input in
  let* p_dims := scratch (8 * ndim) in
  let* p_index := scratch (8 * ndim) in
  let* p_str := scratch (8 * ndim) in
  let* p_ostr := scratch (8 * ndim) in
  let* p_head := scratch (8 * ndim) in
  let* p_tail := scratch (8 * ndim) in
  let* c := iter_ret (Z.to_nat (ndim - 2)) 0 (fun i _ =>
      let* k := aget ksize i in
      let* dil := aget dilation i in
      let* a := ck32 (k - 1) in
      let* a := ck32 (a * dil) in
      let* a := ck32 (a + 1) in
      let* p := aget padding i in
      let* b := ck32 (2 * p) in
      let* d := aget in_dims (i + 2) in
      let* b := ck64 (b + d) in
      if b <? a then ret (Return INVALID_ARGUMENT) else ret (Next tt)) tt in
  match c with
  | Return s => ret (s, o)
  | Next _ =>
      touch p_dims ;;;
      let* (s, new) := pooling_create_output input ksize stride padding dilation HUndef in
      if negb (bool_decide (s = SUCCESS)) then ret (s, o)
      else
        let* window_size := for64 0 (ndim - 2) (fun i r =>
            let* k := aget ksize i in ck64 (r * k)) 1 in
        touch p_str ;;;
        let* strides := aitisa_get_all_strides input (replicate (Z.to_nat ndim) 0) in
        touch p_ostr ;;;
        let* out_strides := aitisa_get_all_strides new (replicate (Z.to_nat ndim) 0) in
        let* ind := tensor_data input in
        let* outd := tensor_data new in
        let* dt := tensor_dtype input in
        let* batch := aget in_dims 0 in
        let* channels := aget in_dims 1 in
        let* c := iter_ret (Z.to_nat batch) 0 (fun s _ =>
            touch p_index ;;; touch p_tail ;;; touch p_head ;;;
            iter_ret (Z.to_nat channels) 0 (fun c _ =>
              pool_channel mode dt ind outd (ndim - 2) in_dims strides out_strides
                ksize stride padding dilation window_size s c) tt) tt in
        match c with
        | Return s => ret (s, o)
        | Next _ =>
            raw_dealloc p_dims ;;; raw_dealloc p_index ;;; raw_dealloc p_head ;;;
            raw_dealloc p_tail ;;; raw_dealloc p_str ;;; raw_dealloc p_ostr ;;;
            ret (SUCCESS, new)
        end
  end.

(** aitisa_pooling, src/nn/pooling.c:173-187 *)
Definition aitisa_pooling (input : hval) (mode : pmode)
    (ksize stride padding dilation : list Z) (o : hval) : M (status * hval) :=
  let* ndim := tensor_ndim input in
  if (2 <? ndim) && (ndim <? 6)
  then pooling_double input mode ksize stride padding dilation o
  else ret (DIMENSIONS_MISMATCH, o).

(** ** src/nn/conv.c *)

(** conv_output_dims, src/nn/conv.c:11-22, the array filled in order *)
Definition conv_output_dims (in_dims fil_dims stride padding dilation : list Z)
    (ndim : Z) : M (list Z) :=
  let* d0 := aget in_dims 0 in
  let* d1 := aget fil_dims 0 in
  for64 2 ndim (fun d acc =>
    let* dil := aget dilation (d - 2) in
    let* f := aget fil_dims d in
    let* a := ck64 (f - 1) in
    let* a := ck64 (dil * a) in
    let* kernel := ck64 (a + 1) in
    let* i := aget in_dims d in
    let* p := aget padding (d - 2) in
    let* b := ck32 (2 * p) in
    let* b := ck64 (i + b) in
    let* b := ck64 (b - kernel) in
    let* s := aget stride (d - 2) in
    let* q := div64 b s in
    let* q := ck64 (q + 1) in
    ret (acc ++ [q])) [d0; d1].

(** The coordinates of the input element under filter position [fil], or None
    outside the input, src/nn/conv.c:96-104.  [base] is in_coords. *)
Definition conv_position (sdim : Z) (in_dims base dilation fil tmp : list Z)
  : M (list Z * bool) :=
  let* c := iter_ret (Z.to_nat sdim) 0 (fun d tmp =>
      let* x := aget base (2 + d) in
      let* dil := aget dilation d in
      let* f := aget fil (2 + d) in
      let* m := ck64 (dil * f) in
      let* y := ck64 (x + m) in
      let* tmp := aset tmp (2 + d) y in
      let* n := aget in_dims (2 + d) in
      if (y <? 0) || (n <=? y) then ret (Return tmp) else ret (Next tmp)) tmp in
  let '(tmp, inside) :=
    match c with Next tmp => (tmp, true) | Return tmp => (tmp, false) end in
  let* b := aget base 0 in
  let* tmp := aset tmp 0 b in
  let* ic := aget base 1 in
  let* tmp := aset tmp 1 ic in
  ret (tmp, inside).

(** The accumulation over one input channel, src/nn/conv.c:91-113.  The scratch
    coordinate arrays start as zeros; every entry is written before it is read. *)
Definition conv_channel (input filter ind fild : hval) (ndim sdim : Z)
    (in_dims dilation base : list Z) (oc ic fil_space : Z) (acc : val) : M val :=
  let* (_, _, acc) := for64 0 fil_space (fun fil_idx '(fil, tmp, acc) =>
      let* fil := aitisa_linidx_to_coords filter fil_idx fil in
      let* fil := aset fil 0 oc in
      let* fil := aset fil 1 ic in
      let* (tmp, inside) := conv_position sdim in_dims base dilation fil tmp in
      if (inside : bool) then
        let* in_off := aitisa_coords_to_offset input tmp ndim in
        let* fil_off := aitisa_coords_to_offset filter fil ndim in
        let* a := loadi ind F32 in_off in
        let* b := loadi fild F32 fil_off in
        let* acc := opt (mac_val F32 acc a b) UB_uninit in
        ret (fil, tmp, acc)
      else ret (fil, tmp, acc))
    (replicate (Z.to_nat ndim) 0, replicate (Z.to_nat ndim) 0, acc) in
  ret acc.

(** The computation of one output element, src/nn/conv.c:79-117: it is stored
    once per input channel. *)
Definition conv_element (input filter new ind fild outd : hval) (ndim sdim : Z)
    (in_dims stride padding dilation : list Z) (b oc out_idx in_chan fil_space : Z)
  : M unit :=
  let* out := aitisa_linidx_to_coords new out_idx (replicate (Z.to_nat ndim) 0) in
  let* out := aset out 0 b in
  let* out := aset out 1 oc in
  let* base := for64 0 sdim (fun d base =>
      let* x := aget out (2 + d) in
      let* s := aget stride d in
      let* m := ck64 (x * s) in
      let* p := aget padding d in
      let* y := ck64 (m - p) in
      aset base (2 + d) y) (replicate (Z.to_nat ndim) 0) in
  let* base := aset base 0 b in
  let* _ := for64 0 in_chan (fun ic acc =>
      let* base := aset base 1 ic in
      let* acc := conv_channel input filter ind fild ndim sdim in_dims dilation base
                    oc ic fil_space acc in
      let* out_off := aitisa_coords_to_offset new out ndim in
      storei outd F32 out_off acc ;;;
      ret acc) (zero_val F32) in
  ret tt.

(** aitisa_conv_float, src/nn/conv.c:25-130.  The eight scratch arrays are used
    without a test for NULL.  After the last statement the function ends without
    a return value: the caller sees [e_garbage]. *)
Definition aitisa_conv_float (input filter : hval) (stride padding dilation : list Z)
    (o : hval) : M (status * hval) :=
  let* ndim := tensor_ndim input in
  let* in_dims := tensor_dims input in
  let* fil_dims := tensor_dims filter in
  let* p_odims := scratch (8 * ndim) in
  let* p_in := scratch (8 * ndim) in
  let* p_fil := scratch (8 * ndim) in
  let* p_out := scratch (8 * ndim) in
  let* p_tmp := scratch (8 * ndim) in
  let* p_istr := scratch (8 * ndim) in
  let* p_fstr := scratch (8 * ndim) in
  let* p_ostr := scratch (8 * ndim) in
  touch p_odims ;;;
  let* out_dims := conv_output_dims in_dims fil_dims stride padding dilation ndim in
  let* dt := tensor_dtype input in
  let* dev := tensor_device input in
  let* (s, new) := aitisa_create dt dev out_dims ndim HNull 0 HUndef in
  if negb (bool_decide (s = SUCCESS)) then ret (s, o)
  else
    let zeros := replicate (Z.to_nat ndim) 0 in
    touch p_istr ;;; let* _ := aitisa_get_all_strides input zeros in
    touch p_fstr ;;; let* _ := aitisa_get_all_strides filter zeros in
    touch p_ostr ;;; let* _ := aitisa_get_all_strides new zeros in
    let* ind := tensor_data input in
    let* fild := tensor_data filter in
    let* outd := tensor_data new in
    let* out_space := size_from_dim 2 out_dims ndim in
    let* fil_space := size_from_dim 2 fil_dims ndim in
    let* nbatch := tensor_dim input 0 in
    let* in_chan := tensor_dim input 1 in
    let* out_chan := tensor_dim new 1 in
    for64 0 nbatch (fun b _ =>
      for64 0 out_chan (fun oc _ =>
        for64 0 out_space (fun out_idx _ =>
          touch p_in ;;; touch p_fil ;;; touch p_out ;;; touch p_tmp ;;;
          conv_element input filter new ind fild outd ndim (ndim - 2) in_dims
            stride padding dilation b oc out_idx in_chan fil_space) tt) tt) tt ;;;
    raw_dealloc p_odims ;;; raw_dealloc p_in ;;; raw_dealloc p_fil ;;;
    raw_dealloc p_out ;;; raw_dealloc p_istr ;;; raw_dealloc p_fstr ;;;
    raw_dealloc p_ostr ;;; raw_dealloc p_tmp ;;;
    let* g := ask (fun E => e_garbage E 0%nat) in
    ret (g, new).

(** aitisa_conv, src/nn/conv.c:136-148: groups is ignored; after the [break] the
    function again ends without a return value. *)
Definition aitisa_conv (input filter : hval) (stride padding dilation : list Z)
    (groups : Z) (o : hval) : M (status * hval) :=
  let* dt := tensor_dtype input in
  if d_code dt =? code_of F32 then
    let* (s, o) := aitisa_conv_float input filter stride padding dilation o in
    if negb (bool_decide (s = SUCCESS)) then ret (s, o)
    else let* g := ask (fun E => e_garbage E 1%nat) in ret (g, o)
  else ret (NOT_SUPPORTED, o).

(** aitisa_conv2d and aitisa_conv3d, src/nn/conv.c:150-172 (the length
    parameters are ignored by the code) *)
Definition aitisa_conv2d (input filter : hval) (stride padding dilation : list Z)
    (groups : Z) (o : hval) : M (status * hval) :=
  let* ndim := tensor_ndim input in
  if negb (ndim =? 4) then ret (DIMENSIONS_MISMATCH, o)
  else aitisa_conv input filter stride padding dilation groups o.
Definition aitisa_conv3d (input filter : hval) (stride padding dilation : list Z)
    (groups : Z) (o : hval) : M (status * hval) :=
  let* ndim := tensor_ndim input in
  if negb (ndim =? 5) then ret (DIMENSIONS_MISMATCH, o)
  else aitisa_conv input filter stride padding dilation groups o.

(** ** src/nn/batch_norm.c *)

(** batch_norm_check_parameters, src/nn/batch_norm.c:10-62 *)
Definition batch_norm_check (input : hval) (axis : Z) (scale bias mean variance : hval)
    (epsilon : spec_float) : M status :=
  let* in_dt := tensor_dtype input in
  let* ndim := tensor_ndim input in
  if (ndim <? 2) || (5 <? ndim) then ret DIMENSIONS_MISMATCH
  else if negb (axis =? 1) && negb (axis =? ndim - 1) then ret INVALID_ARGUMENT
  else
    let* dt := tensor_dtype scale in
    if negb (d_code dt =? d_code in_dt) then ret TYPE_MISMATCH else
    let* dt := tensor_dtype bias in
    if negb (d_code dt =? d_code in_dt) then ret TYPE_MISMATCH else
    let* channels := tensor_dim input axis in
    let* n1 := tensor_size scale in
    let* n2 := tensor_size bias in
    if negb (n1 =? channels) || negb (n2 =? channels) then ret DIMENSIONS_MISMATCH else
    let* n1 := tensor_ndim scale in
    let* n2 := tensor_ndim bias in
    if negb (n1 =? 1) || negb (n2 =? 1) then ret DIMENSIONS_MISMATCH else
    let* dt := tensor_dtype mean in
    if negb (d_code dt =? d_code in_dt) then ret TYPE_MISMATCH else
    let* dt := tensor_dtype variance in
    if negb (d_code dt =? d_code in_dt) then ret TYPE_MISMATCH else
    let* n1 := tensor_size mean in
    let* n2 := tensor_size variance in
    if negb (n1 =? channels) || negb (n2 =? channels) then ret DIMENSIONS_MISMATCH else
    let* n1 := tensor_ndim mean in
    let* n2 := tensor_ndim variance in
    if negb (n1 =? 1) || negb (n2 =? 1) then ret DIMENSIONS_MISMATCH else
    if SFltb epsilon fzero then ret INVALID_ARGUMENT else ret SUCCESS.

(** batch_norm_create_output, src/nn/batch_norm.c:64-77 *)
Definition batch_norm_create_output (input o : hval) : M (status * hval) :=
  nn_create_like input o.

(** The index update of batch_norm_transport, src/nn/batch_norm.c:101-110: axis 0
    and [axis] are left alone. *)
Definition bn_advance (n : nat) (axis : Z) (dims idx : list Z) : M (list Z) :=
  iter_down_break n (fun j' idx =>
    let j := j' + 1 in
    if j =? axis then ret (idx, true)
    else
      let* x := aget idx j in
      let* x := ck64 (x + 1) in
      let* d := aget dims j in
      if d <=? x then let* idx := aset idx j 0 in ret (idx, true)
      else let* idx := aset idx j x in ret (idx, false)) idx.

(** batch_norm_transport, src/nn/batch_norm.c:83-112 *)
Definition batch_norm_transport (source destination : hval) (idx offs : list Z)
    (axis : Z) : M (list Z) :=
  let* ndim := tensor_ndim destination in
  let* dims := tensor_dims destination in
  let* size := tensor_size source in
  let* dt := tensor_dtype source in
  let ele := d_size dt in
  let* src := tensor_data source in
  let* dst := tensor_data destination in
  for64 0 size (fun i idx =>
    let* lin := lin_index ndim idx offs in
    let* doff := ck64 (lin * ele) in
    let* soff := ck64 (i * ele) in
    memcpy dst doff src soff ele ;;;
    bn_advance (Z.to_nat (ndim - 1)) axis dims idx) idx.

(** One row of batch_norm_without_channel, src/nn/batch_norm.c:141-164 *)
Definition bn_row (input scale bias mean denominator : hval) (begin size step : list Z)
    (out_data : hval) (ele s : Z) : M (ctl (list Z) status) :=
  try_ (aitisa_slice input begin size step HUndef) (fun temp0 =>
  try_ (aitisa_squeeze temp0 [0] 1 HUndef) (fun temp1 =>
  try_ (aitisa_destroy temp0) (fun temp0 =>
  try_ (aitisa_sub temp1 mean temp0) (fun temp0 =>
  try_ (aitisa_destroy temp1) (fun temp1 =>
  try_ (aitisa_div temp0 denominator temp1) (fun temp1 =>
  try_ (aitisa_destroy temp0) (fun temp0 =>
  try_ (aitisa_mul scale temp1 temp0) (fun temp0 =>
  try_ (aitisa_destroy temp1) (fun temp1 =>
  try_ (aitisa_add temp0 bias temp1) (fun temp1 =>
  try_ (aitisa_destroy temp0) (fun temp0 =>
  let* n := tensor_size temp1 in
  let* data := tensor_data temp1 in
  for64 0 n (fun e _ =>
    let* a := ck64 (s * n) in
    let* a := ck64 (a * ele) in
    let* b := ck64 (e * ele) in
    memcpy out_data (a + b) data b ele) tt ;;;
  try_ (aitisa_destroy temp1) (fun _ =>
  let* b := aget begin 0 in
  let* b := ck32 (b + 1) in
  let* begin := aset begin 0 b in
  ret (Next begin))))))))))))).

(** batch_norm_without_channel, src/nn/batch_norm.c:114-171; size[i] = dims[i]
    narrows to int. *)
Definition batch_norm_without_channel (input scale bias mean denominator o : hval)
  : M status :=
  let* dims := tensor_dims input in
  let* batch := aget dims 0 in
  let* p1 := scratch 8 in
  let* p2 := scratch 8 in
  let* p3 := scratch 8 in
  if is_null p1 || is_null p2 || is_null p3 then ret ALLOC_FAILED
  else
    let* d1 := aget dims 1 in
    let* p4 := scratch 8 in
    if is_null p4 then ret ALLOC_FAILED
    else
      let* dt := tensor_dtype input in
      let* out_data := tensor_data o in
      let* c := iter_ret (Z.to_nat batch) 0 (fun s begin =>
          bn_row input scale bias mean denominator begin [1; to_int d1] [1; 1]
            out_data (d_size dt) s) [0; 0] in
      match c with
      | Return s => ret s
      | Next _ =>
          raw_dealloc p1 ;;; raw_dealloc p2 ;;; raw_dealloc p3 ;;; raw_dealloc p4 ;;;
          ret SUCCESS
      end.

(** One channel of one sample, src/nn/batch_norm.c:224-244 *)
Definition bn_channel (input scale bias mean denominator o : hval)
    (begin size step : list Z) (axis c : Z) (idx offs : list Z)
  : M (ctl (list Z) status) :=
  try_ (aitisa_slice input begin size step HUndef) (fun temp0 =>
  try_ (aitisa_squeeze temp0 [0; axis] 2 HUndef) (fun temp1 =>
  try_ (aitisa_destroy temp0) (fun temp0 =>
  try_ (aitisa_sub temp1 mean temp0) (fun temp0 =>
  try_ (aitisa_destroy temp1) (fun temp1 =>
  try_ (aitisa_div temp0 denominator temp1) (fun temp1 =>
  try_ (aitisa_destroy temp0) (fun temp0 =>
  try_ (aitisa_mul scale temp1 temp0) (fun temp0 =>
  try_ (aitisa_destroy temp1) (fun temp1 =>
  try_ (aitisa_add temp0 bias temp1) (fun temp1 =>
  let* idx := aset idx axis c in
  let* idx := batch_norm_transport temp1 o idx offs axis in
  try_ (aitisa_destroy temp0) (fun _ =>
  try_ (aitisa_destroy temp1) (fun _ =>
  ret (Next idx))))))))))))).

(** batch_norm_with_channel, src/nn/batch_norm.c:173-255; the squeeze-axis array
    is used without a test for NULL. *)
Definition batch_norm_with_channel (input : hval) (axis : Z)
    (scales biases means denominators : list hval) (o : hval) : M status :=
  let* ndim := tensor_ndim input in
  if negb (axis =? 1) && negb (axis =? ndim - 1) then ret INVALID_ARGUMENT
  else
    let* dims := tensor_dims input in
    let* batch := aget dims 0 in
    let* channels := aget dims axis in
    let* p1 := scratch (4 * ndim) in
    let* p2 := scratch (4 * ndim) in
    let* p3 := scratch (4 * ndim) in
    if is_null p1 || is_null p3 || is_null p2 then ret ALLOC_FAILED
    else
      let n := Z.to_nat ndim in
      let* size := for64 0 ndim (fun i acc =>
          let* d := aget dims i in ret (acc ++ [to_int d])) [] in
      let* size := aset size 0 1 in
      let* size := aset size axis 1 in
      let* p4 := scratch 16 in
      touch p4 ;;;
      let* p5 := scratch (8 * ndim) in
      let* p6 := scratch (8 * ndim) in
      if is_null p5 || is_null p6 then ret ALLOC_FAILED
      else
        let* offs := row_offsets ndim dims in
        let* c := iter_ret (Z.to_nat batch) 0 (fun s '(begin, idx) =>
            let* begin := aset begin 0 (to_int s) in
            let* idx := aset idx 0 s in
            iter_ret (Z.to_nat channels) 0 (fun c '(begin, idx) =>
              let* begin := aset begin axis (to_int c) in
              let* sc := aget scales c in
              let* bi := aget biases c in
              let* me := aget means c in
              let* de := aget denominators c in
              let* r := bn_channel input sc bi me de o begin size (replicate n 1)
                          axis c idx offs in
              match r with
              | Return s => ret (Return s)
              | Next idx => ret (Next (begin, idx))
              end) (begin, idx))
          (replicate n 0, replicate n 0) in
        match c with
        | Return s => ret s
        | Next _ =>
            raw_dealloc p1 ;;; raw_dealloc p2 ;;; raw_dealloc p3 ;;;
            raw_dealloc p4 ;;; raw_dealloc p5 ;;; raw_dealloc p6 ;;;
            ret SUCCESS
        end.

(** The denominator of the two-dimensional case, get_intermediate_tensors,
    src/nn/batch_norm.c:268-284 *)
Definition bn_denominator (input variance : hval) (epsilon : spec_float)
  : M (ctl hval status) :=
  let* dt := tensor_dtype input in
  let* dev := tensor_device input in
  let* dims := tensor_dims variance in
  let* ndim := tensor_ndim variance in
  try_ (aitisa_full dt dev dims ndim epsilon HUndef) (fun eps =>
  try_ (aitisa_add variance eps HUndef) (fun temp =>
  try_ (aitisa_sqrt temp HUndef) (fun denominator =>
  let* _ := aitisa_destroy eps in
  let* _ := aitisa_destroy temp in
  ret (Next denominator)))).

(** The repeated copy of one parameter element, src/nn/batch_norm.c:346-355, for
    one of the four destination tensors; [i * ele_size] and [c * ele_size] are
    computed in uint32_t.  (The code interleaves the four copies, which touch
    disjoint buffers.) *)
Definition bn_spread (destination parameter : hval) (n ele c : Z)
  : M (ctl unit status) :=
  let* dst := tensor_data destination in
  let* src := tensor_data parameter in
  ctl_u32 n (fun i _ =>
    memcpy dst ((i * ele) mod 2 ^ 32) src ((c * ele) mod 2 ^ 32) ele ;;;
    ret (Next tt)) tt.

(** One channel of get_intermediate_tensors, src/nn/batch_norm.c:328-360.  The
    four creations come first, as in the code. *)
Definition bn_parameters (dt : dtype) (dev : device) (dims : list Z) (ndim : Z)
    (scale bias mean variance eps : hval) (n ele c : Z)
  : M (ctl (hval * hval * hval * hval * hval) status) :=
  try_ (aitisa_create dt dev dims ndim HNull 0 HUndef) (fun me =>
  try_ (aitisa_create dt dev dims ndim HNull 0 HUndef) (fun sc =>
  try_ (aitisa_create dt dev dims ndim HNull 0 HUndef) (fun bi =>
  try_ (aitisa_create dt dev dims ndim HNull 0 HUndef) (fun va =>
  let* _ := bn_spread me mean n ele c in
  let* _ := bn_spread sc scale n ele c in
  let* _ := bn_spread bi bias n ele c in
  let* _ := bn_spread va variance n ele c in
  try_ (aitisa_add va eps HUndef) (fun temp =>
  try_ (aitisa_sqrt temp HUndef) (fun de =>
  let* _ := aitisa_destroy va in
  ret (Next (me, sc, bi, de, temp)))))))).

(** The arrays returned by get_intermediate_tensors: the pointers to the four
    arrays and their contents. *)
Record bn_arrays := BnArrays {
  ba_scale : hval; ba_bias : hval; ba_mean : hval; ba_den : hval;
  bl_scale : list hval; bl_bias : list hval; bl_mean : list hval; bl_den : list hval
}.

(** get_intermediate_tensors for more than two axes, src/nn/batch_norm.c:285-369.
    [temp] is used without a test for NULL. sizeof( **temp ) is the size of the
    tensor header, 56 bytes. *)
Definition bn_intermediate (input : hval) (axis : Z) (scale bias mean variance : hval)
    (epsilon : spec_float) : M (ctl bn_arrays status) :=
  let* in_ndim := tensor_ndim input in
  let* dt := tensor_dtype input in
  let* dev := tensor_device input in
  let* in_dims := tensor_dims input in
  let* channels := tensor_dim input axis in
  let ndim := in_ndim - 2 in
  let* p_dims := scratch (8 * ndim) in
  if is_null p_dims then ret (Return ALLOC_FAILED)
  else
    let* dims :=
      if axis =? 1 then for64 2 in_ndim (fun i acc =>
          let* d := aget in_dims i in ret (acc ++ [d])) []
      else for64 1 (in_ndim - 1) (fun i acc =>
          let* d := aget in_dims i in ret (acc ++ [d])) [] in
    try_ (aitisa_full dt dev dims ndim epsilon HUndef) (fun eps =>
    let* n := size_of_dims dims ndim in
    let* p_mean := scratch (8 * channels) in
    let* p_scale := scratch (8 * channels) in
    let* p_bias := scratch (8 * channels) in
    let* p_den := scratch (8 * channels) in
    let* p_temp := scratch (56 * channels) in
    let* p_var := scratch (8 * channels) in
    if is_null p_mean || is_null p_scale || is_null p_bias || is_null p_den
       || is_null p_var then ret (Return ALLOC_FAILED)
    else
      let* c := ctl_u32 channels (fun c '(ms, ss, bs, ds, ts) =>
          touch p_temp ;;;
          let* r := bn_parameters dt dev dims ndim scale bias mean variance eps n
                      (d_size dt) c in
          match r with
          | Return s => ret (Return s)
          | Next (me, sc, bi, de, temp) =>
              ret (Next (ms ++ [me], ss ++ [sc], bs ++ [bi], ds ++ [de], ts ++ [temp]))
          end) ([], [], [], [], []) in
      match c with
      | Return s => ret (Return s)
      | Next (ms, ss, bs, ds, ts) =>
          let* _ := aitisa_destroy eps in
          raw_dealloc p_var ;;; raw_dealloc p_dims ;;;
          for64 0 channels (fun i _ =>
            let* x := aget ts i in let* _ := aitisa_destroy x in ret tt) tt ;;;
          raw_dealloc p_temp ;;;
          ret (Next (BnArrays p_scale p_bias p_mean p_den ss bs ms ds))
      end).

(** aitisa_batch_norm, src/nn/batch_norm.c:372-416 *)
Definition aitisa_batch_norm (input : hval) (axis : Z) (scale bias mean variance : hval)
    (epsilon : spec_float) (o : hval) : M (status * hval) :=
  let* s := batch_norm_check input axis scale bias mean variance epsilon in
  if negb (bool_decide (s = SUCCESS)) then ret (s, o)
  else
    let* (s, o) := batch_norm_create_output input o in
    if negb (bool_decide (s = SUCCESS)) then ret (s, o)
    else
      let* ndim := tensor_ndim input in
      if ndim =? 2 then
        let* r := bn_denominator input variance epsilon in
        match r with
        | Return s => ret (s, o)
        | Next den =>
            let* s := batch_norm_without_channel input scale bias mean den o in
            let* _ := aitisa_destroy den in
            ret (s, o)
        end
      else if (2 <? ndim) && (ndim <? 6) then
        let* r := bn_intermediate input axis scale bias mean variance epsilon in
        match r with
        | Return s => ret (s, o)
        | Next a =>
            let* s := batch_norm_with_channel input axis (bl_scale a) (bl_bias a)
                        (bl_mean a) (bl_den a) o in
            let* channels := tensor_dim input axis in
            for64 0 channels (fun i _ =>
              let* x := aget (bl_scale a) i in let* _ := aitisa_destroy x in
              let* x := aget (bl_bias a) i in let* _ := aitisa_destroy x in
              let* x := aget (bl_mean a) i in let* _ := aitisa_destroy x in
              let* x := aget (bl_den a) i in let* _ := aitisa_destroy x in
              ret tt) tt ;;;
            raw_dealloc (ba_scale a) ;;; raw_dealloc (ba_bias a) ;;;
            raw_dealloc (ba_mean a) ;;; raw_dealloc (ba_den a) ;;;
            ret (s, o)
        end
      else ret (DIMENSIONS_MISMATCH, o).
