(** * ModelSample: the sample objects of the auto-test framework
      (/repo/auto_test/sample.h, sample.cpp)

    [Unary_Input], [Binary_Input] and [Result] are reference counted handles.
    Their texts differ only in the number of buffers (dims, data) and in what
    the destructor releases, so one record describes the three classes.

    Simplifications: [new] that finds no memory throws std::bad_alloc, which
    nobody catches: [Abort].  [delete[] (char* )p] of an array allocated as
    [new int64_t[n]] is accepted (formally its type does not match; every array
    here is of trivial type).  The arrays of [new T[n]] and the counter cell of
    [new int] carry different allocator tags, so a mix-up is undefined. *)
From stdpp Require Import gmap list.
From Coq Require Import ZArith.
From Verif Require Import Base Mem.
Open Scope Z_scope.

(** Allocator tags of [new T[n]] / [delete[]] and [new int] / [delete]. *)
Definition ARR : nat := 1.
Definition CNT : nat := 2.

Inductive class := Unary_Input | Binary_Input | Result.
Global Instance class_eq_dec : EqDecision class.
Proof. solve_decision. Defined.

(** sample.h:44-50, 104-116, 148-154.  [o_meta]: the scalar members (ndim_,
    dtype_, device_, len_, ...); [o_bufs]: dims_ and data_ -- dims1_, dims2_,
    data1_, data2_ for [Binary_Input]; [o_count]: count_. *)
Record obj := Obj { o_class : class; o_meta : list Z; o_bufs : list hval; o_count : hval }.

(** The number of buffers of each class. *)
Definition nbufs (k : class) : nat := match k with Binary_Input => 4 | _ => 2 end.

(** new T[n] of [bytes] bytes *)
Definition new_arr (bytes : Z) (c : content) : M hval :=
  let* p := alloc_tag ARR bytes (fun _ => c) in
  if is_null p then abort else ret p.
(** count_ = new int; *count_ = 1; *)
Definition new_count : M hval :=
  let* p := alloc_tag CNT 4 (fun _ => CInts [1]) in
  if is_null p then abort else ret p.

(** *count, and ( *count ) += d *)
Definition get_count (p : hval) : M Z :=
  let* l := get_ints p in match l with [n] => ret n | _ => undef UB_type end.
Definition add_count (p : hval) (d : Z) : M unit :=
  let* n := get_count p in
  let* n' := ck32 (n + d) in
  set_content p (CInts [n']).

(** delete [] of several pointers *)
Fixpoint delete_all (l : list hval) : M unit :=
  match l with [] => ret tt | p :: l => free_tag ARR p ;;; delete_all l end.

(** Unary_Input(), Binary_Input(), Result(): sample.h:14, 55, 121 *)
Definition ctor_default (k : class) : M obj :=
  let* c := new_count in
  ret (Obj k [] (replicate (nbufs k) HNull) c).

(** Unary_Input(ndim, dims*, ...), Binary_Input(ndim1, dims1*, ...):
    sample.cpp:6-11, 55-63 *)
Definition ctor_ptrs (k : class) (meta : list Z) (bufs : list hval) : M obj :=
  let* c := new_count in
  ret (Obj k meta bufs c).

(** new int64_t[ndim] filled from a std::vector: a negative length throws
    std::bad_array_new_length, reading past the end of the vector is undefined:
    sample.cpp:16-19, 71-78 *)
Definition new_dims (ndim : Z) (v : list Z) : M hval :=
  if ndim <? 0 then abort else
  let* p := new_arr (8 * ndim) (CInts (take (Z.to_nat ndim) v)) in
  check (ndim <=? Z.of_nat (length v)) UB_oob ;;;
  ret p.

(** Unary_Input(ndim, std::vector, ...): sample.cpp:13-22 *)
Definition ctor_vec1 (ndim : Z) (v : list Z) (meta : list Z) (data : hval) : M obj :=
  let* d := new_dims ndim v in
  let* c := new_count in
  ret (Obj Unary_Input meta [d; data] c).
(** Binary_Input(ndim1, std::vector, ...): sample.cpp:65-81 *)
Definition ctor_vec2 (ndim1 : Z) (v1 : list Z) (ndim2 : Z) (v2 : list Z) (meta : list Z)
    (data1 data2 : hval) : M obj :=
  let* d1 := new_dims ndim1 v1 in
  let* d2 := new_dims ndim2 v2 in
  let* c := new_count in
  ret (Obj Binary_Input meta [d1; d2; data1; data2] c).

(** Copy constructors: sample.cpp:24-29, 83-90, 126-131 *)
Definition ctor_copy (o : obj) : M obj := add_count (o_count o) 1 ;;; ret o.

(** to_nullptr(): sample.h:42, 96-102, 142-146 *)
Definition to_nullptr (o : obj) : obj :=
  Obj (o_class o) (o_meta o) (replicate (length (o_bufs o)) HNull) HNull.

(** Move constructors: sample.cpp:31-36, 92-99, 133-138.  The new object and
    what is left of the old one. *)
Definition ctor_move (o : obj) : obj * obj := (o, to_nullptr o).

(** operator=: sample.cpp:38-53, 101-124 (Unary_Input and Binary_Input only:
    [Result] declares a move constructor and no assignment, so its assignment
    is deleted and [Sample::operator=], sample.h:165-169, cannot be
    instantiated).  [right] is the right-hand side; if it is the same object
    it is unchanged by the first half. *)
Definition assign (this right : obj) : M obj :=
  add_count (o_count this) (-1) ;;;
  let* n := get_count (o_count this) in
  (if n =? 0 then delete_all (o_bufs this) else ret tt) ;;;
  add_count (o_count right) 1 ;;;
  ret (Obj (o_class this) (o_meta right) (o_bufs right) (o_count right)).

(** Destructors: sample.h:21-30, 66-77, 124-132.  ~Result does not delete the
    counter. *)
Definition dtor (o : obj) : M unit :=
  if is_null (o_count o) then ret tt else
  add_count (o_count o) (-1) ;;;
  let* n := get_count (o_count o) in
  if n =? 0 then
    delete_all (o_bufs o) ;;;
    match o_class o with Result => ret tt | _ => free_tag CNT (o_count o) end
  else ret tt.

(** set_data, set_data1, set_data2: sample.h:40, 93-94 *)
Definition set_data (o : obj) (i : nat) (p : hval) (meta : list Z) : obj :=
  Obj (o_class o) meta (<[i := p]> (o_bufs o)) (o_count o).

(** Result::set_result: sample.cpp:140-150 *)
Definition set_result (o : obj) (ndim : Z) (dims : hval) (data : hval) (len : Z) (meta : list Z)
  : M obj :=
  if ndim <? 0 then abort else
  let* d := new_arr (8 * ndim) (CInts (replicate (Z.to_nat ndim) 0)) in
  let* x := new_arr len (CData (replicate (Z.to_nat len) MU)) in
  let o' := Obj (o_class o) meta [d; x] (o_count o) in
  (if ndim =? 0 then ret tt else
     let* l := get_ints dims in
     check (ndim <=? Z.of_nat (length l)) UB_oob ;;;
     set_content d (CInts (take (Z.to_nat ndim) l))) ;;;
  memcpy x 0 data 0 len ;;;
  ret o'.

(** ** Histories: what a program does with its objects *)
Inductive hop :=
  | NewArr (bytes : Z) (c : content)           (* the program: new char[n], filled *)
  | DelArr (p : hval)                          (* the program: delete [] p *)
  | Default (x : nat) (k : class)
  | Ptrs (x : nat) (k : class) (meta : list Z) (bufs : list hval)
  | Vec1 (x : nat) (ndim : Z) (v meta : list Z) (data : hval)
  | Vec2 (x : nat) (ndim1 : Z) (v1 : list Z) (ndim2 : Z) (v2 meta : list Z) (data1 data2 : hval)
  | Copy (x y : nat)                           (* T x(y); *)
  | Move (x y : nat)                           (* T x(std::move(y)); *)
  | Assign (x y : nat)                         (* x = y; *)
  | SetData (x : nat) (i : nat) (p : hval) (meta : list Z)
  | SetResult (x : nat) (ndim : Z) (dims data : hval) (len : Z) (meta : list Z)
  | Use (x : nat) (i : nat)                    (* access the i-th buffer of x *)
  | Destroy (x : nat).                         (* end of the lifetime of x *)

(** The live objects by name. *)
Notation objs := (gmap nat obj).

Definition the (V : objs) (x : nat) : M obj := opt (V !! x) UB_dangling.

Definition step (op : hop) (V : objs) : M objs :=
  match op with
  | NewArr n c => let* _ := new_arr n c in ret V
  | DelArr p => free_tag ARR p ;;; ret V
  | Default x k => let* o := ctor_default k in ret (<[x := o]> V)
  | Ptrs x k m bs => let* o := ctor_ptrs k m bs in ret (<[x := o]> V)
  | Vec1 x n v m d => let* o := ctor_vec1 n v m d in ret (<[x := o]> V)
  | Vec2 x n1 v1 n2 v2 m d1 d2 => let* o := ctor_vec2 n1 v1 n2 v2 m d1 d2 in ret (<[x := o]> V)
  | Copy x y => let* o := the V y in let* o' := ctor_copy o in ret (<[x := o']> V)
  | Move x y => let* o := the V y in let (n, r) := ctor_move o in ret (<[x := n]> (<[y := r]> V))
  | Assign x y =>
      let* a := the V x in let* b := the V y in
      let* a' := assign a b in ret (<[x := a']> V)
  | SetData x i p m => let* o := the V x in ret (<[x := set_data o i p m]> V)
  | SetResult x n dp xp l m =>
      let* o := the V x in let* o' := set_result o n dp xp l m in ret (<[x := o']> V)
  | Use x i =>
      let* o := the V x in let* p := opt (o_bufs o !! i) UB_oob in touch p ;;; ret V
  | Destroy x => let* o := the V x in dtor o ;;; ret (delete x V)
  end.

Fixpoint steps (h : list hop) (V : objs) : M objs :=
  match h with [] => ret V | op :: h => let* V' := step op V in steps h V' end.

(** ** Sample<InputType>: sample.h:157-180, member by member (input_ is object
    2x, result_ is object 2x+1).  Its move constructor, line 162, passes the
    members of its argument as lvalues and therefore copies. *)
Definition sample_default (x : nat) (k : class) : list hop :=
  [Default (2 * x) k; Default (2 * x + 1) Result].
Definition sample_of (x : nat) (input : nat) : list hop :=
  [Copy (2 * x) input; Default (2 * x + 1) Result].
Definition sample_copy (x y : nat) : list hop :=
  [Copy (2 * x) (2 * y); Copy (2 * x + 1) (2 * y + 1)]%nat.
Definition sample_move (x y : nat) : list hop := sample_copy x y.
Definition sample_set_input (x input : nat) : list hop := [Assign (2 * x) input].
Definition sample_destroy (x : nat) : list hop := [Destroy (2 * x + 1); Destroy (2 * x)].
