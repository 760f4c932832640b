(** * ModelConvInput: the sample class of the convolution tests
      (/repo/auto_test/test_code/conv_test.h:16-72)

    [Conv_Input] derives from [Binary_Input] (ModelSample) and adds three arrays
    of int and the number of groups.  It declares a destructor and a copy
    assignment; its copy constructor is the implicit one, and it has no move
    constructor.  The simplifications of ModelSample apply. *)
From stdpp Require Import gmap list.
From Coq Require Import ZArith.
From Verif Require Import Base Mem ModelSample.
Open Scope Z_scope.

(** conv_test.h:68-71.  [c_arrs]: stride_, padding_, dilation_.  The first
    scalar member of the base is ndim1_, sample.h:104. *)
Record cobj := CObj { c_base : obj; c_arrs : list hval; c_groups : Z }.
Definition ndim1 (o : obj) : Z := nth 0 (o_meta o) 0.

(** Conv_Input(): conv_test.h:18 *)
Definition conv_default : M cobj :=
  let* b := ctor_default Binary_Input in
  ret (CObj b [HNull; HNull; HNull] 1).
(** Conv_Input(int64_t ndim1, int64_t *dims1, ...): conv_test.h:19-26 *)
Definition conv_ptrs (meta : list Z) (bufs arrs : list hval) (groups : Z) : M cobj :=
  let* b := ctor_ptrs Binary_Input meta bufs in
  ret (CObj b arrs groups).

(** Conv_Input(int64_t ndim1, std::vector<int64_t> dims1, ...): conv_test.h:27-45.
    The length [int spatial_len = ndim1 - 2] is cut to 32 bits; [new int] of a
    negative length throws.  The three loops read as many elements of the
    vectors as were allocated. *)
Definition new_params (n : Z) (stride padding dilation : list Z) : M (list hval) :=
  if n <? 0 then abort else
  let* a := new_arr (4 * n) (CInts (take (Z.to_nat n) stride)) in
  let* b := new_arr (4 * n) (CInts (take (Z.to_nat n) padding)) in
  let* c := new_arr (4 * n) (CInts (take (Z.to_nat n) dilation)) in
  check (n <=? Z.of_nat (length stride)) UB_oob ;;;
  check (n <=? Z.of_nat (length padding)) UB_oob ;;;
  check (n <=? Z.of_nat (length dilation)) UB_oob ;;;
  ret [a; b; c].
Definition conv_vec (n1 : Z) (v1 : list Z) (n2 : Z) (v2 meta : list Z) (data1 data2 : hval)
    (stride padding dilation : list Z) (groups : Z) : M cobj :=
  let* b := ctor_vec2 n1 v1 n2 v2 (n1 :: meta) data1 data2 in
  let* l := new_params (wrap I32 (n1 - 2)) stride padding dilation in
  ret (CObj b l groups).

(** The implicit copy constructor: the one of the base, then the members. *)
Definition conv_copy (o : cobj) : M cobj :=
  let* b := ctor_copy (c_base o) in
  ret (CObj b (c_arrs o) (c_groups o)).

(** ~Conv_Input: conv_test.h:46-50, then ~Binary_Input *)
Definition conv_dtor (o : cobj) : M unit := delete_all (c_arrs o) ;;; dtor (c_base o).

(** memcpy of [n] ints; of an array onto itself it is undefined. *)
Definition copy_params (d s : hval) (n : Z) : M unit :=
  if n =? 0 then ret tt else
  check (negb (bool_decide (d = s))) UB_oob ;;;
  let* l := get_ints s in
  check (n <=? Z.of_nat (length l)) UB_oob ;;;
  set_content d (CInts (take (Z.to_nat n) l)).
Fixpoint copy_all (ds ss : list hval) (n : Z) : M unit :=
  match ds, ss with
  | d :: ds, s :: ss => copy_params d s n ;;; copy_all ds ss n
  | _, _ => ret tt
  end.
(** operator=: conv_test.h:51-61, up to the closing brace.  [self]: the two
    sides are the same object, so that right.stride() is the new array. groups_
    keeps its value. *)
Definition conv_assign_body (self : bool) (this right : cobj) : M cobj :=
  let n := wrap I32 (ndim1 (c_base right) - 2) in
  let* b := assign (c_base this) (c_base right) in
  if n <? 0 then abort else
  let* p := new_arr (4 * n) (CInts (replicate (Z.to_nat n) 0)) in
  let* q := new_arr (4 * n) (CInts (replicate (Z.to_nat n) 0)) in
  let* r := new_arr (4 * n) (CInts (replicate (Z.to_nat n) 0)) in
  copy_all [p; q; r] (if self then [p; q; r] else c_arrs right) n ;;;
  ret (CObj b [p; q; r] (c_groups this)).
(** The function has no return statement, and flowing off the end of a function
    that returns a reference is undefined in C++, whether or not the reference
    is used. *)
Definition conv_assign (self : bool) (this right : cobj) : M cobj :=
  let* _ := conv_assign_body self this right in undef UB_uninit.

(** ** Histories *)
Inductive cop :=
  | CNewArr (bytes : Z) (c : content)
  | CDelArr (p : hval)
  | CDefault (x : nat)
  | CPtrs (x : nat) (meta : list Z) (bufs arrs : list hval) (groups : Z)
  | CVec (x : nat) (n1 : Z) (v1 : list Z) (n2 : Z) (v2 meta : list Z) (data1 data2 : hval)
      (stride padding dilation : list Z) (groups : Z)
  | CCopy (x y : nat)
  | CAssign (x y : nat)
  | CSetData (x : nat) (i : nat) (p : hval) (meta : list Z)   (* set_data1, set_data2 *)
  | CUse (x : nat) (i : nat)            (* access stride()[..], padding()[..], dilation()[..] *)
  | CDestroy (x : nat).

Notation cobjs := (gmap nat cobj).
Definition cthe (V : cobjs) (x : nat) : M cobj := opt (V !! x) UB_dangling.
Definition cstep (op : cop) (V : cobjs) : M cobjs :=
  match op with
  | CNewArr n c => let* _ := new_arr n c in ret V
  | CDelArr p => free_tag ARR p ;;; ret V
  | CDefault x => let* o := conv_default in ret (<[x := o]> V)
  | CPtrs x m bs ps g => let* o := conv_ptrs m bs ps g in ret (<[x := o]> V)
  | CVec x n1 v1 n2 v2 m d1 d2 st pa di g =>
      let* o := conv_vec n1 v1 n2 v2 m d1 d2 st pa di g in ret (<[x := o]> V)
  | CCopy x y => let* o := cthe V y in let* o' := conv_copy o in ret (<[x := o']> V)
  | CAssign x y =>
      let* a := cthe V x in let* b := cthe V y in
      let* a' := conv_assign (bool_decide (x = y)) a b in ret (<[x := a']> V)
  | CSetData x i p m =>
      let* o := cthe V x in ret (<[x := CObj (set_data (c_base o) i p m) (c_arrs o) (c_groups o)]> V)
  | CUse x i =>
      let* o := cthe V x in let* p := opt (c_arrs o !! i) UB_oob in touch p ;;; ret V
  | CDestroy x => let* o := cthe V x in conv_dtor o ;;; ret (delete x V)
  end.
Fixpoint csteps (h : list cop) (V : cobjs) : M cobjs :=
  match h with [] => ret V | op :: h => let* V' := cstep op V in csteps h V' end.
