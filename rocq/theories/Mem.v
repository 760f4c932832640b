(** * Mem: memory, undefined behaviour and the statement language of the model

    A C function of /repo is modelled as a total computable function in the
    monad [M]: it reads an environment (what the C program cannot control: the
    allocator's decisions, rand(), exp(), garbage in registers), transforms a
    state (heap of blocks) and either finishes with a value, hits undefined
    behaviour, aborts in an assertion, or runs out of loop fuel. *)
From stdpp Require Import gmap list.
From Coq Require Import ZArith Floats.SpecFloat.
From Verif Require Import Base.
Open Scope Z_scope.

(** ** Pointers: NULL, the start of block [b], or an indeterminate pointer *)
Inductive hval := HNull | HPtr (b : nat) | HUndef.

Global Instance hval_eq_dec : EqDecision hval.
Proof. solve_decision. Defined.

(** ** Bytes: indeterminate, or the [k]-th byte of the object representation of
    value [v] of type [t].  (No byte order is fixed: a byte sequence can only be
    read back at the type it was written with, anything else is undefined
    behaviour -- C's effective type rule, C11 6.5p7.) *)
Inductive mv := MU | MF (t : tcode) (v : val) (k : nat).

Global Instance mv_eq_dec : EqDecision mv.
Proof. solve_decision. Defined.

Definition encode (t : tcode) (v : val) : list mv :=
  match v with
  | VU => replicate (tsz t) MU
  | _ => MF t v <$> seq 0 (tsz t)
  end.

Definition is_MU (m : mv) : bool := match m with MU => true | _ => false end.

Definition decode (t : tcode) (bs : list mv) : option val :=
  match bs with
  | MF _ v _ :: _ => if bool_decide (bs = encode t v) then Some v else None
  | MU :: _ => if forallb is_MU bs then Some VU else None
  | [] => None
  end.

(** ** Blocks *)

(** [struct _TensorImpl] with its [Shape] and [Layout] inlined:
    src/core/tensor.h:13-27, src/core/shape.h:25-39. *)
Record timpl := TI {
  t_size : Z; t_offset : Z; t_ndim : Z; t_dims : hval;
  t_ltype : Z; t_min2maj : hval; t_storage : hval }.

(** [struct _StorageImpl]: src/core/storage.h:13-18. *)
Record simpl := SI { s_dtype : dtype; s_device : device; s_size : Z; s_data : hval }.

Inductive content :=
  | CTensor (t : timpl)        (* a tensor header *)
  | CStorage (s : simpl)       (* a storage header *)
  | CInts (l : list Z)         (* an int64_t array: dims or min2maj *)
  | CData (l : list mv)        (* an element buffer, byte by byte *)
  | CRaw (n : Z).              (* n bytes whose content the model keeps in local
                                  variables (scratch arrays), or a header that
                                  is not initialised yet *)

(** A block remembers which allocator it came from (see [e_alloc] below). *)
Record block := Blk { b_tag : nat; b_content : content }.

Record st := St {
  heap : gmap nat block;  (* live blocks *)
  ctr : nat;              (* number of allocation requests so far; next block id *)
  rpos : nat              (* number of rand() calls so far *)
}.

(** ** Environment: everything outside the library's control *)
Record env := Env {
  e_alloc_ok : nat -> nat -> Z -> bool;
    (* does this allocator grant the n-th request, of that many bytes? *)
  e_alloc : nat;                  (* identity of the installed raw_alloc   (malloc = 0) *)
  e_dealloc : nat;                (* identity of the installed raw_dealloc (free = 0) *)
  e_rand : nat -> Z;              (* results of rand() *)
  e_exp : spec_float -> spec_float; (* libm's exp *)
  e_garbage : nat -> status;      (* value seen by the caller of a function that
                                     falls off its end without return *)
  e_fuel : nat                    (* bound on the iterations of while loops *)
}.

Inductive ub :=
  | UB_oob | UB_null | UB_dangling | UB_uninit | UB_overflow | UB_divzero
  | UB_fconv | UB_free | UB_type.

Inductive res (A : Type) :=
  | Done (a : A) (s : st)
  | UB (u : ub)
  | Abort      (* a failed assert() *)
  | Diverge.   (* a while loop exceeded the fuel *)
Arguments Done {A} _ _. Arguments UB {A} _. Arguments Abort {A}. Arguments Diverge {A}.

Definition M (A : Type) := env -> st -> res A.

Definition ret {A} (a : A) : M A := fun _ s => Done a s.
Definition bind {A B} (m : M A) (k : A -> M B) : M B := fun E s =>
  match m E s with
  | Done a s' => k a E s'
  | UB u => UB u
  | Abort => Abort
  | Diverge => Diverge
  end.
Notation "'let*' p ':=' m 'in' k" := (bind m (fun p => k))
  (at level 200, p pattern, m at level 100, k at level 200).
Notation "m ;;; k" := (bind m (fun _ => k)) (at level 199, right associativity).

Definition undef {A} (u : ub) : M A := fun _ _ => UB u.
Definition abort {A} : M A := fun _ _ => Abort.
Definition diverge {A} : M A := fun _ _ => Diverge.
Definition check (b : bool) (u : ub) : M unit := if b then ret tt else undef u.
Definition opt {A} (o : option A) (u : ub) : M A :=
  match o with Some a => ret a | None => undef u end.
(** [assert(b)], src/basic/index_utils.c (assertions are enabled in the default
    Debug build, /repo/CMakeLists.txt). *)
Definition assert_ (b : bool) : M unit := if b then ret tt else abort.
Definition ask {A} (f : env -> A) : M A := fun E s => Done (f E) s.

(** Signed overflow checks for int64_t and int expressions. *)
Definition ck64 (z : Z) : M Z :=
  check ((INT64_MIN <=? z) && (z <=? INT64_MAX)) UB_overflow ;;; ret z.
Definition ck32 (z : Z) : M Z :=
  check ((INT_MIN <=? z) && (z <=? INT_MAX)) UB_overflow ;;; ret z.
(** Conversion int64_t -> int (implementation-defined, modulo 2^32). *)
Definition to_int (z : Z) : Z := wrap I32 z.
(** Conversion to size_t. *)
Definition to_size (z : Z) : Z := z mod SIZE_MOD.

(** C division and remainder on int64_t (truncating). *)
Definition div64 (a b : Z) : M Z :=
  check (negb (b =? 0)) UB_divzero ;;; ck64 (Z.quot a b).
Definition rem64 (a b : Z) : M Z :=
  check (negb (b =? 0)) UB_divzero ;;; let* _ := ck64 (Z.quot a b) in ret (Z.rem a b).

(** ** Local arrays: C arrays whose address does not escape, kept as lists.
    Every access is bounds checked. *)
Definition zget {A} (l : list A) (i : Z) : option A :=
  if i <? 0 then None else l !! Z.to_nat i.
Definition aget {A} (l : list A) (i : Z) : M A := opt (zget l i) UB_oob.
Definition aset {A} (l : list A) (i : Z) (x : A) : M (list A) :=
  check ((0 <=? i) && (i <? Z.of_nat (length l))) UB_oob ;;;
  ret (<[Z.to_nat i := x]> l).
(** Arrays that may still hold indeterminate entries. *)
Definition uget (l : list (option Z)) (i : Z) : M Z :=
  let* o := aget l i in opt o UB_uninit.

(** The content of a fresh scratch array of [n] entries behind [p]; behind NULL
    there is no entry to access. *)
Definition arr (p : hval) (n : Z) : list (option Z) :=
  match p with HNull => [] | _ => replicate (Z.to_nat n) None end.
(** Reading a whole, possibly uninitialised, array. *)
Definition force_array (l : list (option Z)) : M (list Z) :=
  opt (mapM id l) UB_uninit.

(** ** Heap primitives *)
Definition get_heap : M (gmap nat block) := fun _ s => Done (heap s) s.
Definition put_block (b : nat) (x : block) : M unit := fun _ s =>
  Done tt (St (<[b := x]> (heap s)) (ctr s) (rpos s)).

(** raw_alloc / malloc of [n] bytes ([n] already converted to size_t) tagged
    with allocator [tag]; the new block gets content [c n].  A request above
    PTRDIFF_MAX always fails; otherwise the environment decides (this includes
    requests for 0 bytes, for which C allows NULL).
    src/core/allocator.h:8-31, src/core/allocator.c:5. *)
Definition alloc_tag (tag : nat) (n : Z) (c : Z -> content) : M hval := fun E s =>
  let k := ctr s in
  if (n <=? PTRDIFF_MAX) && e_alloc_ok E tag k n
  then Done (HPtr k) (St (<[k := Blk tag (c n)]> (heap s)) (S k) (rpos s))
  else Done HNull (St (heap s) (S k) (rpos s)).

(** aitisa_default_cpu_allocator()->raw_alloc(n) *)
Definition raw_alloc (n : Z) (c : Z -> content) : M hval := fun E s =>
  alloc_tag (e_alloc E) (to_size n) c E s.
(** libc malloc, called directly in src/math/binary_op.c:236 and siblings *)
Definition libc_malloc (n : Z) (c : Z -> content) : M hval := alloc_tag 0 (to_size n) c.

(** Releasing: NULL is ignored, otherwise the block must be live and must have
    come from the matching allocator. *)
Definition free_tag (tag : nat) (p : hval) : M unit := fun E s =>
  match p with
  | HNull => Done tt s
  | HUndef => UB UB_uninit
  | HPtr b =>
      match heap s !! b with
      | Some x => if bool_decide (b_tag x = tag)
                  then Done tt (St (delete b (heap s)) (ctr s) (rpos s))
                  else UB UB_free
      | None => UB UB_free
      end
  end.
Definition raw_dealloc (p : hval) : M unit := fun E s => free_tag (e_dealloc E) p E s.
Definition libc_free (p : hval) : M unit := free_tag 0 p.

(** A scratch array of [n] bytes (content kept in local variables). *)
Definition scratch (n : Z) : M hval := raw_alloc n CRaw.

(** Dereferencing a pointer to a live block. *)
Definition deref (p : hval) : M block := fun E s =>
  match p with
  | HNull => UB UB_null
  | HUndef => UB UB_uninit
  | HPtr b => match heap s !! b with Some x => Done x s | None => UB UB_dangling end
  end.

(** Evidence that an array behind [p] may be accessed at all: used where the C
    code indexes a freshly allocated array without testing it for NULL. *)
Definition touch (p : hval) : M unit := let* _ := deref p in ret tt.

Definition is_null (p : hval) : bool := match p with HNull => true | _ => false end.

Definition get_timpl (p : hval) : M timpl :=
  let* x := deref p in
  match b_content x with CTensor t => ret t | _ => undef UB_type end.
Definition get_simpl (p : hval) : M simpl :=
  let* x := deref p in
  match b_content x with CStorage t => ret t | _ => undef UB_type end.
Definition get_ints (p : hval) : M (list Z) :=
  let* x := deref p in
  match b_content x with CInts l => ret l | _ => undef UB_type end.
Definition get_bytes (p : hval) : M (list mv) :=
  let* x := deref p in
  match b_content x with CData l => ret l | _ => undef UB_type end.

(** Overwriting the content of a live block. *)
Definition set_content (p : hval) (c : content) : M unit :=
  let* x := deref p in
  match p with
  | HPtr b => put_block b (Blk (b_tag x) c)
  | _ => undef UB_null
  end.

(** Typed element access at byte offset [off] of the buffer [p]. *)
Definition load (p : hval) (t : tcode) (off : Z) : M val :=
  let* l := get_bytes p in
  check ((0 <=? off) && (off + Z.of_nat (tsz t) <=? Z.of_nat (length l))) UB_oob ;;;
  opt (decode t (take (tsz t) (drop (Z.to_nat off) l))) UB_type.

Definition store_bytes (p : hval) (off : Z) (bs : list mv) : M unit :=
  let* l := get_bytes p in
  check ((0 <=? off) && (off + Z.of_nat (length bs) <=? Z.of_nat (length l))) UB_oob ;;;
  set_content p (CData (take (Z.to_nat off) l ++ bs
                        ++ drop (Z.to_nat off + length bs) l)).

Definition store (p : hval) (t : tcode) (off : Z) (v : val) : M unit :=
  store_bytes p off (encode t v).

(** ((T* )p)[i] *)
Definition loadi (p : hval) (t : tcode) (i : Z) : M val := load p t (i * Z.of_nat (tsz t)).
Definition storei (p : hval) (t : tcode) (i : Z) (v : val) : M unit :=
  store p t (i * Z.of_nat (tsz t)) v.

(** memcpy(dst + doff, src + soff, n) between element buffers.  Zero-length
    copies are modelled as no-ops. *)
Definition memcpy (d : hval) (doff : Z) (s : hval) (soff : Z) (n : Z) : M unit :=
  if to_size n =? 0 then ret tt
  else
    let* l := get_bytes s in
    let n := to_size n in
    check ((0 <=? soff) && (soff + n <=? Z.of_nat (length l))) UB_oob ;;;
    store_bytes d doff (take (Z.to_nat n) (drop (Z.to_nat soff) l)).

(** ** Loops *)

(** for (i = i0; i < i0 + n; ++i) s = body(i, s), no early exit *)
Fixpoint iter {S} (n : nat) (i : Z) (body : Z -> S -> M S) (s : S) : M S :=
  match n with
  | O => ret s
  | S n' => let* s' := body i s in iter n' (i + 1) body s'
  end.

(** for (int64_t i = lo; i < hi; ++i) *)
Definition for64 {S} (lo hi : Z) (body : Z -> S -> M S) (s : S) : M S :=
  iter (Z.to_nat (hi - lo)) lo body s.

(** for (int i = lo; i < hi; ++i) with hi possibly beyond INT_MAX: the
    increment past INT_MAX is signed overflow. *)
Definition for32 {S} (lo hi : Z) (body : Z -> S -> M S) (s : S) : M S :=
  iter (Z.to_nat (hi - lo)) lo
    (fun i s => let* s' := body i s in
                check (i <? INT_MAX) UB_overflow ;;; ret s') s.

(** Loops whose body may [return] from the enclosing function. *)
Inductive ctl (S R : Type) := Next (s : S) | Return (r : R).
Arguments Next {S R} _. Arguments Return {S R} _.

Fixpoint iter_ret {S R} (n : nat) (i : Z) (body : Z -> S -> M (ctl S R)) (s : S)
  : M (ctl S R) :=
  match n with
  | O => ret (Next s)
  | S n' =>
      let* c := body i s in
      match c with
      | Next s' => iter_ret n' (i + 1) body s'
      | Return r => ret (Return r)
      end
  end.

(** for (i = n - 1; i >= 0; --i) s = body(i, s) *)
Fixpoint iter_down {S} (n : nat) (body : Z -> S -> M S) (s : S) : M S :=
  match n with
  | O => ret s
  | S n' => let* s' := body (Z.of_nat n') s in iter_down n' body s'
  end.

(** The same with [break]: the body says whether to go on. *)
Fixpoint iter_down_break {S} (n : nat) (body : Z -> S -> M (S * bool)) (s : S) : M S :=
  match n with
  | O => ret s
  | S n' => let* (s', go) := body (Z.of_nat n') s in
            if go then iter_down_break n' body s' else ret s'
  end.

(** while (cond) body, with fuel from the environment; the body says whether
    to go on. *)
Fixpoint while_fuel {S} (n : nat) (body : S -> M (S * bool)) (s : S) : M S :=
  match n with
  | O => diverge
  | S n' =>
      let* (s', go) := body s in
      if go then while_fuel n' body s' else ret s'
  end.
Definition while_ {S} (body : S -> M (S * bool)) (s : S) : M S :=
  fun E x => while_fuel (e_fuel E) body s E x.
