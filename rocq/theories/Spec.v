(** * Spec: the vocabulary in which the properties are stated

    Nothing here refers to the model functions of Model*.v: only to the memory
    of Mem.v and the element values of Base.v. *)
From stdpp Require Import gmap list.
From Coq Require Import ZArith Floats.SpecFloat.
From Verif Require Import Base Mem.
Open Scope Z_scope.

(** ** Abstract tensors *)
Record atensor := AT {
  a_type : tcode; a_dev : device; a_dims : list Z; a_vals : list val }.

Definition prodZ (l : list Z) : Z := foldr Z.mul 1 l.
Global Arguments prodZ : simpl never.

(** Dims that the library can handle without overflowing int64_t: extents are
    non-negative and the byte count, with zero extents counted as 1, fits. *)
Definition fits (sz : nat) (dims : list Z) : Prop :=
  Forall (fun d => 0 <= d) dims /\
  Z.of_nat (length dims) <= INT_MAX /\
  Z.of_nat sz * prodZ (Z.max 1 <$> dims) <= INT64_MAX.

Definition valid (T : atensor) : Prop :=
  fits (tsz (a_type T)) (a_dims T) /\
  Z.of_nat (length (a_vals T)) = prodZ (a_dims T).

(** Every element is an initialised value of the tensor's type. *)
Definition init (T : atensor) : Prop := Forall (val_ok (a_type T)) (a_vals T).

(** ** Tensors in memory *)

(** The bytes of a list of elements. *)
Definition cells (t : tcode) (vs : list val) : list mv := vs ≫= encode t.

(** The layout order of a row-major tensor of rank [n]: n-1, ..., 0. *)
Definition rowmajor (n : nat) : list Z :=
  (fun i => Z.of_nat n - 1 - Z.of_nat i) <$> seq 0 n.

(** An int64_t array; an empty one is represented by NULL. *)
Definition ints_at (h : gmap nat block) (p : hval) (l : list Z) : Prop :=
  match l with
  | [] => p = HNull
  | _ => exists b tg, p = HPtr b /\ h !! b = Some (Blk tg (CInts l))
  end.

(** Handle [p] leads to a tensor with this data type, device, dims, layout order
    and data buffer. *)
Definition view (h : gmap nat block) (p : nat) (dt : dtype) (dev : device)
    (dims order : list Z) (data : nat) : Prop :=
  exists tg tg' pd pm ps,
    h !! p = Some (Blk tg (CTensor (TI (prodZ dims) 0 (Z.of_nat (length dims))
                                       pd 0 pm (HPtr ps)))) /\
    ints_at h pd dims /\ ints_at h pm order /\
    h !! ps = Some (Blk tg' (CStorage (SI dt dev (prodZ dims) (HPtr data)))).

(** Handle [p] denotes the abstract tensor [T] (its buffer may be longer than
    needed when it was supplied by the caller). *)
Definition holds (h : gmap nat block) (p : nat) (T : atensor) : Prop :=
  valid T /\
  exists data tg extra,
    view h p (dtype_of (a_type T)) (a_dev T) (a_dims T)
         (rowmajor (length (a_dims T))) data /\
    h !! data = Some (Blk tg (CData (cells (a_type T) (a_vals T) ++ extra))).

(** The blocks of a tensor except its data buffer [px]: header [p], storage [ps]
    and, unless the rank is 0, dims [pd] and layout order [pm]. *)
Definition header_map (tag p pd pm ps px : nat) (dt : dtype) (dev : device)
    (dims : list Z) : gmap nat block :=
  let ptr b := match dims with [] => HNull | _ => HPtr b end in
  <[p := Blk tag (CTensor (TI (prodZ dims) 0 (Z.of_nat (length dims))
                              (ptr pd) 0 (ptr pm) (HPtr ps)))]>
  (<[ps := Blk tag (CStorage (SI dt dev (prodZ dims) (HPtr px)))]>
   match dims with
   | [] => ∅
   | _ => <[pd := Blk tag (CInts dims)]>
          (<[pm := Blk tag (CInts (rowmajor (length dims)))]> ∅)
   end).

(** All the blocks of a tensor. *)
Definition tensor_map (tag p pd pm ps px : nat) (dt : dtype) (dev : device)
    (dims : list Z) (bytes : list mv) : gmap nat block :=
  <[px := Blk tag (CData bytes)]> (header_map tag p pd pm ps px dt dev dims).

(** [blocks] is exactly the memory of a tensor [T] with handle [p], all of it
    obtained from allocator [tag]. *)
Definition owns (tag p : nat) (T : atensor) (blocks : gmap nat block) : Prop :=
  exists pd pm ps px,
    NoDup [p; pd; pm; ps; px] /\
    blocks = tensor_map tag p pd pm ps px (dtype_of (a_type T)) (a_dev T)
               (a_dims T) (cells (a_type T) (a_vals T)).

(** ** States *)

(** Live blocks were allocated earlier. *)
Definition wf (s : st) : Prop := forall b, is_Some (heap s !! b) -> (b < ctr s)%nat.

(** The environment never refuses memory (up to PTRDIFF_MAX bytes). *)
Definition alloc_all (E : env) : Prop := forall g k n, e_alloc_ok E g k n = true.

(** Memory is obtained from and returned to the same allocator. *)
Definition hooks_ok (E : env) : Prop := e_dealloc E = e_alloc E.

(** From [s] to [s'] the only change of memory is a new tensor [T] with handle
    [p], consisting of fresh blocks; [k] random numbers were drawn. *)
Definition created_k (E : env) (s s' : st) (p : nat) (T : atensor) (k : nat) : Prop :=
  valid T /\
  exists new,
    owns (e_alloc E) p T new /\
    heap s' = new ∪ heap s /\
    new ##ₘ heap s /\
    (forall b, is_Some (new !! b) -> (ctr s <= b < ctr s')%nat) /\
    (ctr s <= ctr s')%nat /\
    rpos s' = (rpos s + k)%nat.
Definition created E s s' p T := created_k E s s' p T 0.

(** Nothing that existed in [s] has changed in [s'] (there may be new, leaked,
    blocks). *)
Definition keeps (s s' : st) : Prop :=
  heap s ⊆ heap s' /\ wf s' /\ (ctr s <= ctr s')%nat.

(** ** Row-major indexing *)

(** Position of coordinate [idx] in a row-major tensor of extents [dims]. *)
Fixpoint ravel (dims idx : list Z) : Z :=
  match dims, idx with
  | _ :: ds, i :: is => i * prodZ ds + ravel ds is
  | _, _ => 0
  end.

(** Coordinates of linear position [k]. *)
Fixpoint unravel (dims : list Z) (k : Z) : list Z :=
  match dims with
  | [] => []
  | d :: ds => (k / prodZ ds) mod d :: unravel ds k
  end.

Definition in_box (dims idx : list Z) : Prop :=
  Forall2 (fun d i => 0 <= i < d) dims idx.

(** ** Outcomes of API calls *)

(** The call succeeds with a fresh tensor [T]; the only change of memory is that
    tensor ([k] random numbers were drawn). *)
Definition makes_k (m : M (status * hval)) (E : env) (s : st) (T : atensor) (k : nat) : Prop :=
  exists s' p, m E s = Done (SUCCESS, HPtr p) s' /\ created_k E s s' p T k.
Definition makes m E s T := makes_k m E s T 0.

(** The call reports [x] and has no effect at all on *output ([o]) and memory. *)
Definition refuses (m : M (status * hval)) (E : env) (s : st) (o : hval) (x : status) : Prop :=
  m E s = Done (x, o) s.

(** Under an arbitrary allocator: the call makes [T], or some allocation was
    refused and it reports that, without writing *output or changing any existing
    memory. *)
Definition makes_or_nomem_k m E s (o : hval) T k : Prop :=
  makes_k m E s T k \/
  (~ alloc_all E /\ exists s', m E s = Done (ALLOC_FAILED, o) s' /\ keeps s s').
Definition makes_or_nomem m E s o T := makes_or_nomem_k m E s o T 0.

(** ** Layouts *)

(** [order] lists the axes from minor to major, each exactly once. *)
Definition layout (n : nat) (order : list Z) : Prop :=
  Permutation order (Z.of_nat <$> seq 0 n).

(** The stride of an axis: the product of the extents of the more minor axes. *)
Fixpoint stride_in (dims order : list Z) (axis : Z) : Z :=
  match order with
  | [] => 1
  | m :: ms => if m =? axis then 1
               else default 0 (dims !! Z.to_nat m) * stride_in dims ms axis
  end.

Definition dotZ (l k : list Z) : Z := foldr Z.add 0 (zip_with Z.mul l k).

(** ** Broadcasting *)

(** Joint extent of two extents: equal, or one of them is 1. *)
Definition bdim (a b : Z) : option Z :=
  if a =? b then Some a else if a =? 1 then Some b else if b =? 1 then Some a else None.

(** Joint shape, innermost extent first. *)
Fixpoint bcast_rev (l k : list Z) : option (list Z) :=
  match l, k with
  | [], _ => Some k
  | _, [] => Some l
  | a :: l, b :: k =>
      match bdim a b, bcast_rev l k with
      | Some x, Some r => Some (x :: r)
      | _, _ => None
      end
  end.

(** The joint shape of two shapes, aligned at their last axis; [None] if they are
    incompatible. *)
Definition bcast (l k : list Z) : option (list Z) :=
  match bcast_rev (rev l) (rev k) with Some r => Some (rev r) | None => None end.

(** ** Squeezing *)

(** The dims without the unit extents among the [named] axes. *)
Fixpoint squeeze_dims (named : nat -> bool) (dims : list Z) : list Z :=
  match dims with
  | [] => []
  | d :: ds =>
      let rest := squeeze_dims (fun i => named (S i)) ds in
      if named O && (d =? 1) then rest else d :: rest
  end.

(** Division rounding up. *)
Definition cdiv (s t : Z) : Z := - ((- s) / t).

(** ** Tensors as functions of coordinates *)

(** The element of [T] at coordinate [c]. *)
Definition at_ (T : atensor) (c : list Z) : val :=
  default VU (a_vals T !! Z.to_nat (ravel (a_dims T) c)).

(** The row-major listing of a function on the box [dims]. *)
Definition tab (dims : list Z) (f : list Z -> val) : list val :=
  (fun k => f (unravel dims (Z.of_nat k))) <$> seq 0 (Z.to_nat (prodZ dims)).

(** ** Slices *)

(** A legal request: on every axis of extent [d] the range [b, b+s) lies inside
    [0, d), starting inside it, and the step is positive; all are ints. *)
Fixpoint slice_ok (dims begin size step : list Z) : Prop :=
  match dims, begin, size, step with
  | d :: ds, b :: bs, s :: ss, t :: ts =>
      (0 <= b < d /\ 0 <= s /\ b + s <= d /\ b + s <= INT_MAX /\ 1 <= t <= INT_MAX)
      /\ slice_ok ds bs ss ts
  | [], [], [], [] => True
  | _, _, _, _ => False
  end.

(** Output extents: ceil(size/step), axes of size 0 are dropped. *)
Fixpoint slice_dims (size step : list Z) : list Z :=
  match size, step with
  | s :: ss, t :: ts => if s =? 0 then slice_dims ss ts else cdiv s t :: slice_dims ss ts
  | _, _ => []
  end.

(** The input coordinate read for output coordinate [c]. *)
Fixpoint slice_src (begin size step c : list Z) : list Z :=
  match begin, size, step with
  | b :: bs, s :: ss, t :: ts =>
      if s =? 0 then b :: slice_src bs ss ts c
      else match c with
           | i :: c => b + t * i :: slice_src bs ss ts c
           | [] => []
           end
  | _, _, _ => []
  end.

(** ** Conversions *)

(** Every value of type [t1] is also a value of type [t2]. *)
Definition contains (t2 t1 : tcode) : Prop :=
  match is_float t1, is_float t2 with
  | false, false => tmin t2 <= tmin t1 /\ tmax t1 <= tmax t2
  | false, true => - 2 ^ fprec t2 <= tmin t1 /\ tmax t1 <= 2 ^ fprec t2
  | true, true => fprec t1 <= fprec t2 /\ femax t1 <= femax t2
  | true, false => False
  end.

(** ** Products of vectors and matrices *)

(** c = 0; for q < k: c += f q * g q, in the element type [t]; [None] if some step
    is undefined. *)
Definition inner (t : tcode) (k : Z) (f g : Z -> val) : option val :=
  foldl (fun acc q => acc ≫= fun c => mac_val t c (f (Z.of_nat q)) (g (Z.of_nat q)))
    (Some (zero_val t)) (seq 0 (Z.to_nat k)).

(** h 0 + ... + h (n-1) *)
Definition sum_to (n : nat) (h : Z -> Z) : Z := foldr Z.add 0 ((fun q => h (Z.of_nat q)) <$> seq 0 n).

(** The coordinate of an operand of extents [dims] seen from coordinate [c] of the
    joint shape: aligned at the last axis, 0 along extents of 1. *)
Definition bproj (dims c : list Z) : list Z :=
  zip_with (fun d x => if d =? 1 then 0 else x) dims (drop (length c - length dims) c).
