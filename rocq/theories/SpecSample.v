(** * SpecSample: ownership of the buffers of the auto-test objects *)
From stdpp Require Import gmap list.
From Coq Require Import ZArith.
From Verif Require Import Base Mem Spec ModelSample.
Open Scope Z_scope.

(** Object [x] exists and has not been moved from. *)
Definition alive (V : objs) (x : nat) : Prop :=
  exists o, V !! x = Some o /\ o_count o <> HNull.
(** Buffer [b] belongs to object [x]; to some object. *)
Definition owner (V : objs) (x b : nat) : Prop :=
  exists o, V !! x = Some o /\ HPtr b ∈ o_bufs o.
Definition owned (V : objs) (b : nat) : Prop := exists x, owner V x b.
(** Another object shares the buffers of [x]. *)
Definition shared (V : objs) (x : nat) : Prop :=
  exists y o o', y <> x /\ V !! x = Some o /\ V !! y = Some o' /\
    o_count o' = o_count o /\ o_count o <> HNull.

(** A pointer that the program may hand over: NULL, or an array made by [new T[n]]
    that belongs to no object. *)
Definition givable (V : objs) (h : gmap nat block) (p : hval) : Prop :=
  p = HNull \/ exists b c, p = HPtr b /\ h !! b = Some (Blk ARR c) /\ ~ owned V b.
Definition distinct (l : list hval) : Prop :=
  forall i j b, l !! i = Some (HPtr b) -> l !! j = Some (HPtr b) -> i = j.

(** The discipline under which the property is true. *)
Definition legal (op : hop) (V : objs) (h : gmap nat block) : Prop :=
  match op with
  | NewArr _ _ => True
  | DelArr p => givable V h p
  | Default x _ => V !! x = None
  | Ptrs x k _ bs =>
      V !! x = None /\ k <> Result /\ length bs = nbufs k /\ Forall (givable V h) bs /\ distinct bs
  | Vec1 x n v _ d => V !! x = None /\ n <= Z.of_nat (length v) /\ givable V h d
  | Vec2 x n1 v1 n2 v2 _ d1 d2 =>
      V !! x = None /\ n1 <= Z.of_nat (length v1) /\ n2 <= Z.of_nat (length v2) /\
      givable V h d1 /\ givable V h d2 /\ (d1 = d2 -> d1 = HNull)
  | Copy x y => V !! x = None /\ alive V y /\ Z.of_nat (size V) < INT_MAX
  | Move x y => V !! x = None /\ is_Some (V !! y)
  | Assign x y =>
      alive V x /\ alive V y /\ (x <> y \/ shared V x) /\ Z.of_nat (size V) <= INT_MAX /\
      exists a b, V !! x = Some a /\ V !! y = Some b /\ o_class a = o_class b /\ o_class a <> Result
  | SetData x i p _ =>
      alive V x /\ ~ shared V x /\ givable V h p /\
      exists o, V !! x = Some o /\ o_bufs o !! i = Some HNull
  | SetResult x n dp xp len _ =>
      alive V x /\ ~ shared V x /\ 0 <= len < 2 ^ 32 /\
      (exists o, V !! x = Some o /\ o_class o = Result /\ Forall (eq HNull) (o_bufs o)) /\
      (n <= 0 \/ exists b tg l, dp = HPtr b /\ h !! b = Some (Blk tg (CInts l)) /\ n <= Z.of_nat (length l)) /\
      (len = 0 \/ exists b tg l, xp = HPtr b /\ h !! b = Some (Blk tg (CData l)) /\ len <= Z.of_nat (length l))
  | Use x i => alive V x /\ exists o b, V !! x = Some o /\ o_bufs o !! i = Some (HPtr b)
  | Destroy x => is_Some (V !! x)
  end.

(** Sizes that can be allocated at all. *)
Definition roomy (op : hop) : Prop :=
  match op with
  | NewArr n _ => n <= PTRDIFF_MAX
  | Vec1 _ n _ _ _ => 0 <= 8 * n <= PTRDIFF_MAX
  | Vec2 _ n1 _ n2 _ _ _ _ => 0 <= 8 * n1 <= PTRDIFF_MAX /\ 0 <= 8 * n2 <= PTRDIFF_MAX
  | SetResult _ n _ _ _ _ => 0 <= 8 * n <= PTRDIFF_MAX
  | _ => True
  end.

(** Every step of history [h] from objects [V] in state [s] obeys the
    discipline. *)
Fixpoint legal_run (E : env) (h : list hop) (V : objs) (s : st) : Prop :=
  match h with
  | [] => True
  | op :: h => legal op V (heap s) /\
      forall V' s', step op V E s = Done V' s' -> legal_run E h V' s'
  end.

(** Objects and memory that a program can arrive at by such a history. *)
Definition reach (E : env) (V : objs) (s : st) : Prop :=
  exists h s0, wf s0 /\ legal_run E h ∅ s0 /\ steps h ∅ E s0 = Done V s.

(** One step releases exactly the buffers whose last owner disappears: a buffer
    that keeps an owner stays as it is, one that loses its last owner is
    released.  No other block changes, except counter cells and an array the
    program deletes itself.  Fresh memory is new. *)
Record releases (op : hop) (V : objs) (s : st) (V' : objs) (s' : st) : Prop := Releases {
  r_owned : forall b, owned V b ->
    (owned V' b /\ heap s' !! b = heap s !! b) \/ (~ owned V' b /\ heap s' !! b = None);
  r_other : forall b t c, heap s !! b = Some (Blk t c) -> ~ owned V b -> t <> CNT ->
    op <> DelArr (HPtr b) -> heap s' !! b = Some (Blk t c);
  r_new : forall b, is_Some (heap s' !! b) -> is_Some (heap s !! b) \/ (ctr s <= b)%nat;
  r_ctr : (ctr s <= ctr s')%nat
}.

(** Histories of input objects without assignment. *)
Definition no_assign (op : hop) : Prop :=
  match op with
  | Assign _ _ | Default _ Result | SetResult _ _ _ _ _ _ => False
  | _ => True
  end.
(** No counter cell is live. *)
Definition no_count (h : gmap nat block) : Prop :=
  forall b c, h !! b <> Some (Blk CNT c).

(** [n] copies of object 0. *)
Definition copies (n : nat) : list hop := (fun i => Copy (S i) 0) <$> seq 0 n.
