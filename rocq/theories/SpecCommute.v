(** * SpecCommute: what it means that computing and selecting commute *)
From stdpp Require Import list.
From Coq Require Import ZArith Floats.SpecFloat.
From Verif Require Import Base Mem Spec ModelCore ModelBasic.
Open Scope Z_scope.

(** Whenever a tensor equal to [A] is in memory, at whatever address and whatever else is there, [f] applied to it succeeds
    with a new tensor equal to [B]; the implementation of exp is [ex]. *)
Definition gives1 (ex : spec_float -> spec_float) (f : hval -> hval -> M (status * hval)) (A B : atensor) : Prop :=
  forall p o E s, wf s -> alloc_all E -> hooks_ok E -> e_exp E = ex -> holds (heap s) p A -> makes (f (HPtr p) o) E s B.
Definition gives2 (f : hval -> hval -> hval -> M (status * hval)) (A1 A2 B : atensor) : Prop :=
  forall p1 p2 o E s, wf s -> alloc_all E -> hooks_ok E -> holds (heap s) p1 A1 -> holds (heap s) p2 A2 ->
    makes (f (HPtr p1) (HPtr p2) o) E s B.
(** [u] after [v] and [v] after [u] both succeed on [A], with the same result. *)
Definition commute1 ex u v A : Prop :=
  exists B C D, gives1 ex u A B /\ gives1 ex v A C /\ gives1 ex v B D /\ gives1 ex u C D.
(** [v] of the result of [f] is [f] of the results of [v]. *)
Definition commute2 ex f v A1 A2 : Prop :=
  exists B C1 C2 D, gives2 f A1 A2 B /\ gives1 ex v A1 C1 /\ gives1 ex v A2 C2 /\ gives1 ex v B D /\ gives2 f C1 C2 D.

(** The calls that select or regroup the elements of tensors with extents [dims] and elements of [sz] bytes. *)
Inductive selects (sz : nat) (dims : list Z) : (hval -> hval -> M (status * hval)) -> Prop :=
| sel_slice b n st : dims <> [] -> slice_ok dims b n st -> prodZ (slice_dims n st) <= INT_MAX ->
    selects sz dims (fun p o => aitisa_slice p b n st o)
| sel_reshape d : fits sz d -> prodZ d = prodZ dims ->
    selects sz dims (fun p o => aitisa_reshape p d (Z.of_nat (length d)) o)
| sel_squeeze : Forall (fun d => d <> 0) dims ->
    selects sz dims (fun p o => aitisa_squeeze p [] 0 o).
