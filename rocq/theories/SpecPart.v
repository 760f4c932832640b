(** * SpecPart: selecting samples and channels *)
From stdpp Require Import list.
From Coq Require Import ZArith Floats.SpecFloat.
From Verif Require Import Base Mem Spec ModelCore ModelBasic SpecCommute.
Open Scope Z_scope.

(** Of a tensor with extents [_ :: _ :: sd]: [n] indices of the first axis from [b] on, every [t]-th, and [m] indices of the
    second axis from [c] on, every [u]-th; everything of the other axes. *)
Definition part (b n t c m u : Z) (sd : list Z) (p o : hval) : M (status * hval) :=
  aitisa_slice p (b :: c :: replicate (length sd) 0) (n :: m :: sd) (t :: u :: replicate (length sd) 1) o.
(** The request is legal for extents [d1 :: d2 :: sd] and the result has at most INT_MAX elements. *)
Definition part_ok (b n t c m u d1 d2 : Z) (sd : list Z) : Prop :=
  0 <= b /\ 0 < n /\ b + n <= d1 /\ b + n <= INT_MAX /\ 1 <= t <= INT_MAX /\
  0 <= c /\ 0 < m /\ c + m <= d2 /\ c + m <= INT_MAX /\ 1 <= u <= INT_MAX /\
  Forall (fun d => 0 < d <= INT_MAX) sd /\ cdiv n t * (cdiv m u * prodZ sd) <= INT_MAX.
(** Of a vector: [m] indices from [c] on, every [u]-th. *)
Definition part1 (c m u : Z) (p o : hval) : M (status * hval) := aitisa_slice p [c] [m] [u] o.
