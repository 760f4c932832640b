(** * SpecUnknown: what it means to refuse a tensor of an unsupported type *)
From stdpp Require Import gmap list.
From Coq Require Import ZArith.
From Verif Require Import Base Mem Spec.
Open Scope Z_scope.

(** The type code is none of those of [kInt8] .. [kDouble]. *)
Definition unknown (dt : dtype) : Prop := ~ (0 <= d_code dt <= 9).

(** A tensor of this shape and element size is representable. *)
Definition sized (dt : dtype) (dims : list Z) : Prop :=
  1 <= d_size dt /\ fits (Z.to_nat (d_size dt)) dims.

(** The call reports STATUS_NOT_SUPPORTED (or the lack of memory) and leaves all
    existing memory as it is; the caller's variable keeps its value [o] or
    receives a handle that was not in use. *)
Definition unsupported (m : M (status * hval)) (E : env) (s : st) (o : hval) : Prop :=
  exists r s', m E s = Done r s' /\ keeps s s' /\
    ((r.1 = NOT_SUPPORTED /\ (r.2 = o \/ exists q, r.2 = HPtr q /\ heap s !! q = None)) \/
     ~ alloc_all E /\ r = (ALLOC_FAILED, o)).
