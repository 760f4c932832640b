(** * SpecSoftInt: what softmax does to integers *)
From stdpp Require Import list.
From Coq Require Import ZArith Reals Floats.SpecFloat.
From Verif Require Import Base Mem Spec SpecReal SpecNN SpecError SpecSoft SpecExp.
Open Scope Z_scope.

(** An accurate exp that is exact at 0, as C11 F.10.3.1 demands. *)
Definition exp_std (ex : spec_float -> spec_float) : Prop :=
  exists eps, (0 <= eps <= / 16)%R /\ exp_close ex eps /\ RV (ex (dbl_of_Z 0)) = 1%R.

(** The largest integer whose exponential fits in type [t] *)
Definition exp_limit (t : tcode) : Z :=
  match t with
  | I8 => 4 | U8 => 5 | I16 => 10 | U16 => 11 | I32 => 21 | U32 => 22 | I64 => 43 | U64 => 44
  | F32 | F64 => 0
  end.

(** A lane that softmax can normalise: no exponential is out of range, and not all of them
    truncate to 0. *)
Definition int_lane_ok (t : tcode) (zs : list Z) : Prop :=
  Forall (fun z => z <= exp_limit t) zs /\ (zs <> [] -> Exists (fun z => 0 <= z) zs).

(** 1 for the only non-negative element of a lane, 0 for all others *)
Definition one_hot (zs : list Z) : list Z :=
  (fun z => if (0 <=? z) && (Z.of_nat (length (filter (fun z => 0 <= z) zs)) =? 1) then 1 else 0) <$> zs.

(** The integers in a list of elements *)
Definition ints (vs : list val) : list Z := (fun v => match v with VI z => z | _ => 0 end) <$> vs.
