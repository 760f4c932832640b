(** * SpecNorm: the vocabulary for batch normalisation

    As in [SpecNN]: element values and the IEEE operations of [Base] only. *)
From stdpp Require Import gmap list.
From Coq Require Import ZArith Floats.SpecFloat.
From Verif Require Import Base Mem Spec SpecReal.
Open Scope Z_scope.

(** [d] is sqrt(va + eps): the sum in type [t], the root through double. *)
Definition bn_den (t : tcode) (eps : spec_float) (va d : val) : Prop :=
  exists e a x, of_double t eps = Some e /\ bin_val t OpAdd va e = Some a /\ ~ negative a /\
    to_double t a = Some x /\ of_double t (dsqrt x) = Some d.

(** sc * ((x - me) / d) + bi in type [t] *)
Definition bn_out (t : tcode) (d sc bi me x : val) : option val :=
  match bin_val t OpSub x me with
  | Some y => match bin_val t OpDiv y d with
              | Some z => match bin_val t OpMul sc z with
                          | Some u => bin_val t OpAdd u bi
                          | None => None
                          end
              | None => None
              end
  | None => None
  end.

(** The arguments pass the checks. *)
Definition bn_ok (T : atensor) (axis : Z) (Sc Bi Me Va : atensor) (eps : spec_float) : Prop :=
  (2 <= length (a_dims T) <= 5)%nat /\
  (axis = 1 \/ axis = Z.of_nat (length (a_dims T)) - 1) /\
  a_type Sc = a_type T /\ a_type Bi = a_type T /\ a_type Me = a_type T /\ a_type Va = a_type T /\
  (exists ch, a_dims T !! Z.to_nat axis = Some ch /\ a_dims Sc = [ch] /\ a_dims Bi = [ch] /\
     a_dims Me = [ch] /\ a_dims Va = [ch]) /\
  SFltb eps fzero = false.

(** The channel of a coordinate, and the extents of one channel of one sample. *)
Definition chan (axis : Z) (c : list Z) : Z := nth (Z.to_nat axis) c 0.
Definition bn_lane (T : atensor) (axis : Z) : list Z := tail (delete (Z.to_nat axis) (a_dims T)).

(** No zero extent but the number of samples; extents within int; with more than
    two axes the byte offsets within one channel, and within a parameter, are
    computed in 32 bits. *)
Definition bn_sizes (T : atensor) (axis : Z) : Prop :=
  Forall (fun d => 0 < d) (tail (a_dims T)) /\ Forall (fun d => d <= INT_MAX) (a_dims T) /\
  ((2 < length (a_dims T))%nat ->
     prodZ (bn_lane T axis) <= INT_MAX /\
     Z.of_nat (tsz (a_type T)) * prodZ (bn_lane T axis) <= 2 ^ 32 /\
     Z.of_nat (tsz (a_type T)) * nth (Z.to_nat axis) (a_dims T) 0 <= 2 ^ 32).

(** The same value in terms of real numbers: every operation rounds to type [t]. *)
Definition bn_is (t : tcode) (eps : spec_float) (va sc bi me x w : val) : Prop :=
  exists e a d y z u,
    conv_spec F64 t (VF eps) (Some e) /\ bin_spec t OpAdd va e (Some a) /\
    ~ negative a /\ sqrt_spec t a (Some d) /\
    bin_spec t OpSub x me (Some y) /\ bin_spec t OpDiv y d (Some z) /\
    bin_spec t OpMul sc z (Some u) /\ bin_spec t OpAdd u bi (Some w).

(** What the arguments deserve, in the order in which they are looked at. *)
Definition bn_verdict (T : atensor) (axis : Z) (Sc Bi Me Va : atensor) (eps : spec_float) : status :=
  let n := Z.of_nat (length (a_dims T)) in
  let ch := nth (Z.to_nat axis) (a_dims T) 0 in
  if decide (~ 2 <= n <= 5) then DIMENSIONS_MISMATCH
  else if decide (axis <> 1 /\ axis <> n - 1) then INVALID_ARGUMENT
  else if decide (a_type Sc <> a_type T \/ a_type Bi <> a_type T) then TYPE_MISMATCH
  else if decide (a_dims Sc <> [ch] \/ a_dims Bi <> [ch]) then DIMENSIONS_MISMATCH
  else if decide (a_type Me <> a_type T \/ a_type Va <> a_type T) then TYPE_MISMATCH
  else if decide (a_dims Me <> [ch] \/ a_dims Va <> [ch]) then DIMENSIONS_MISMATCH
  else if SFltb eps fzero then INVALID_ARGUMENT
  else SUCCESS.
