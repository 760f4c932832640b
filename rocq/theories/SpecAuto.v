(** * SpecAuto: what the test harness should do *)
From stdpp Require Import gmap list.
From Coq Require Import ZArith Reals Floats.SpecFloat.
From Flocq Require Import IEEE754.BinarySingleNaN.
From Verif Require Import Base Mem Spec SpecReal SpecError ModelAuto.
Open Scope Z_scope.

(** Element [i] of a naturally assigned buffer: i + 1 reduced to the type, or the
    float (i + 1) / 10 up to six rounding errors. *)
Definition natural_spec (t : tcode) (i : nat) (w : val) : Prop :=
  if is_float t then
    exists f, w = VF f /\ valid_binary (fprec t) (femax t) f = true /\ is_finite_SF f = true /\
      (Rabs (RV f - IZR (Z.of_nat i + 1) / 10) <= 6 * uround t * (IZR (Z.of_nat i + 1) / 10))%R
  else
    exists z, w = VI z /\ tmin t <= z <= tmax t /\ z mod 2 ^ bits t = (Z.of_nat i + 1) mod 2 ^ bits t.

(** [r] is what resolving the tensor [T] in memory [h] yields. *)
Definition shows (h : gmap nat block) (r : outcome) (T : atensor) : Prop :=
  r_code r = code_of (a_type T) /\ r_dev r = dev_type (a_dev T) /\
  r_rank r = Z.of_nat (length (a_dims T)) /\ ints_at h (r_shape r) (a_dims T) /\
  r_bytes r = prodZ (a_dims T) * Z.of_nat (tsz (a_type T)) mod UINT32_MOD /\
  exists b tg ex, r_buf r = HPtr b /\
    h !! b = Some (Blk tg (CData (cells (a_type T) (a_vals T) ++ ex))).

(** Two results agree: [dev] is the device demanded of the second one. *)
Definition agree (dev : Z) (same : val -> val -> bool) (A U : atensor) : Prop :=
  a_type A = a_type U /\ a_dims A = a_dims U /\ dev_type (a_dev U) = dev /\
  Forall2 (fun x y => same x y = true) (a_vals A) (a_vals U).

(** The operand [x] of a sample is a caller's buffer holding the elements of [T]. *)
Definition supplied (h : gmap nat block) (x : operand) (T : atensor) : Prop :=
  x_dims x = a_dims T /\ x_dtype x = code_of (a_type T) /\ valid T /\
  x_len x / Z.of_nat (tsz (a_type T)) = prodZ (a_dims T) /\
  exists b tg ex, x_data x = HPtr b /\
    h !! b = Some (Blk tg (CData (cells (a_type T) (a_vals T) ++ ex))).

(** [T] on device [d]. *)
Definition on (d : device) (T : atensor) : atensor := AT (a_type T) d (a_dims T) (a_vals T).

(** Under [E], [op] on tensors [T1] and [T2] always makes [T]. *)
Definition computes (E : env) (op : hval -> hval -> hval -> M (status * hval)) (T1 T2 T : atensor) : Prop :=
  forall s p1 p2 o, wf s -> holds (heap s) p1 T1 -> holds (heap s) p2 T2 ->
    makes (op (HPtr p1) (HPtr p2) o) E s T.

(** The operation on naturally assigned operands of [n] elements of type [t] neither
    overflows nor divides by zero: not for the narrow types, whose elements wrap. *)
Definition natural_case (t : tcode) (o : binop) (n : Z) : Prop :=
  match t with
  | I8 | U8 | I16 | U16 => False
  | I32 => o = OpMul -> n * n < 2 ^ 31
  | _ => True
  end.

(** The comparison written for elements of type [t]. *)
Definition same_as (t : tcode) : val -> val -> bool := if is_float t then same_float t else same_int.
