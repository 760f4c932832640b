(** * SpecNN: the vocabulary for the operations of src/nn

    Like [Spec], this file does not refer to the model functions: only to the
    element values and the IEEE operations of [Base] (for whose meaning on real
    numbers see [bin_spec] and [conv_spec] in SpecReal). *)
From stdpp Require Import gmap list.
From Coq Require Import ZArith Reals Floats.SpecFloat.
From Flocq Require Core.
From Flocq Require Import IEEE754.BinarySingleNaN.
From Verif Require Import Base Mem Spec SpecReal.
Open Scope Z_scope.

(** The element is greater than zero. *)
Definition positive (v : val) : Prop :=
  match v with
  | VI z => 0 < z
  | VF f => (0 < RV f)%R \/ f = S754_infinity false
  | VU => False
  end.

(** max(v, 0), with NaN and -0 mapped to +0 *)
Definition relu_spec (t : tcode) (v w : val) : Prop :=
  (positive v -> w = v) /\ (~ positive v -> w = zero_val t).

(** An implementation of exp on double. *)
Definition exp_ok (f : spec_float -> spec_float) : Prop :=
  forall x, valid_binary 53 1024 x = true -> valid_binary 53 1024 (f x) = true.

(** [g] is the double with exactly the value of the float or double [f]. *)
Definition same_float (f g : spec_float) : Prop :=
  valid_binary 53 1024 g = true /\
  (is_finite_SF f = false -> g = f) /\
  (is_finite_SF f = true -> is_finite_SF g = true /\ RV g = RV f /\ sign_SF g = sign_SF f).

(** (t)(1 / (1 + exp(-x))), computed in double *)
Definition sigmoid_spec (ex : spec_float -> spec_float) (t : tcode) (v w : val) : Prop :=
  exists x g, v = VF x /\ same_float (SFopp x) g /\
    w = VF (flt_conv t (ddiv (dbl_of_Z 1) (dadd (dbl_of_Z 1) (ex g)))).

(** (t)((exp(x) - exp(-x)) / (exp(x) + exp(-x))), computed in double *)
Definition tanh_spec (ex : spec_float -> spec_float) (t : tcode) (v w : val) : Prop :=
  exists x g h, v = VF x /\ same_float x g /\ same_float (SFopp x) h /\
    w = VF (flt_conv t (ddiv (dsub (ex g) (ex h)) (dadd (ex g) (ex h)))).

(** ** Dropout *)

(** rand() returns a number from 0 to RAND_MAX (C11 7.22.2.1). *)
Definition rand_ok (E : env) : Prop := forall k, 0 <= e_rand E k.

(** The [i]-th random number from 1 to 100 drawn from state [s] on. *)
Definition draw (E : env) (s : st) (i : nat) : Z := e_rand E (rpos s + i) mod 100 + 1.

(** A double between 0 and 1 (or -0) *)
Definition rate_ok (r : spec_float) : Prop :=
  valid_binary 53 1024 r = true /\ is_finite_SF r = true /\ (0 <= RV r <= 1)%R.
(** A double below 0 or above 1, finite or not *)
Definition rate_bad (r : spec_float) : Prop :=
  valid_binary 53 1024 r = true /\
  (is_finite_SF r = true /\ ((RV r < 0)%R \/ (1 < RV r)%R) \/ exists b, r = S754_infinity b).

(** trunc(100 * rate), the product rounded to double *)
Definition drop_line (r : spec_float) : Z := Raux.Ztrunc (rnd F64 (RV r * 100)).

(** ** Softmax *)

(** The values of one lane: each exponential is converted to the element type,
    these are summed up in double from left to right, and each one is divided by
    the sum in double and converted back. *)
Definition softmax_lane (ex : spec_float -> spec_float) (t : tcode) (xs : list val)
  : option (list val) :=
  es ← mapM (fun v => d ← to_double t v; of_double t (ex d)) xs;
  ds ← mapM (to_double t) es;
  mapM (fun d => of_double t (ddiv d (foldl dadd fzero ds))) ds.

(** The elements of [T] that differ from coordinate [c] at most in axis [a]. *)
Definition lane (T : atensor) (a : nat) (c : list Z) : list val :=
  (fun j => at_ T (<[a := Z.of_nat j]> c)) <$> seq 0 (Z.to_nat (default 0 (a_dims T !! a))).

(** ** Sliding windows (pooling and convolution) *)

(** Number of window positions along an axis of extent [d], for a window of [k]
    elements [l] apart, moved in steps of [s] over [p] elements of padding on both
    sides. *)
Definition win_out (d k s p l : Z) : Z := (d + 2 * p - l * (k - 1) - 1) / s + 1.

(** One axis of a sliding window: sane parameters in the range of int whose window
    fits into the padded input.  Extents are limited because the number of positions
    is computed in double. *)
Definition win_ok1 (d k s p l : Z) : Prop :=
  0 <= d <= 2 ^ 51 /\ 1 <= k /\ 1 <= s <= INT_MAX /\ 0 <= p /\ 2 * p <= INT_MAX /\
  1 <= l <= INT_MAX /\ l * (k - 1) + 1 <= INT_MAX /\ l * (k - 1) + 1 <= d + 2 * p.

Fixpoint win_outs (ds ks ss ps ls : list Z) : list Z :=
  match ds, ks, ss, ps, ls with
  | d :: ds, k :: ks, s :: ss, p :: ps, l :: ls => win_out d k s p l :: win_outs ds ks ss ps ls
  | _, _, _, _, _ => []
  end.
Fixpoint win_ok (ds ks ss ps ls : list Z) : Prop :=
  match ds, ks, ss, ps, ls with
  | [], [], [], [], [] => True
  | d :: ds, k :: ks, s :: ss, p :: ps, l :: ls => win_ok1 d k s p l /\ win_ok ds ks ss ps ls
  | _, _, _, _, _ => False
  end.

(** Coordinates of element [w] of the window at position [o]: o*s - p + w*l. *)
Definition win_coord (ss ps ls o w : list Z) : list Z :=
  zip_with Z.add (zip_with Z.sub (zip_with Z.mul o ss) ps) (zip_with Z.mul w ls).

(** All coordinates of a box, in row-major order. *)
Definition coords (dims : list Z) : list (list Z) :=
  (fun k => unravel dims (Z.of_nat k)) <$> seq 0 (Z.to_nat (prodZ dims)).

#[global] Instance in_box_dec dims x : Decision (in_box dims x).
Proof. unfold in_box. apply _. Defined.

(** The elements of the window at [o] in channel [c] of image [b], the padding left
    out. *)
Definition window (T : atensor) (ks ss ps ls : list Z) (b c : Z) (o : list Z) : list val :=
  omap (fun w => let x := win_coord ss ps ls o w in
          if decide (in_box (drop 2 (a_dims T)) x) then Some (at_ T (b :: c :: x)) else None)
       (coords ks).

(** Average pooling: the sum, from left to right in double, divided by the number
    [n] of elements of the full window. *)
Definition pool_avg (t : tcode) (n : Z) (vs : list val) : option val :=
  ds ← mapM (to_double t) vs;
  of_double t (ddiv (foldl dadd fzero ds) (dbl_of_Z n)).
(** What max pooling computes: the maximum of the elements and 0. *)
Definition pool_max0 (t : tcode) (vs : list val) : option val :=
  ds ← mapM (to_double t) vs;
  of_double t (foldl (fun a d => if SFltb a d then d else a) fzero ds).

(** The number an element stands for, and the elements that a double holds exactly. *)
Definition val_real (v : val) : R :=
  match v with VI z => IZR z | VF f => RV f | VU => 0%R end.
Definition exact_val (v : val) : Prop :=
  match v with VI z => Z.abs z <= 2 ^ 53 | VF f => is_finite_SF f = true | VU => False end.
(** [v] is the largest number among [vs] *)
Definition is_max (vs : list val) (v : val) : Prop :=
  (exists u, u ∈ vs /\ val_real u = val_real v) /\ forall u, u ∈ vs -> (val_real u <= val_real v)%R.
(** The sum of integers *)
Definition sumZ (zs : list Z) : Z := foldr Z.add 0 zs.

(** Parameters of one axis for which testing the window against the input is free
    of overflow *)
Definition sane1 (k p l : Z) : Prop :=
  1 <= k /\ 0 <= p /\ 2 * p <= INT_MAX /\ 1 <= l /\ l * (k - 1) + 1 <= INT_MAX.

(** ** Convolution *)

(** c + x1*y1 + x2*y2 + ..., from left to right in type [t] *)
Definition mac_all (t : tcode) (c : val) (l : list (val * val)) : option val :=
  foldl (fun c '(x, y) => c ≫= fun c => mac_val t c x y) (Some c) l.

(** The products of output element (b, oc, o): for each input channel and each
    element of the filter, in row-major order, the filter element and the element of
    the window under it, the padding left out. *)
Definition conv_chan (T F : atensor) (ss ps ls : list Z) (b oc ic : Z) (o : list Z) : list (val * val) :=
  omap (fun w => let x := win_coord ss ps ls o w in
          if decide (in_box (drop 2 (a_dims T)) x)
          then Some (at_ T (b :: ic :: x), at_ F (oc :: ic :: w)) else None)
       (coords (drop 2 (a_dims F))).
Definition conv_terms (T F : atensor) (ss ps ls : list Z) (nc : Z) (b oc : Z) (o : list Z) : list (val * val) :=
  seqZ 0 nc ≫= fun ic => conv_chan T F ss ps ls b oc ic o.

(** The call makes [T], whatever status [x] it then reports. *)
Definition makes_saying (x : status) (m : M (status * hval)) (E : env) (s : st) (T : atensor) : Prop :=
  exists s' p, m E s = Done (x, HPtr p) s' /\ created E s s' p T.

(** What a caller of aitisa_conv, aitisa_conv2d or aitisa_conv3d gets to see as the
    status: two functions without a return value at the end, one calling the other. *)
Definition conv_status (E : env) : status :=
  if bool_decide (e_garbage E 0 = SUCCESS) then e_garbage E 1 else e_garbage E 0.

(** [v] is a float that stands for the integer [z]. *)
Definition integral (t : tcode) (v : val) (z : Z) : Prop :=
  exists f, v = VF f /\ valid_binary (fprec t) (femax t) f = true /\
    is_finite_SF f = true /\ RV f = IZR z.
(** The sum of the products of pairs of elements, as a real number *)
Definition dot_real (l : list (val * val)) : R :=
  foldr (fun p a => (val_real p.1 * val_real p.2 + a)%R) 0%R l.
