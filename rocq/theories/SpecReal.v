(** * SpecReal: what conversions mean as operations on real numbers

    Independent of the bit-level definitions in [Base]: rounding is Flocq's
    round-to-nearest-even on the reals. *)
From Coq Require Import ZArith Reals Floats.SpecFloat.
From Flocq Require Core.
From Flocq Require Import IEEE754.BinarySingleNaN.
From Verif Require Import Base.
Open Scope Z_scope.

(** Rounding to the format of the float type [t]. *)
Definition rnd (t : tcode) (x : R) : R :=
  Generic_fmt.round Zaux.radix2 (SpecFloat.fexp (fprec t) (femax t)) Round_NE.ZnearestE x.
Notation RV := (SF2R Zaux.radix2).

(** C11 6.3.1.3-6.3.1.5: the result of converting [v] of type [t1] to [t2];
    [None] is undefined behaviour. *)
Definition conv_spec (t1 t2 : tcode) (v : val) (w : option val) : Prop :=
  match v with
  | VI z =>
      if is_float t2
      then exists f, w = Some (VF f) /\ valid_binary (fprec t2) (femax t2) f = true /\
           is_finite_SF f = true /\ RV f = rnd t2 (IZR z)
      else exists y, w = Some (VI y) /\ tmin t2 <= y <= tmax t2 /\
           y mod 2 ^ bits t2 = z mod 2 ^ bits t2
  | VF f =>
      if is_float t2
      then exists g, w = Some (VF g) /\ valid_binary (fprec t2) (femax t2) g = true /\
           (is_finite_SF f = false -> g = f) /\
           (is_finite_SF f = true -> (Rabs (rnd t2 (RV f)) < Raux.bpow Zaux.radix2 (femax t2))%R ->
              RV g = rnd t2 (RV f) /\ is_finite_SF g = true /\ sign_SF g = sign_SF f) /\
           (is_finite_SF f = true -> (Raux.bpow Zaux.radix2 (femax t2) <= Rabs (rnd t2 (RV f)))%R ->
              g = S754_infinity (sign_SF f))
      else w = if andb (is_finite_SF f) (in_range t2 (Raux.Ztrunc (RV f)))
               then Some (VI (Raux.Ztrunc (RV f))) else None
  | VU => w = None
  end.

(** C11 6.5.5/6.5.6 and IEEE 754: [c = a op b] for operands of type [t]. *)
Definition op_int (o : binop) (x y : Z) : Z :=
  match o with OpAdd => x + y | OpSub => x - y | OpMul => x * y | OpDiv => Z.quot x y end.
Definition op_real (o : binop) (x y : R) : R :=
  match o with
  | OpAdd => (x + y)%R | OpSub => (x - y)%R | OpMul => (x * y)%R | OpDiv => (x / y)%R
  end.

(** The C operation on integers is defined: types narrower than int are
    promoted to int, so their results must fit in 32 bits; int and int64 results
    must fit in the type; unsigned results always wrap. *)
Definition int_defined (t : tcode) (o : binop) (x y : Z) : Prop :=
  (o = OpDiv -> y <> 0) /\
  match t with
  | I64 => - 2 ^ 63 <= op_int o x y < 2 ^ 63
  | U32 | U64 => True
  | _ => - 2 ^ 31 <= op_int o x y < 2 ^ 31
  end.

(** IEEE 754: the results that are not roundings of a real number, with NaN or
    infinite operands or a zero divisor.  The result takes the sign of the product
    of the operands in a product or quotient. *)
Definition op_special (o : binop) (x y : spec_float) : option spec_float :=
  let sg := xorb (sign_SF x) (sign_SF y) in
  match x, y with
  | S754_nan, _ | _, S754_nan => Some S754_nan
  | S754_infinity s, S754_infinity s' =>
      Some match o with
           | OpAdd => if Bool.eqb s s' then S754_infinity s else S754_nan
           | OpSub => if Bool.eqb s s' then S754_nan else S754_infinity s
           | OpMul => S754_infinity sg
           | OpDiv => S754_nan
           end
  | S754_infinity s, _ =>
      Some match o, y with
           | OpAdd, _ | OpSub, _ => S754_infinity s
           | OpMul, S754_zero _ => S754_nan
           | _, _ => S754_infinity sg
           end
  | _, S754_infinity s =>
      Some match o, x with
           | OpAdd, _ => S754_infinity s
           | OpSub, _ => S754_infinity (negb s)
           | OpMul, S754_zero _ => S754_nan
           | OpMul, _ => S754_infinity sg
           | OpDiv, _ => S754_zero sg
           end
  | S754_zero _, S754_zero _ => match o with OpDiv => Some S754_nan | _ => None end
  | _, S754_zero _ => match o with OpDiv => Some (S754_infinity sg) | _ => None end
  | _, _ => None
  end.

(** The sign of a result whose exact value is [e]: a sum of zero is -0 only when
    both operands are negative zeros. *)
Definition op_sign (o : binop) (x y : spec_float) (e : R) : bool :=
  match o with
  | OpAdd => if Raux.Req_bool e 0 then andb (sign_SF x) (sign_SF y) else Raux.Rlt_bool e 0
  | OpSub => if Raux.Req_bool e 0 then andb (sign_SF x) (negb (sign_SF y)) else Raux.Rlt_bool e 0
  | _ => xorb (sign_SF x) (sign_SF y)
  end.

Definition bin_spec (t : tcode) (o : binop) (a b : val) (w : option val) : Prop :=
  match a, b with
  | VI x, VI y =>
      (int_defined t o x y ->
         exists r, w = Some (VI r) /\ tmin t <= r <= tmax t /\
                   r mod 2 ^ bits t = op_int o x y mod 2 ^ bits t) /\
      (~ int_defined t o x y -> w = None)
  | VF x, VF y =>
      exists r, w = Some (VF r) /\ valid_binary (fprec t) (femax t) r = true /\
        match op_special o x y with
        | Some v => r = v
        | None =>
            let e := op_real o (RV x) (RV y) in
            ((Rabs (rnd t e) < Raux.bpow Zaux.radix2 (femax t))%R ->
               is_finite_SF r = true /\ RV r = rnd t e /\ sign_SF r = op_sign o x y e) /\
            ((Raux.bpow Zaux.radix2 (femax t) <= Rabs (rnd t e))%R ->
               r = S754_infinity (op_sign o x y e))
        end
  | _, _ => w = None
  end.

(** The square root of [v], a non-negative element of type [t]: correctly rounded
    for floats; for integers the double nearest to the root of the double nearest
    to [v], truncated. *)
Definition sqrt_spec (t : tcode) (v : val) (w : option val) : Prop :=
  match v with
  | VI z => exists y, w = Some (VI y) /\ tmin t <= y <= tmax t /\
            y = Raux.Ztrunc (rnd F64 (sqrt (rnd F64 (IZR z)))) /\
            (z < 2 ^ 52 -> y * y <= z < (y + 1) * (y + 1))
  | VF f => exists g, w = Some (VF g) /\ valid_binary (fprec t) (femax t) g = true /\
            (is_finite_SF f = false -> g = f) /\
            (is_finite_SF f = true -> is_finite_SF g = true /\ RV g = rnd t (sqrt (RV f)))
  | VU => w = None
  end.

(** The element is less than zero. *)
Definition negative (v : val) : Prop :=
  match v with
  | VI z => z < 0
  | VF f => (RV f < 0)%R \/ f = S754_infinity true
  | VU => False
  end.

(** The C operation on two elements of type [t] is defined (always, for floats). *)
Definition op_defined (t : tcode) (o : binop) (a b : val) : Prop :=
  match a, b with VI x, VI y => int_defined t o x y | _, _ => True end.
