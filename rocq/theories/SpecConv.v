(** * SpecConv: the windows of a convolution, also those that do not fit into the input *)
From stdpp Require Import list.
From Coq Require Import ZArith.
From Verif Require Import Base Spec SpecNN.
Open Scope Z_scope.

(** The number of positions along an axis when the division truncates, as that of C does:
    one position too many when the window exceeds the padded input by less than a step. *)
Definition cv_out (d k s p l : Z) : Z := Z.quot (d + 2 * p - l * (k - 1) - 1) s + 1.
Fixpoint cv_outs (ds ks ss ps ls : list Z) : list Z :=
  match ds, ks, ss, ps, ls with
  | d :: ds, k :: ks, s :: ss, p :: ps, l :: ls => cv_out d k s p l :: cv_outs ds ks ss ps ls
  | _, _, _, _, _ => []
  end.

(** Sane parameters, whether the window fits or not. *)
Definition sane1 (d k s p l : Z) : Prop :=
  0 <= d <= 2 ^ 51 /\ 1 <= k /\ 1 <= s <= INT_MAX /\ 0 <= p /\ 2 * p <= INT_MAX /\
  1 <= l <= INT_MAX /\ l * (k - 1) + 1 <= INT_MAX.
Fixpoint sane (ds ks ss ps ls : list Z) : Prop :=
  match ds, ks, ss, ps, ls with
  | [], [], [], [], [] => True
  | d :: ds, k :: ks, s :: ss, p :: ps, l :: ls => sane1 d k s p l /\ sane ds ks ss ps ls
  | _, _, _, _, _ => False
  end.

(** The window exceeds the padded input by less than one step, or fits into it. *)
Definition cv_ok1 (d k s p l : Z) : Prop := sane1 d k s p l /\ l * (k - 1) + 1 < d + 2 * p + s.
Fixpoint cv_ok (ds ks ss ps ls : list Z) : Prop :=
  match ds, ks, ss, ps, ls with
  | [], [], [], [], [] => True
  | d :: ds, k :: ks, s :: ss, p :: ps, l :: ls => cv_ok1 d k s p l /\ cv_ok ds ks ss ps ls
  | _, _, _, _, _ => False
  end.
