(** * PropSoftInt: where softmax is defined (C39), and what it does to integers (C71) *)
From stdpp Require Import gmap list.
From Coq Require Import ZArith Lia ZifyBool ZifyNat Reals Floats.SpecFloat.
From Verif Require Import Base Mem Spec SpecReal SpecNN SpecError SpecSoft SpecExp SpecSoftInt ModelCore ModelNN Logic
  ProofCore ProofCore2 ProofFloat2 ProofError ProofSoftmax3 ProofSoftInt3 Fixture RefuteConv PropSoft PropExp.
Open Scope Z_scope.

(** ** C39: softmax is defined exactly when the reference is; otherwise it converts
    a double out of range, or NaN, to an integer *)
Theorem C39_exact_all : forall p T o E s,
  wf s -> alloc_all E -> holds (heap s) p T -> init T ->
  match softmax_lane (e_exp E) (a_type T) (a_vals T) with
  | Some ws => makes (aitisa_softmax (HPtr p) (-1) o) E s (AT (a_type T) (a_dev T) (a_dims T) ws)
  | None => aitisa_softmax (HPtr p) (-1) o E s = UB UB_fconv
  end.
Proof. exact softmax_all_exact. Qed.
Print Assumptions C39_exact_all.
Theorem C39_exact_axis : forall p T a d o E s,
  wf s -> alloc_all E -> hooks_ok E -> holds (heap s) p T -> init T ->
  Forall (fun d => 0 < d) (a_dims T) -> 2 * prodZ (a_dims T) <= INT64_MAX ->
  a_dims T !! a = Some d ->
  ((forall c, in_box (a_dims T) c -> softmax_lane (e_exp E) (a_type T) (lane T a c) <> None) ->
   exists T3,
     a_type T3 = a_type T /\ a_dev T3 = a_dev T /\ a_dims T3 = a_dims T /\
     (forall c j, in_box (a_dims T) c -> c !! a = Some j ->
      exists ys, softmax_lane (e_exp E) (a_type T) (lane T a c) = Some ys /\
        ys !! Z.to_nat j = Some (at_ T3 c)) /\
     makes (aitisa_softmax (HPtr p) (Z.of_nat a) o) E s T3) /\
  (forall c, in_box (a_dims T) c -> softmax_lane (e_exp E) (a_type T) (lane T a c) = None ->
     aitisa_softmax (HPtr p) (Z.of_nat a) o E s = UB UB_fconv).
Proof.
  intros p T a d o E s Hwf HA HE HT Hin Hpos Hmax Ha. split.
  - exact (softmax_axis_defined p T a d o E s Hwf HA HE HT Hin Hpos Hmax Ha).
  - intros c Hc. exact (softmax_axis_stuck p T a d c o E s Hwf HA HT Hin Hpos Hmax Ha Hc).
Qed.
Print Assumptions C39_exact_axis.

(** ** C71: softmax of integers *)
Theorem C71_all : forall p T o E s,
  wf s -> alloc_all E -> holds (heap s) p T -> init T -> is_float (a_type T) = false -> exp_std (e_exp E) ->
  (int_lane_ok (a_type T) (ints (a_vals T)) ->
   exists us, Forall (fun u => u = 0 \/ u = 1) us /\
     (tmax (a_type T) < 2 ^ 32 -> prodZ (a_dims T) <= 2 ^ 21 -> us = one_hot (ints (a_vals T))) /\
     makes (aitisa_softmax (HPtr p) (-1) o) E s (AT (a_type T) (a_dev T) (a_dims T) (VI <$> us))) /\
  (~ int_lane_ok (a_type T) (ints (a_vals T)) -> aitisa_softmax (HPtr p) (-1) o E s = UB UB_fconv).
Proof. exact softmax_int_all. Qed.
Print Assumptions C71_all.
Theorem C71_axis : forall p T a d o E s,
  wf s -> alloc_all E -> hooks_ok E -> holds (heap s) p T -> init T -> is_float (a_type T) = false -> exp_std (e_exp E) ->
  Forall (fun d => 0 < d) (a_dims T) -> 2 * prodZ (a_dims T) <= INT64_MAX -> a_dims T !! a = Some d ->
  ((forall c, in_box (a_dims T) c -> int_lane_ok (a_type T) (ints (lane T a c))) ->
   exists T3, a_type T3 = a_type T /\ a_dev T3 = a_dev T /\ a_dims T3 = a_dims T /\
     (forall c j, in_box (a_dims T) c -> c !! a = Some j ->
        exists u, at_ T3 c = VI u /\ (u = 0 \/ u = 1) /\
          (tmax (a_type T) < 2 ^ 32 -> d <= 2 ^ 21 -> one_hot (ints (lane T a c)) !! Z.to_nat j = Some u)) /\
     makes (aitisa_softmax (HPtr p) (Z.of_nat a) o) E s T3) /\
  (forall c, in_box (a_dims T) c -> ~ int_lane_ok (a_type T) (ints (lane T a c)) ->
     aitisa_softmax (HPtr p) (Z.of_nat a) o E s = UB UB_fconv).
Proof. exact softmax_int_axis. Qed.
Print Assumptions C71_axis.
(** The assumption on exp is met by the correctly rounded one. *)
Theorem C71_exp_exists : exp_std exp_rounded.
Proof. exact exp_rounded_std. Qed.
Print Assumptions C71_exp_exists.

(** ** Instances *)
Definition T_soft : atensor := AT I32 cpu [2; 2] [VI 1; VI (-2); VI 3; VI 4].
Lemma T_soft_valid : valid T_soft. Proof. lit_valid. Qed.
Example C71_ex : wf (fx [T_soft]) /\ alloc_all E_exp /\ hooks_ok E_exp /\ holds (heap (fx [T_soft])) 0 T_soft /\
  init T_soft /\ exp_std (e_exp E_exp) /\ Forall (fun d => 0 < d) (a_dims T_soft) /\
  int_lane_ok I32 (ints (a_vals T_soft)) /\ a_dims T_soft !! 1%nat = Some 2.
Proof.
  split_and!; [apply fx_wf|done|done|exact (fx_holds [T_soft] 0 T_soft eq_refl T_soft_valid)|lit_init
    |exact C71_exp_exists|by repeat constructor| |done].
  vm_compute. split; [repeat constructor; discriminate|]. intros _. left. discriminate.
Qed.
(** Along the second axis, 1 -2 becomes 1 0 and 3 4 becomes 0 0. *)
Example C71_lanes : one_hot (ints (lane T_soft 1 [0; 0])) = [1; 0] /\ one_hot (ints (lane T_soft 1 [1; 0])) = [0; 0].
Proof. split; vm_compute; reflexivity. Qed.
(** Over all elements, with three of them non-negative, nothing is left. *)
Example C71_run : exists s r, aitisa_softmax (HPtr 0) (-1) HNull E_exp (fx [T_soft]) = Done (SUCCESS, HPtr r) s /\
  holds (heap s) r (AT I32 cpu [2; 2] [VI 0; VI 0; VI 0; VI 0]).
Proof.
  destruct C71_ex as (Hwf & HA & HE & HT & Hin & Hex & _ & Hok & _).
  destruct (C71_all 0 T_soft HNull E_exp _ Hwf HA HT Hin eq_refl Hex) as [H _].
  destruct (H Hok) as (us & _ & Hu & Hm). rewrite Hu in Hm by (vm_compute; (reflexivity || discriminate)).
  destruct Hm as (s' & r & Hr & Hc). exists s', r. split; [exact Hr|]. exact (created_holds _ _ _ _ _ _ Hc).
Qed.
(** 22 is too much for an int32, and only negative elements leave 0 / 0. *)
Definition T_soft22 : atensor := AT I32 cpu [2] [VI 22; VI 0].
Lemma T_soft22_valid : valid T_soft22. Proof. lit_valid. Qed.
Definition T_softneg : atensor := AT I8 cpu [2] [VI (-1); VI (-5)].
Lemma T_softneg_valid : valid T_softneg. Proof. lit_valid. Qed.
Example C71_ub : aitisa_softmax (HPtr 0) (-1) HNull E_exp (fx [T_soft22]) = UB UB_fconv /\
  aitisa_softmax (HPtr 0) (-1) HNull E_exp (fx [T_softneg]) = UB UB_fconv.
Proof.
  split.
  - apply (C71_all 0 T_soft22); [apply fx_wf|done|exact (fx_holds [T_soft22] 0 T_soft22 eq_refl T_soft22_valid)|lit_init|done|exact C71_exp_exists|].
    intros [H _]. apply Forall_cons in H as [H _]. vm_compute in H. by apply H.
  - apply (C71_all 0 T_softneg); [apply fx_wf|done|exact (fx_holds [T_softneg] 0 T_softneg eq_refl T_softneg_valid)|lit_init|done|exact C71_exp_exists|].
    intros [_ H]. specialize (H ltac:(discriminate)). apply Exists_exists in H as (x & Hx & H0).
    vm_compute in Hx. set_unfold. destruct Hx as [Hx|[Hx|[]]]; subst; by apply H0.
Qed.
