(** * PropOrder: operations that preserve the order of the elements (C75) *)
From stdpp Require Import gmap list.
From Coq Require Import ZArith Lia Reals Lra Floats.SpecFloat.
From Verif Require Import Base Mem Spec SpecReal SpecNN SpecExp SpecOrder ModelCore ModelMath ModelNN Logic ProofCore ProofCore2
  ProofOrder ProofOrder2 ProofOrder3 Fixture.
Open Scope Z_scope.

Theorem C75_relu : forall p p' A B o o' E s E' s', wf s -> wf s' -> alloc_all E -> alloc_all E' ->
  holds (heap s) p A -> holds (heap s') p' B -> init A -> init B -> below A B ->
  ordered (aitisa_relu (HPtr p) o) E s (aitisa_relu (HPtr p') o') E' s'.
Proof. exact relu_ordered. Qed.
Print Assumptions C75_relu.
Theorem C75_sqrt : forall p p' A B o o' E s E' s', wf s -> wf s' -> alloc_all E -> alloc_all E' ->
  holds (heap s) p A -> holds (heap s') p' B -> init A -> init B -> below A B -> Forall (fun v => ~ negative v) (a_vals A) ->
  ordered (aitisa_sqrt (HPtr p) o) E s (aitisa_sqrt (HPtr p') o') E' s'.
Proof. exact sqrt_ordered. Qed.
Print Assumptions C75_sqrt.
(** Sigmoid, over every exp that preserves the order *)
Theorem C75_sigmoid : forall p p' A B o o' E s E' s', wf s -> wf s' -> alloc_all E -> alloc_all E' ->
  holds (heap s) p A -> holds (heap s') p' B -> init A -> init B -> below A B -> is_float (a_type A) = true ->
  exp_mono (e_exp E) -> e_exp E' = e_exp E ->
  ordered (aitisa_sigmoid (HPtr p) o) E s (aitisa_sigmoid (HPtr p') o') E' s'.
Proof. exact sigmoid_ordered. Qed.
Print Assumptions C75_sigmoid.
Theorem C75_exp_exists : exp_mono exp_rounded.
Proof. exact exp_rounded_mono. Qed.
Print Assumptions C75_exp_exists.
(** Sums of finite floats, although every element is rounded and may overflow *)
Theorem C75_add : forall p q p' q' A1 A2 B1 B2 o o' E s E' s', wf s -> wf s' -> alloc_all E -> alloc_all E' ->
  holds (heap s) p A1 -> holds (heap s) q A2 -> holds (heap s') p' B1 -> holds (heap s') q' B2 ->
  is_float (a_type A1) = true -> a_type A2 = a_type A1 -> a_dims A2 = a_dims A1 -> prodZ (a_dims A1) <= INT_MAX ->
  dev_type (a_dev A1) = 0 -> dev_type (a_dev A2) = 0 -> dev_type (a_dev B1) = 0 -> dev_type (a_dev B2) = 0 ->
  init A1 -> init A2 -> init B1 -> init B2 ->
  Forall bounded (a_vals A1) -> Forall bounded (a_vals A2) -> Forall bounded (a_vals B1) -> Forall bounded (a_vals B2) ->
  below A1 B1 -> below A2 B2 ->
  ordered (aitisa_binary_op OpAdd (HPtr p) (HPtr q) o) E s (aitisa_binary_op OpAdd (HPtr p') (HPtr q') o') E' s'.
Proof. exact add_ordered. Qed.
Print Assumptions C75_add.
(** Average pooling: any element type, as soon as both calls are defined; on floats they always are. *)
Theorem C75_average : forall p p' A B nb nc sd ks ss ps ls o o' E E' s s', wf s -> wf s' -> alloc_all E -> alloc_all E' ->
  hooks_ok E -> hooks_ok E' -> holds (heap s) p A -> holds (heap s') p' B -> init A -> init B -> below A B ->
  a_dims A = nb :: nc :: sd -> (1 <= length sd <= 3)%nat -> win_ok sd ks ss ps ls ->
  prodZ ks <= INT64_MAX -> prodZ (win_outs sd ks ss ps ls) <= INT_MAX ->
  (Z.to_nat (prodZ ks) <= e_fuel E)%nat -> (Z.to_nat (prodZ (win_outs sd ks ss ps ls)) <= e_fuel E)%nat ->
  (Z.to_nat (prodZ ks) <= e_fuel E')%nat -> (Z.to_nat (prodZ (win_outs sd ks ss ps ls)) <= e_fuel E')%nat ->
  fits (tsz (a_type A)) (nb :: nc :: win_outs sd ks ss ps ls) ->
  Forall bounded (a_vals A) -> Forall bounded (a_vals B) ->
  (exists X, makes (aitisa_pooling (HPtr p) PAvg ks ss ps ls o) E s X) ->
  (exists Y, makes (aitisa_pooling (HPtr p') PAvg ks ss ps ls o') E' s' Y) ->
  ordered (aitisa_pooling (HPtr p) PAvg ks ss ps ls o) E s (aitisa_pooling (HPtr p') PAvg ks ss ps ls o') E' s'.
Proof. exact avg_ordered. Qed.
Print Assumptions C75_average.
Theorem C75_average_float : forall p p' A B nb nc sd ks ss ps ls o o' E E' s s', wf s -> wf s' -> alloc_all E -> alloc_all E' ->
  hooks_ok E -> hooks_ok E' -> holds (heap s) p A -> holds (heap s') p' B -> init A -> init B -> below A B ->
  a_dims A = nb :: nc :: sd -> (1 <= length sd <= 3)%nat -> win_ok sd ks ss ps ls ->
  prodZ ks <= INT64_MAX -> prodZ (win_outs sd ks ss ps ls) <= INT_MAX ->
  (Z.to_nat (prodZ ks) <= e_fuel E)%nat -> (Z.to_nat (prodZ (win_outs sd ks ss ps ls)) <= e_fuel E)%nat ->
  (Z.to_nat (prodZ ks) <= e_fuel E')%nat -> (Z.to_nat (prodZ (win_outs sd ks ss ps ls)) <= e_fuel E')%nat ->
  fits (tsz (a_type A)) (nb :: nc :: win_outs sd ks ss ps ls) ->
  is_float (a_type A) = true -> Forall bounded (a_vals A) -> Forall bounded (a_vals B) ->
  ordered (aitisa_pooling (HPtr p) PAvg ks ss ps ls o) E s (aitisa_pooling (HPtr p') PAvg ks ss ps ls o') E' s'.
Proof. exact avg_ordered_float. Qed.
Print Assumptions C75_average_float.
(** Max pooling, infinities included *)
Theorem C75_max : forall p p' A B nb nc sd ks ss ps ls o o' E E' s s', wf s -> wf s' -> alloc_all E -> alloc_all E' ->
  hooks_ok E -> hooks_ok E' -> holds (heap s) p A -> holds (heap s') p' B -> init A -> init B -> below A B ->
  a_dims A = nb :: nc :: sd -> (1 <= length sd <= 3)%nat -> win_ok sd ks ss ps ls ->
  prodZ ks <= INT64_MAX -> prodZ (win_outs sd ks ss ps ls) <= INT_MAX ->
  (Z.to_nat (prodZ ks) <= e_fuel E)%nat -> (Z.to_nat (prodZ (win_outs sd ks ss ps ls)) <= e_fuel E)%nat ->
  (Z.to_nat (prodZ ks) <= e_fuel E')%nat -> (Z.to_nat (prodZ (win_outs sd ks ss ps ls)) <= e_fuel E')%nat ->
  fits (tsz (a_type A)) (nb :: nc :: win_outs sd ks ss ps ls) ->
  (exists X, makes (aitisa_pooling (HPtr p) PMax ks ss ps ls o) E s X) ->
  (exists Y, makes (aitisa_pooling (HPtr p') PMax ks ss ps ls o') E' s' Y) ->
  ordered (aitisa_pooling (HPtr p) PMax ks ss ps ls o) E s (aitisa_pooling (HPtr p') PMax ks ss ps ls o') E' s'.
Proof. exact max_ordered. Qed.
Print Assumptions C75_max.
Theorem C75_max_float : forall p p' A B nb nc sd ks ss ps ls o o' E E' s s', wf s -> wf s' -> alloc_all E -> alloc_all E' ->
  hooks_ok E -> hooks_ok E' -> holds (heap s) p A -> holds (heap s') p' B -> init A -> init B -> below A B ->
  a_dims A = nb :: nc :: sd -> (1 <= length sd <= 3)%nat -> win_ok sd ks ss ps ls ->
  prodZ ks <= INT64_MAX -> prodZ (win_outs sd ks ss ps ls) <= INT_MAX ->
  (Z.to_nat (prodZ ks) <= e_fuel E)%nat -> (Z.to_nat (prodZ (win_outs sd ks ss ps ls)) <= e_fuel E)%nat ->
  (Z.to_nat (prodZ ks) <= e_fuel E')%nat -> (Z.to_nat (prodZ (win_outs sd ks ss ps ls)) <= e_fuel E')%nat ->
  fits (tsz (a_type A)) (nb :: nc :: win_outs sd ks ss ps ls) -> is_float (a_type A) = true ->
  ordered (aitisa_pooling (HPtr p) PMax ks ss ps ls o) E s (aitisa_pooling (HPtr p') PMax ks ss ps ls o') E' s'.
Proof. exact max_ordered_float. Qed.
Print Assumptions C75_max_float.

(** ** Cases that meet the hypotheses *)
Definition O_f (z : Z) : val := VF (flt_of_Z F32 z).
Definition O_a : atensor := AT F32 cpu [1; 1; 2; 3] [O_f (-3); VF (S754_zero true); O_f 2; O_f 7; O_f (-100); O_f 5].
Definition O_b : atensor := AT F32 cpu [1; 1; 2; 3] [O_f (-2); VF (S754_zero false); O_f 2; O_f 8; O_f 40; O_f 6].
Lemma O_a_valid : valid O_a. Proof. lit_valid. Qed.
Lemma O_b_valid : valid O_b. Proof. lit_valid. Qed.
Lemma O_le z z' : Z.abs z <= 2 ^ 24 -> Z.abs z' <= 2 ^ 24 -> z <= z' -> vle (O_f z) (O_f z').
Proof.
  intros H H' Hle. destruct (ProofFloat2.flt_of_Z_exact F32 z H) as [F R], (ProofFloat2.flt_of_Z_exact F32 z' H') as [F' R'].
  apply fle_fin; [done|done|]. rewrite R, R'. by apply IZR_le.
Qed.
Example C75_ex : holds (heap (fx [O_a; O_b])) 0 O_a /\ holds (heap (fx [O_a; O_b])) 5 O_b /\ init O_a /\ init O_b /\ below O_a O_b /\
  Forall bounded (a_vals O_a) /\ Forall bounded (a_vals O_b) /\ win_ok [2; 3] [2; 2] [1; 1] [0; 0] [1; 1] /\
  is_float (a_type O_a) = true /\ fits (tsz F32) [1; 1; 1; 2] /\ win_outs [2; 3] [2; 2] [1; 1] [0; 0] [1; 1] = [1; 2].
Proof.
  split_and!; [exact (fx_holds [O_a; O_b] 0 O_a eq_refl O_a_valid)|exact (fx_holds [O_a; O_b] 1 O_b eq_refl O_b_valid)| | | | | | |done|lit_fits|done].
  - repeat constructor; vm_compute; reflexivity.
  - repeat constructor; vm_compute; reflexivity.
  - split; [done|]. split; [done|].
    constructor; [apply O_le; lia|]. constructor; [cbn; lra|]. repeat (constructor; [apply O_le; lia|]). constructor.
  - repeat constructor.
  - repeat constructor.
  - unfold win_ok, win_ok1. unfold INT_MAX. lia.
Qed.
(** Sums of integers do not preserve the order: they wrap around.  100 + 27 = 127, but 127 + 27 = -102. *)
Definition O_c : atensor := AT I8 cpu [1] [VI 100].
Definition O_d : atensor := AT I8 cpu [1] [VI 127].
Definition O_e : atensor := AT I8 cpu [1] [VI 27].
Example C75_wraps : below O_c O_d /\
  (exists r s, aitisa_binary_op OpAdd (HPtr 0) (HPtr 10) HUndef E0 (fx [O_c; O_d; O_e]) = Done r s /\ peek E0 s r = Some (SUCCESS, [1], [VI 127])) /\
  (exists r s, aitisa_binary_op OpAdd (HPtr 5) (HPtr 10) HUndef E0 (fx [O_c; O_d; O_e]) = Done r s /\ peek E0 s r = Some (SUCCESS, [1], [VI (-102)])).
Proof.
  split; [|split; apply run_ex; vm_compute; reflexivity].
  split; [done|]. split; [done|]. constructor; [cbn; lia|constructor].
Qed.
