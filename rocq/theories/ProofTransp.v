(** * ProofTransp: products of transposed matrices *)
From stdpp Require Import gmap list.
From Coq Require Import ZArith Lia Floats.SpecFloat.
From Verif Require Import Base Mem Spec SpecRing SpecTransp ModelCore ModelMath Logic ProofCore ProofCore2
  ProofMatmul ProofMatmul3 ProofDot4 ProofLaws ProofRing ProofUnit2 ProofPool3 ProofNeg PropMath2 PropDot.
Open Scope Z_scope.

Lemma mac_comm t c x y : mac_val t c x y = mac_val t c y x.
Proof.
  destruct c, x, y; try done; cbn [mac_val].
  - by rewrite (int_op_comm (promote t) OpMul) by by right.
  - by rewrite mul_comm.
Qed.
Lemma inner_swap t k f g : inner t k f g = inner t k g f.
Proof.
  unfold inner. generalize (Some (zero_val t)). induction (seq 0 (Z.to_nat k)) as [|q l IH]; intros a; [done|]. cbn [foldl].
  rewrite IH. do 1 f_equal. destruct a as [c|]; [apply mac_comm|done].
Qed.

Lemma mm_transp t m k n A B A' B' :
  matrix t m k A -> matrix t k n B -> matrix t k m A' -> matrix t n k B' -> a_dev B = a_dev A ->
  transposed A A' -> transposed B B' ->
  m <= INT_MAX -> k <= INT_MAX -> n <= INT_MAX -> m * n <= INT_MAX -> fits (tsz t) [m; n] ->
  (forall i j, 0 <= i < m -> 0 <= j < n -> is_Some (inner t k (fun q => at_ A [i; q]) (fun q => at_ B [q; j]))) ->
  exists C C', transposed C C' /\ gives aitisa_matmul A B C /\ gives aitisa_matmul B' A' C'.
Proof.
  intros (VA & IA & YA & DA & SA) (VB & IB & YB & DB & SB) (VA' & IA' & YA' & DA' & SA') (VB' & IB' & YB' & DB' & SB') Hdev
    (m1 & k1 & _ & EA & Q1 & _ & TA) (k2 & n1 & _ & EB & Q2 & _ & TB) Hm Hk Hn Hmn Hfit HD.
  rewrite SA in Q1. injection Q1 as <- <-. rewrite SB in Q2. injection Q2 as <- <-.
  set (F := fun i j => inner t k (fun q => at_ A [i; q]) (fun q => at_ B [q; j])).
  assert (fits (tsz t) [n; m]) as Hfit'.
  { destruct Hfit as (H1 & H2 & H3). split_and!; [|exact H2|].
    - inversion H1 as [|? ? Hx H4]; subst. inversion H4; subst. by repeat constructor.
    - cbn [fmap list_fmap] in *. rewrite !prodZ_cons, prodZ_nil in *. etransitivity; [|exact H3]. apply Z.eq_le_incl. ring. }
  destruct (tab_choose t (a_dev A) [m; n] (fun c => match c with [i; j] => F i j | _ => None end) Hfit) as (C & VC & TC & DC & SC & EC).
  { intros c Hc. inversion Hc as [|? i ? c1 Hi Hc1]; subst. inversion Hc1 as [|? j ? c2 Hj Hc2]; subst. inversion Hc2; subst. by apply HD. }
  destruct (tab_choose t (a_dev A) [n; m] (fun c => match c with [j; i] => F i j | _ => None end) Hfit') as (C' & VC' & TC' & DC' & SC' & EC').
  { intros c Hc. inversion Hc as [|? i ? c1 Hi Hc1]; subst. inversion Hc1 as [|? j ? c2 Hj Hc2]; subst. inversion Hc2; subst. by apply HD. }
  assert (prodZ [m; n] <= INT_MAX) as Hmn1 by (rewrite !prodZ_cons, prodZ_nil; lia).
  assert (prodZ [n; m] <= INT_MAX) as Hmn2 by (rewrite !prodZ_cons, prodZ_nil; lia).
  exists C, C'. split_and!.
  - exists m, n. split_and!; try congruence. intros i j Hi Hj.
    pose proof (EC [i; j] (box_ij m n i j Hi Hj)) as H1. pose proof (EC' [j; i] (box_ij n m j i Hj Hi)) as H2. cbv beta match in H1, H2. congruence.
  - intros p1 p2 o E s W HE H1 H2. eapply makes_enough; [done|]. eapply (C31_matrix_matrix p1 p2 _ _ C o E s); try done; try congruence.
    intros i j Hi Hj. rewrite YA. apply (EC [i; j]). by apply box_ij.
  - intros p1 p2 o E s W HE H1 H2. eapply makes_enough; [done|]. eapply (C31_matrix_matrix p1 p2 _ _ C' o E s); try done; try congruence.
    intros j i Hj Hi. rewrite YB', <-(EC' [j; i]) by by apply box_ij. unfold F. rewrite (inner_swap t k (fun q => at_ A [i; q])).
    apply inner_ext. intros q Hq. by rewrite TA, TB.
Qed.
Lemma mm_transp_types t m k n A B A' B' : t ∈ [I8; U8; I16; U32; U64; F32; F64] ->
  matrix t m k A -> matrix t k n B -> matrix t k m A' -> matrix t n k B' -> a_dev B = a_dev A ->
  transposed A A' -> transposed B B' ->
  m <= INT_MAX -> k <= INT_MAX -> n <= INT_MAX -> m * n <= INT_MAX -> fits (tsz t) [m; n] ->
  exists C C', transposed C C' /\ gives aitisa_matmul A B C /\ gives aitisa_matmul B' A' C'.
Proof.
  intros Ht HA HB HA' HB' Hdev TA TB Hm Hk Hn Hmn Hfit. eapply mm_transp; try done.
  destruct HA as (VA & IA & YA & DA & SA), HB as (VB & IB & YB & DB & SB).
  intros i j Hi Hj. destruct (C31_inner_defined t k (fun q => at_ A [i; q]) (fun q => at_ B [q; j]) Ht) as [w Hw]; [|by exists w].
  intros q Hq. unfold init in *. rewrite Forall_forall in IA, IB. rewrite YA in IA. rewrite YB in IB.
  split; [apply IA; apply at_elem; [done|rewrite SA]|apply IB; apply at_elem; [done|rewrite SB]]; by apply box_ij.
Qed.
Lemma mv_transp t m k A A' v : matrix t m k A -> matrix t k m A' -> valid v -> a_type v = t -> a_dims v = [k] -> a_dev v = a_dev A ->
  transposed A A' -> k <= INT_MAX -> m <= INT_MAX -> fits (tsz t) [m] ->
  (forall i, 0 <= i < m -> is_Some (inner t k (fun q => at_ A [i; q]) (fun q => at_ v [q]))) ->
  exists C, gives aitisa_matmul A v C /\ gives aitisa_matmul v A' C.
Proof.
  intros (VA & IA & YA & DA & SA) (VA' & IA' & YA' & DA' & SA') Vv Yv Sv Hdev (m1 & k1 & _ & EA & Q1 & _ & TA) Hk Hm Hfit HD.
  rewrite SA in Q1. injection Q1 as <- <-.
  set (F := fun i => inner t k (fun q => at_ A [i; q]) (fun q => at_ v [q])).
  destruct (tab_choose t (a_dev A) [m] (fun c => match c with [i] => F i | _ => None end) Hfit) as (C & VC & TC & DC & SC & EC).
  { intros c Hc. inversion Hc as [|? i ? c1 Hi Hc1]; subst. inversion Hc1; subst. by apply HD. }
  assert (prodZ [m] <= INT_MAX) as Hm1 by (rewrite !prodZ_cons, prodZ_nil; lia).
  exists C. split.
  - intros p1 p2 o E s W HE H1 H2. eapply makes_enough; [done|]. eapply (C31_matrix_vector p1 p2 _ _ C o E s); try done; try congruence.
    intros i Hi. rewrite YA. apply (EC [i]). by constructor.
  - intros p1 p2 o E s W HE H1 H2. eapply makes_enough; [done|]. eapply (C31_vector_matrix p1 p2 _ _ C o E s); try done; try congruence.
    intros i Hi. rewrite Yv, <-(EC [i]) by by constructor. unfold F. rewrite (inner_swap t k (fun q => at_ A [i; q])).
    apply inner_ext. intros q Hq. by rewrite TA.
Qed.
Lemma vv_swap t k v w x : valid v -> valid w -> a_type v = t -> a_type w = t -> a_dims v = [k] -> a_dims w = [k] -> a_dev w = a_dev v -> dev_type (a_dev v) = 0 ->
  k <= INT_MAX -> inner t k (fun q => at_ v [q]) (fun q => at_ w [q]) = Some x ->
  gives aitisa_dot v w (AT t (a_dev v) [1] [x]) /\ gives aitisa_dot w v (AT t (a_dev v) [1] [x]).
Proof.
  intros Vv Vw Yv Yw Sv Sw Hd D Hk Hi. split.
  - intros p1 p2 o E s W HE H1 H2. eapply makes_enough; [done|]. rewrite <-Yv. eapply (C34_vectors p1 p2 v w o E s); try done; congruence.
  - intros p1 p2 o E s W HE H1 H2. eapply makes_enough; [done|]. rewrite <-Yw, <-Hd. eapply (C34_vectors p1 p2 w v o E s); try done; try congruence.
    rewrite Yw, inner_swap. done.
Qed.
