(** * ProofSample6: whole samples, and vectors that are too short *)
From stdpp Require Import gmap list.
From Coq Require Import ZArith Lia.
From Coq Require Import ZifyBool ZifyNat.
From Verif Require Import Base Mem Spec ModelCore ModelSample SpecSample ProofSample ProofSample2 ProofSample3 ProofSample4 ProofSample5.
Open Scope Z_scope.

Lemma short_dims n v E s : alloc_all E -> Z.of_nat (length v) < n -> 8 * n <= PTRDIFF_MAX -> new_dims n v E s = UB UB_oob.
Proof.
  intros HE Hn Hm. unfold new_dims. replace (n <? 0) with false by lia. unfold bind.
  destruct (new_arr_run (8 * n) (CInts (take (Z.to_nat n) v)) E s) as [->|[H _]]; [|tauto].
  unfold check. by replace (n <=? Z.of_nat (length v)) with false by lia.
Qed.
Lemma short_vector E V s x n v m d : alloc_all E -> Z.of_nat (length v) < n -> 8 * n <= PTRDIFF_MAX ->
  step (Vec1 x n v m d) V E s = UB UB_oob.
Proof. intros HE Hn Hm. cbn [step]. unfold bind, ctor_vec1, bind. by rewrite short_dims. Qed.
Lemma short_vectors E V s x n1 v1 n2 v2 m d1 d2 : alloc_all E -> 0 <= 8 * n1 <= PTRDIFF_MAX -> 0 <= 8 * n2 <= PTRDIFF_MAX ->
  (Z.of_nat (length v1) < n1 \/ Z.of_nat (length v2) < n2) -> step (Vec2 x n1 v1 n2 v2 m d1 d2) V E s = UB UB_oob.
Proof.
  intros HE Hm1 Hm2 Hn. cbn [step]. unfold bind, ctor_vec2, bind.
  destruct (decide (Z.of_nat (length v1) < n1)) as [H1|H1]; [rewrite short_dims by (done || lia); done|].
  destruct (new_dims_run n1 v1 E s ltac:(lia)) as [(c & ->)|[H _]]; [|tauto].
  rewrite short_dims by (done || lia). done.
Qed.

Lemma copy_run V E s x y o : inv V s -> V !! y = Some o -> o_count o <> HNull -> Z.of_nat (size V) < INT_MAX ->
  exists h, step (Copy x y) V E s = Done (<[x := o]> V) (upd h s) /\
    forall b t c, heap s !! b = Some (Blk t c) -> t <> CNT -> h !! b = Some (Blk t c).
Proof.
  intros Hi Hy Ho Hs. destruct (i_cnt _ _ Hi y o Hy Ho) as (c & Hc & Hh). pose proof (refs_le V c).
  eexists. split.
  - cbn [step]. unfold bind, the, opt. rewrite Hy. cbn. unfold ctor_copy, bind. rewrite Hc.
    rewrite (add_count_run c _ 1 E s Hh) by (unfold INT_MIN; lia). done.
  - intros b t c' Hb Ht. rewrite lookup_insert_ne; [done|]. intros <-. rewrite Hh in Hb. congruence.
Qed.
Lemma sample_moves E V s x y i r : reach E V s ->
  V !! (2 * y)%nat = Some i -> V !! (2 * y + 1)%nat = Some r -> o_count i <> HNull -> o_count r <> HNull ->
  V !! (2 * x)%nat = None -> V !! (2 * x + 1)%nat = None -> Z.of_nat (size V) + 1 < INT_MAX ->
  exists s', steps (sample_move x y) V E s = Done (<[(2 * x + 1)%nat := r]> (<[(2 * x)%nat := i]> V)) s' /\
    forall b t c, heap s !! b = Some (Blk t c) -> t <> CNT -> heap s' !! b = Some (Blk t c).
Proof.
  intros Hr Hi Hr' Ci Cr Hx Hx' Hs. apply reach_inv in Hr.
  destruct (copy_run V E s (2 * x) (2 * y) i Hr Hi Ci ltac:(lia)) as (h1 & S1 & K1).
  assert (inv (<[(2 * x)%nat := i]> V) (upd h1 s)) as Hr1.
  { pose proof (step_good (Copy (2 * x) (2 * y)) V E s Hr) as G. unfold good in G. rewrite S1 in G. apply G. cbn.
    split_and!; [done|by exists i|lia]. }
  destruct (copy_run _ E _ (2 * x + 1) (2 * y + 1) r Hr1) as (h2 & S2 & K2).
  { rewrite lookup_insert_ne; [done|lia]. }
  { done. }
  { rewrite map_size_insert_None by done. lia. }
  exists (upd h2 (upd h1 s)). split.
  - unfold sample_move, sample_copy. cbn [steps]. unfold bind. rewrite S1. cbn. unfold bind. cbn in S2. unfold bind in S2. rewrite S2. done.
  - intros b t c Hb Ht. cbn [heap upd]. apply K2; [|done]. cbn [heap upd]. by apply K1.
Qed.
Lemma sample_destroys E V s x i r : reach E V s ->
  V !! (2 * x)%nat = Some i -> V !! (2 * x + 1)%nat = Some r ->
  exists s', steps (sample_destroy x) V E s = Done (delete (2 * x)%nat (delete (2 * x + 1)%nat V)) s' /\
    forall b, owned V b ->
      (owned (delete (2 * x)%nat (delete (2 * x + 1)%nat V)) b /\ heap s' !! b = heap s !! b) \/
      (~ owned (delete (2 * x)%nat (delete (2 * x + 1)%nat V)) b /\ heap s' !! b = None).
Proof.
  intros Hr Hi Hr'. pose proof (reach_inv _ _ _ Hr) as I.
  assert (forall V V' s s' x, step (Destroy x) V E s = Done V' s' -> V' = delete x V) as HD.
  { clear. intros V V' s s' x. cbn [step]. unfold bind. destruct (the V x E s); try done. destruct (dtor _ _ _); try done.
    by intros [= <- <-]. }
  assert (legal_run E (sample_destroy x) V s) as HL.
  { cbn. split; [by exists r|]. intros V' s' HS. apply (HD V V' s s' (2 * x + 1)%nat) in HS as ->. split; [|done].
    exists i. rewrite lookup_delete_ne; [done|lia]. }
  pose proof (run_good E _ V s I HL) as G. destruct (steps (sample_destroy x) V E s) as [V' s'| | |] eqn:HS; try done.
  - assert (V' = delete (2 * x)%nat (delete (2 * x + 1)%nat V)) as ->.
    { unfold sample_destroy in HS. cbn [steps] in HS. unfold bind in HS at 1.
      destruct (step (Destroy (2 * x + 1)) V E s) as [V1 s1| | |] eqn:H1; try done. apply HD in H1 as ->. unfold bind in HS at 1.
      destruct (step (Destroy (2 * x)) _ E s1) as [V2 s2| | |] eqn:H2; try done. apply HD in H2 as ->. by injection HS as <- <-. }
    exists s'. split; [done|]. apply G.
  - exfalso. assert (forall V s x o, inv V s -> V !! x = Some o -> step (Destroy x) V E s <> Abort) as HA.
    { clear. intros V s x o I Hx. cbn [step]. unfold the, bind. rewrite Hx. cbn [opt ret].
      by destruct (dtor_run V s x o E I Hx) as (s' & -> & _). }
    unfold sample_destroy in HS. cbn [steps] in HS. unfold bind in HS at 1.
    destruct (step (Destroy (2 * x + 1)) V E s) as [V1 s1| | |] eqn:H1; [|done|by eapply HA|done].
    pose proof (step_good (Destroy (2 * x + 1)) V E s I ltac:(by exists r)) as G1. unfold good in G1. rewrite H1 in G1.
    apply HD in H1 as ->. unfold bind in HS at 1.
    destruct (step (Destroy (2 * x)) _ E s1) as [V2 s2| | |] eqn:H2; [done|done| |done]. eapply HA; [apply G1| |exact H2].
    rewrite lookup_delete_ne by lia. done.
Qed.
(** A sample without data, made and destroyed: the counter of its result stays. *)
Lemma sample_life E V s x k : reach E V s -> alloc_all E -> k <> Result ->
  V !! (2 * x)%nat = None -> V !! (2 * x + 1)%nat = None ->
  steps (sample_default x k ++ sample_destroy x) V E s
  = Done V (St (<[S (ctr s) := Blk CNT (CInts [0])]> (heap s)) (S (S (ctr s))) (rpos s)).
Proof.
  intros Hr HE Hk Hx Hx'. apply reach_inv in Hr. pose proof (i_wf _ _ Hr) as W.
  assert (heap s !! ctr s = None) as F1 by (by apply wf_fresh).
  assert (heap s !! S (ctr s) = None) as F2.
  { apply eq_None_not_Some. intros H. apply W in H. lia. }
  unfold sample_default, sample_destroy. cbn [app steps step]. unfold bind, ctor_default, bind.
  destruct (new_count_run E s) as [->|[? _]]; [|done]. cbn [ret].
  destruct (new_count_run E (after_alloc CNT (CInts [1]) s)) as [->|[? _]]; [|done]. cbn [ret].
  unfold the, opt. rewrite lookup_insert. cbn [ret]. unfold dtor. cbn [o_count is_null o_bufs o_class]. unfold bind.
  rewrite (add_count_run _ 1) by (cbn; rewrite ?lookup_insert; done).
  rewrite (get_count_run _ 0) by (cbn; rewrite ?lookup_insert; done).
  cbn [Z.eqb]. cbn [upd heap ctr rpos after_alloc].
  assert (forall k E s, delete_all (replicate (nbufs k) HNull) E s = Done tt s) as HN by (intros []; done).
  rewrite HN. cbn [ret]. rewrite delete_insert by (rewrite lookup_insert_ne; [done|lia]). rewrite lookup_insert. cbn [ret o_count is_null o_bufs o_class].
  rewrite (add_count_run _ 1).
  2:{ cbn. rewrite !lookup_insert_ne by lia. by rewrite lookup_insert. }
  2:{ done. }
  rewrite (get_count_run _ 0).
  2:{ cbn. by rewrite lookup_insert. }
  cbn [Z.eqb]. rewrite HN. cbn [upd heap ctr rpos after_alloc].
  assert (forall (A B : M unit), match k with Result => A | _ => B end = B) as -> by (by destruct k).
  unfold free_tag. unfold after_alloc, upd. cbn [heap ctr rpos]. rewrite lookup_insert. cbn [b_tag]. rewrite bool_decide_true by done. cbn [ret].
  rewrite delete_insert by done. f_equal. f_equal. rewrite delete_insert_delete. rewrite insert_insert.
  rewrite delete_insert_ne by lia. f_equal. by rewrite delete_insert.
Qed.
