(** * ProofTerm2: batch normalisation finishes *)
From stdpp Require Import gmap list.
From Coq Require Import ZArith Lia Floats.SpecFloat.
From Verif Require Import Base Mem Spec ModelCore ModelBasic ModelMath ModelNN.
From Verif Require Import ProofCore ProofTerm ProofTrace ProofTrace2 ProofTrace5 ProofTrace6.
Open Scope Z_scope.

(** ** Sizes do not depend on the memory *)
Definition stateless {A} (m : M A) : Prop := forall E s a s', m E s = Done a s' ->
  s' = s /\ forall s2, m E s2 = Done a s2.
Lemma stateless_ret {A} (a : A) : stateless (ret a).
Proof. intros E s b s' e. unfold ret in *. injection e as <- <-. done. Qed.
Lemma stateless_bind {A B} (m : M A) (k : A -> M B) :
  stateless m -> (forall a, stateless (k a)) -> stateless (bind m k).
Proof.
  intros Hm Hk E s b s' e. unfold bind in *. destruct (m E s) as [a s1| | |] eqn:e1; try done.
  destruct (Hm _ _ _ _ e1) as [-> Ha]. destruct (Hk _ _ _ _ _ e) as [-> Hb]. split; [done|].
  intros s2. rewrite Ha. apply Hb.
Qed.
Lemma stateless_iter {S} n i (body : Z -> S -> M S) x :
  (forall i x, stateless (body i x)) -> stateless (iter n i body x).
Proof.
  intros H. revert i x. induction n as [|n IH]; intros i x; cbn [iter]; [apply stateless_ret|].
  apply stateless_bind; [done|]. intros. apply IH.
Qed.
Lemma stateless_opt {A} (o : option A) u : stateless (opt o u).
Proof. destruct o; [apply stateless_ret|]. intros E s a s' e. discriminate e. Qed.
Lemma stateless_check b u : stateless (check b u).
Proof. destruct b; [apply stateless_ret|]. intros E s a s' e. discriminate e. Qed.
Lemma stateless_size dims ndim : stateless (size_of_dims dims ndim).
Proof.
  unfold size_of_dims, for64. apply stateless_iter. intros i x.
  apply stateless_bind; [apply stateless_opt|]. intros a. unfold ck64.
  apply stateless_bind; [apply stateless_check|]. intros. apply stateless_ret.
Qed.

Lemma bind_inv {A B} (m : M A) (k : A -> M B) E s b s' :
  bind m k E s = Done b s' -> exists a s1, m E s = Done a s1 /\ k a E s1 = Done b s'.
Proof. unfold bind. destruct (m E s) as [a s1| | |]; try done. eauto. Qed.

(** ** The size of what was created *)
Lemma created_size dt dev dims ndim E s h s' :
  aitisa_create dt dev dims ndim HNull 0 HUndef E s = Done (SUCCESS, h) s' ->
  exists n, tensor_size h E s' = Done n s' /\ forall s2, size_of_dims dims ndim E s2 = Done n s2.
Proof.
  intros e. unfold aitisa_create in e. cbn [is_null] in e.
  apply bind_inv in e as (t & s1 & _ & e). destruct (is_null t) eqn:Ht; [discriminate e|].
  apply bind_inv in e as (n & s2 & e1 & e). destruct (stateless_size _ _ _ _ _ _ e1) as [-> Hn].
  cbv beta match in e. apply bind_inv in e as (bad & s3 & e2 & e). injection e2 as <- <-. cbv beta match in e.
  apply bind_inv in e as ([[st pd] pm] & s4 & _ & e). cbv beta match in e.
  destruct (negb (bool_decide (st = SUCCESS))) eqn:Hst.
  { injection e as -> _ _. by rewrite bool_decide_eq_true_2 in Hst by done. }
  apply bind_inv in e as ([st' sp] & s5 & _ & e). cbv beta match in e.
  destruct (negb (bool_decide (st' = SUCCESS))) eqn:Hst'.
  { injection e as -> _ _. by rewrite bool_decide_eq_true_2 in Hst' by done. }
  apply bind_inv in e as (u & s6 & e3 & e). injection e as <- <-.
  exists n. split; [|done]. destruct t as [|b|]; try done.
  unfold set_content, deref, put_block, bind in e3. destruct (heap s5 !! b) as [x|] eqn:Hb; [|done].
  injection e3 as _ <-. unfold tensor_size, get_timpl, deref, bind. cbn. by rewrite lookup_insert.
Qed.

(** A filled tensor has at most INT_MAX elements. *)
Lemma for32_bound {S} lo hi (body : Z -> S -> M S) x E s x' s' :
  for32 lo hi body x E s = Done x' s' -> lo <= INT_MAX -> hi <= INT_MAX.
Proof.
  unfold for32. intros e Hlo. destruct (decide (hi <= lo)) as [?|Hn0]; [lia|].
  remember (Z.to_nat (hi - lo)) as n eqn:Hn. assert (hi = lo + Z.of_nat n) as -> by lia. clear Hn Hn0.
  revert lo x s e Hlo. induction n as [|n IH]; intros lo x s e Hlo; [lia|]. cbn [iter] in e.
  apply bind_inv in e as (a & s1 & e1 & e). apply bind_inv in e1 as (a' & s2 & _ & e1).
  apply bind_inv in e1 as (u & s3 & e2 & _). destruct (lo <? INT_MAX) eqn:Hl; [|discriminate e2].
  replace (lo + Z.of_nat (Datatypes.S n)) with (lo + 1 + Z.of_nat n) by lia. eapply IH; [exact e|lia].
Qed.
Lemma full_size dt dev dims ndim v o E s h s' :
  aitisa_full dt dev dims ndim v o E s = Done (SUCCESS, h) s' ->
  exists n, n <= INT_MAX /\ forall s2, size_of_dims dims ndim E s2 = Done n s2.
Proof.
  intros e. unfold aitisa_full in e. apply bind_inv in e as ([st new] & s1 & e1 & e). cbv beta match in e.
  destruct (bool_decide (st = SUCCESS)) eqn:Hst; cbn [negb] in e; cycle 1.
  { injection e as -> _ _. by rewrite bool_decide_eq_true_2 in Hst by done. }
  apply bool_decide_eq_true_1 in Hst as ->. destruct (created_size _ _ _ _ _ _ _ _ e1) as (n & Hn & Hs).
  exists n. split; [|done]. unfold bind in e at 1. rewrite Hn in e.
  apply bind_inv in e as (bs & s2 & _ & e). apply bind_inv in e as (u & s3 & e & _).
  eapply for32_bound; [exact e|done].
Qed.

(** ** The loops with a uint32_t counter *)
Lemma nodiv_ctl_u32 {S R} n (body : Z -> S -> M (ctl S R)) x :
  n < 2 ^ 32 -> (forall i x, nodiv (body i x)) -> nodiv (ctl_u32 n body x).
Proof. intros Hn H. unfold ctl_u32. destruct (Z.leb_spec (2 ^ 32) n); [lia|]. by apply nodiv_iter_ret. Qed.
Lemma nodiv_try {B} (m : M (status * hval)) (k : hval -> M (ctl B status)) :
  nodiv m -> (forall x, nodiv (k x)) -> nodiv (try_ m k).
Proof. intros. unfold try_. nd. Qed.
Lemma nodiv_bn_denominator input variance eps : nodiv (bn_denominator input variance eps).
Proof. nd. Qed.
Lemma nodiv_bn_spread d p n ele c : n < 2 ^ 32 -> nodiv (bn_spread d p n ele c).
Proof.
  intros Hn. unfold bn_spread. apply nodiv_bind; [nd|]. intros. apply nodiv_bind; [nd|]. intros.
  apply nodiv_ctl_u32; [done|]. nd.
Qed.
Lemma nodiv_bn_parameters dt dev dims ndim sc bi me va eps n ele c :
  n < 2 ^ 32 -> nodiv (bn_parameters dt dev dims ndim sc bi me va eps n ele c).
Proof.
  intros Hn. unfold bn_parameters.
  do 4 (apply nodiv_try; [nd|]; intros).
  do 4 (apply nodiv_bind; [by apply nodiv_bn_spread|]; intros). nd.
Qed.

Lemma bind_stops {A B} (m : M A) (k : A -> M B) E s :
  nodiv m -> (forall a s', m E s = Done a s' -> k a E s' <> Diverge) -> bind m k E s <> Diverge.
Proof. intros Hm Hk. unfold bind. specialize (Hm E s). destruct (m E s) as [a s'| | |]; eauto. Qed.
Lemma bind_stops_of {A B} (m : M A) (k : A -> M B) E s :
  nodiv m -> (forall a, nodiv (k a)) -> bind m k E s <> Diverge.
Proof. intros Hm Hk. by apply nodiv_bind. Qed.

Lemma bn_intermediate_stops input axis sc bi me va eps E s :
  (forall ch s', tensor_dim input axis E s = Done ch s' -> ch < 2 ^ 32) ->
  bn_intermediate input axis sc bi me va eps E s <> Diverge.
Proof.
  intros Hch. unfold bn_intermediate.
  apply bind_stops; [nd|]. intros in_ndim s1 e1.
  assert (s1 = s) as ->.
  { clear -e1. unfold tensor_ndim, get_timpl, deref, bind in e1. destruct input as [|b|]; try done.
    destruct (heap s !! b) as [x|]; [|done]. destruct (b_content x); try done. cbn in e1. unfold ret in *. congruence. }
  clear e1.
  apply bind_stops; [nd|]. intros dt s1 e1.
  assert (s1 = s) as ->.
  { clear -e1. unfold tensor_dtype, tensor_storage, get_timpl, get_simpl, deref, bind in e1. destruct input as [|b|]; try done.
    destruct (heap s !! b) as [x|]; [|done]. destruct (b_content x); try done. cbn in e1.
    destruct (t_storage t) as [|b'|]; try done. destruct (heap s !! b') as [x'|]; [|done].
    destruct (b_content x'); try done. cbn in e1. unfold ret in *. congruence. }
  clear e1. apply bind_stops; [nd|]. intros dev s1 e1.
  assert (s1 = s) as ->.
  { clear -e1. unfold tensor_device, tensor_storage, get_timpl, get_simpl, deref, bind in e1. destruct input as [|b|]; try done.
    destruct (heap s !! b) as [x|]; [|done]. destruct (b_content x); try done. cbn in e1.
    destruct (t_storage t) as [|b'|]; try done. destruct (heap s !! b') as [x'|]; [|done].
    destruct (b_content x'); try done. cbn in e1. unfold ret in *. congruence. }
  clear e1. apply bind_stops; [nd|]. intros in_dims s1 e1.
  assert (s1 = s) as ->.
  { clear -e1. unfold tensor_dims, get_timpl, int_array, get_ints, deref, bind in e1. destruct input as [|b|]; try done.
    destruct (heap s !! b) as [x|]; [|done]. destruct (b_content x); try done. cbn in e1.
    destruct (is_null (t_dims t)); [unfold ret in *; congruence|].
    destruct (t_dims t) as [|b'|]; try done. destruct (heap s !! b') as [x'|]; [|done].
    destruct (b_content x'); try done. cbn in e1. unfold ret in *. congruence. }
  clear e1. apply bind_stops; [nd|]. intros channels s1 e1. apply Hch in e1. clear Hch.
  cbv zeta. apply bind_stops_of; [nd|]. intros p_dims.
  destruct (is_null p_dims); [apply nodiv_ret|]. apply nodiv_bind; [nd|]. intros dims E' s'. unfold try_.
  apply bind_stops; [nd|]. intros [st h] s2 e2. cbv beta match.
  destruct (bool_decide (st = SUCCESS)) eqn:Hst'; cbn [negb]; [|done]. apply bool_decide_eq_true_1 in Hst' as ->.
  destruct (full_size _ _ _ _ _ _ _ _ _ _ e2) as (n & Hn & Hs). unfold bind at 1. rewrite Hs.
  assert (n < 2 ^ 32) by (unfold INT_MAX in Hn; lia).
  match goal with |- ?m E' s2 <> Diverge => enough (nodiv m) as G by apply G end.
  do 6 (apply nodiv_bind; [nd|]; intros ?).
  match goal with |- nodiv (if ?b then _ else _) => destruct b end; [apply nodiv_ret|].
  apply nodiv_bind; [|nd].
  apply nodiv_ctl_u32; [done|]. intros c [[[[ms ss] bs] ds] ts].
  apply nodiv_bind; [nd|]. intros _. apply nodiv_bind; [by apply nodiv_bn_parameters|]. nd.
Qed.

Lemma batch_norm_stops input axis sc bi me va eps o E s :
  wf s -> (forall ch s', tensor_dim input axis E s = Done ch s' -> ch < 2 ^ 32) ->
  aitisa_batch_norm input axis sc bi me va eps o E s <> Diverge.
Proof.
  intros Hwf Hch. unfold aitisa_batch_norm. apply bind_stops; [nd|]. intros st s1 e1.
  assert (I0 : Inv E (heap s) [] s).
  { split; [done|constructor|done|by intros b Hb; apply elem_of_nil in Hb|by intros b Hb; apply elem_of_nil in Hb]. }
  destruct (tr_done _ _ _ _ _ (tr_bn_check E (heap s) input axis sc bi me va eps) _ _ _ I0 e1) as (L1 & I1 & -> & Hst).
  destruct (bool_decide (st = SUCCESS)) eqn:Hb; cbn [negb]; [|done]. apply bool_decide_eq_true_1 in Hb as ->.
  destruct (Hst eq_refl) as [ch Hs]. clear Hst. apply bind_stops; [nd|]. intros [st o'] s2 e2. cbv beta match.
  assert (Hsub : heap s ⊆ heap s2).
  { destruct (tr_done _ _ _ _ _ (tr_like E (heap s) input o []) _ _ _ I1 e2) as (L2 & I2 & _). by eapply Inv_sub. }
  destruct (negb (bool_decide (st = SUCCESS))); [done|].
  apply bind_stops; [nd|]. intros nd s3 e3.
  assert (s3 = s2) as ->.
  { clear -e3. unfold tensor_ndim, get_timpl, deref, bind in e3. destruct input as [|b|]; try done.
    destruct (heap s2 !! b) as [x|]; [|done]. destruct (b_content x); try done. cbn in e3. unfold ret in *. congruence. }
  destruct (nd =? 2).
  { apply bind_stops_of; [apply nodiv_bn_denominator|]. nd. }
  destruct ((2 <? nd) && (nd <? 6)); [|done].
  assert (Hi : bn_intermediate input axis sc bi me va eps E s2 <> Diverge).
  { apply bn_intermediate_stops. intros ch' s' e. rewrite (Hs s2 Hsub) in e. injection e as <- _.
    eapply Hch. apply (Hs s). reflexivity. }
  unfold bind at 1. destruct (bn_intermediate input axis sc bi me va eps E s2) as [r s4| | |]; try done.
  match goal with |- ?m E s4 <> Diverge => enough (nodiv m) as G by apply G end. nd.
Qed.

Lemma batch_norm_stops_T p T axis sc bi me va eps o E s :
  wf s -> holds (heap s) p T ->
  (forall d, a_dims T !! Z.to_nat axis = Some d -> d < 2 ^ 32) ->
  aitisa_batch_norm (HPtr p) axis sc bi me va eps o E s <> Diverge.
Proof.
  intros Hwf H Hd. apply batch_norm_stops; [done|]. intros ch s' e.
  destruct H as (_ & px & tg & ex & Hv & _). unfold tensor_dim, bind in e.
  rewrite (tensor_dims_ok Hv) in e. unfold aget, zget in e.
  destruct (axis <? 0); [discriminate e|]. destruct (a_dims T !! Z.to_nat axis) as [d|]; [|discriminate e].
  injection e as <- _. by apply Hd.
Qed.
