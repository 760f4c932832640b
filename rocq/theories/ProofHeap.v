(** * ProofHeap: what every operation does to memory *)
From stdpp Require Import gmap list.
From Coq Require Import ZArith Lia Floats.SpecFloat.
From Verif Require Import Base Mem Spec SpecHeap ModelCore ModelBasic ModelMath ModelNN.
From Verif Require Import ProofTrace ProofTrace2 ProofTrace3 ProofTrace4 ProofTrace5 ProofTrace6.
Open Scope Z_scope.

Lemma Inv_start E s : wf s -> Inv E (heap s) [] s.
Proof.
  intros W. split; [done|constructor|done| |].
  - intros b Hb. by apply not_elem_of_nil in Hb.
  - intros i Hi. by apply not_elem_of_nil in Hi.
Qed.

Lemma tr_create_data E F L dt dev dims nd data len o :
  tr E F L (aitisa_create dt dev dims nd data len o) (fun _ _ => True).
Proof.
  destruct data as [| |]; [eapply tr_weaken; [apply tr_create|done]|..]; unfold aitisa_create.
  all: apply tr_raw_alloc; intros t Ht; destruct (is_null t); [by apply tr_ret|].
  all: apply tr_kr; [solve [kr]|]; intros size; apply tr_kr; [solve [kr]|]; intros []; [by apply tr_ret|].
  all: eapply tr_bind; [apply tr_shape|]; intros [[s pd] pm] L'; cbn [fst snd]; intros [(-> & Hd & Hm & ->)|(Hs & Hs')];
    [|case_on (bool_decide (s = SUCCESS)); by apply tr_ret].
  all: rewrite bool_decide_eq_true_2 by done; cbn [negb]; unfold create_storage; cbn [is_null]; apply tr_assoc, tr_raw_alloc; intros ps Hps.
  all: destruct (is_null ps); [apply tr_bret; by apply tr_ret|]; apply tr_assoc, tr_bret.
  all: apply tr_assoc, tr_kr; [solve [kr]|]; intros []; apply tr_bret; cbv match; rewrite bool_decide_eq_true_2 by done; cbn [negb].
  all: apply tr_kr; [solve [kr]|]; intros []; by apply tr_ret.
Qed.


Lemma one_intro E s s' p pd pm ps px :
  wf s -> Inv E (heap s) [IT p pd pm ps px] s' -> one_tensor E s s' p [].
Proof.
  intros W I. pose proof (inv_ok _ _ _ _ I _ (elem_of_list_here _ _)) as (Hd & Hm & (sz & off & nd & lt & K3) & (dt & dev & n & K4) & K5).
  assert (Hp : parts (heap s') p ≡ₚ ids [IT p pd pm ps px]).
  { unfold parts. rewrite K3. cbn [fmap option_fmap option_map b_content t_storage t_dims t_min2maj]. rewrite K4.
    cbn [fmap option_fmap option_map b_content s_data ptr_id]. rewrite ids_cons. cbn [foot ids mbind list_bind]. rewrite app_nil_r.
    change (ptr_id pd) with (ids1 pd). change (ptr_id pm) with (ids1 pm). solve_Permutation. }
  split; [by eapply Inv_sub|]. split.
  - exists (ids [IT p pd pm ps px]). rewrite app_nil_r. split; [done|]. split; [apply (inv_nd _ _ _ _ I)|]. split.
    + intros b Hb. split.
      * intros Hs. destruct (decide (b ∈ ids [IT p pd pm ps px])) as [|Hn]; [done|]. rewrite (inv_out _ _ _ _ I b Hn), Hb in Hs.
        by destruct Hs.
      * intros Hi. apply (inv_in _ _ _ _ I b Hi).
    + intros b Hb. split; [apply (inv_in _ _ _ _ I b Hb)|]. rewrite ids_cons in Hb. cbn [foot ids mbind list_bind] in Hb.
      rewrite app_nil_r in Hb. rewrite !elem_of_cons in Hb. destruct Hb as [->|[->|Hb]]; [by rewrite K3|by rewrite K4|].
      destruct (K5 b) as [c Hc]; [by rewrite elem_of_cons|]. by rewrite Hc.
  - intros Hk _. apply destroy_eval in I as [I1 I2]. destruct (I1 Hk) as [s'' e]. exists s''. split; [done|].
    destruct (I2 _ _ e) as [_ I]. intros b. destruct (decide (b ∈ [])) as [Hb|Hb]; [by apply not_elem_of_nil in Hb|].
    apply (inv_out _ _ _ _ I). apply not_elem_of_nil.
Qed.

(** Creation over the caller's buffer. *)
Lemma set_content_eval E x b t c0 c :
  heap x !! b = Some (Blk t c0) ->
  set_content (HPtr b) c E x = Done tt (St (<[b := Blk t c]> (heap x)) (ctr x) (rpos x)).
Proof. intros H. unfold set_content, bind, deref. by rewrite H. Qed.
Definition snap : M st := fun _ s => Done s s.
Definition overQ E b (r : (status * hval) * st) (L' : list item) : Prop :=
  r.1.1 = SUCCESS -> exists p pd pm ps sz off n lt dt' dev' m, r.1.2 = HPtr p /\ pd <> HUndef /\ pm <> HUndef /\
    L' = [IM (e_alloc E) (HPtr ps); IM (e_alloc E) pm; IM (e_alloc E) pd; IM (e_alloc E) (HPtr p)] /\
    heap r.2 !! p = Some (Blk (e_alloc E) (CTensor (TI sz off n pd lt pm (HPtr ps)))) /\
    heap r.2 !! ps = Some (Blk (e_alloc E) (CStorage (SI dt' dev' m (HPtr b)))).
Lemma tr_create_over E F dt dev dims nd b len o :
  tr E F [] (let* a := aitisa_create dt dev dims nd (HPtr b) len o in let* x := snap in ret (a, x)) (overQ E b).
Proof.
  assert (X : forall L s h, s <> SUCCESS -> tr E F L (let* x := snap in ret (s, h, x)) (overQ E b)).
  { intros L s h Hs x I. cbn. exists L. split; [done|]. by intros ?. }
  unfold aitisa_create. apply tr_assoc, tr_raw_alloc. intros t Ht. destruct t as [|p|]; [|cbn [is_null]|done].
  { cbn [is_null]. apply tr_bret. by apply X. }
  apply tr_assoc, tr_kr; [solve [kr]|]. intros size. apply tr_assoc, tr_kr; [solve [kr]|]. intros [].
  { apply tr_bret. by apply X. }
  apply tr_assoc. eapply tr_bind; [apply tr_shape|]. intros [[s pd] pm] L'. cbn [fst snd]. intros [(-> & Hd & Hm & ->)|(Hs & Hs')].
  2:{ case_on (bool_decide (s = SUCCESS)). apply tr_bret. by apply X. }
  rewrite bool_decide_eq_true_2 by done. cbn [negb]. unfold create_storage. cbn [is_null]. do 2 apply tr_assoc. apply tr_raw_alloc. intros q Hq.
  destruct q as [|ps|]; [cbn [is_null]; apply tr_bret; cbv match; rewrite bool_decide_eq_false_2 by done; cbn [negb]; apply tr_bret; by apply X|cbn [is_null]|done].
  set (L := [_; _; _; _]).
  assert (Hps : IM (e_alloc E) (HPtr ps) ∈ L) by apply elem_of_list_here.
  assert (Hpp : IM (e_alloc E) (HPtr p) ∈ L) by (do 3 apply elem_of_list_further; apply elem_of_list_here).
  apply tr_intro; cycle 1.
  { intros x u I e _ ->. unfold bind, ret, snap in e. cbn [is_null] in e. unfold set_content, bind, put_block in e. cbn in e.
    destruct (heap x !! ps); cbn in e; [|done]. rewrite bool_decide_eq_true_2 in e by done. cbn in e.
    match type of e with context [?m !! p] => by destruct (m !! p) end. }
  intros x a x' I e.
  destruct (inv_ok _ _ _ _ I _ Hps ps (elem_of_list_here _ _)) as [c1 K1].
  unfold bind at 1 in e. unfold bind at 1 in e. unfold ret at 1 in e. cbn [is_null] in e. unfold bind at 1 in e.
  match type of e with context [set_content (HPtr ps) ?c E x] => set (cc := c) in * end.
  destruct (set_content (HPtr ps) cc E x) as [[] x1| | |] eqn:e1; try done.
  destruct (tr_done _ _ _ _ _ (kr_set_content E F _ _ _ (ltac:(left; eexists; exact Hps) : inside L (HPtr ps))) _ _ _ I e1) as (L1 & I1 & ->).
  rewrite (set_content_eval _ _ _ _ _ _ K1) in e1. injection e1 as e1.
  destruct (inv_ok _ _ _ _ I1 _ Hpp p (elem_of_list_here _ _)) as [c2 K2].
  unfold ret at 1 in e. unfold bind at 1 in e. cbn beta match in e. rewrite bool_decide_eq_true_2 in e by done. cbn [negb] in e.
  unfold bind at 1 in e.
  match type of e with context [set_content (HPtr p) ?c E x1] => set (cd := c) in * end.
  destruct (set_content (HPtr p) cd E x1) as [[] x2| | |] eqn:e2; try done.
  destruct (tr_done _ _ _ _ _ (kr_set_content E F _ _ _ (ltac:(left; eexists; exact Hpp) : inside L (HPtr p))) _ _ _ I1 e2) as (L1 & I2 & ->).
  rewrite (set_content_eval _ _ _ _ _ _ K2) in e2. injection e2 as e2.
  unfold bind, ret, snap in e. injection e as <- <-. exists L. split; [done|]. intros _. cbn [fst snd].
  exists p, pd, pm, ps. do 7 eexists. do 3 (split; [done|]). split; [done|]. split.
  - rewrite <-e2. cbn [heap]. apply lookup_insert.
  - rewrite <-e2. cbn [heap]. rewrite lookup_insert_ne.
    + rewrite <-e1. cbn [heap]. apply lookup_insert.
    + intros ->. pose proof (inv_nd _ _ _ _ I) as N. subst L. rewrite !ids_cons in N. cbn [foot ids1 ids mbind list_bind app] in N.
      apply NoDup_cons in N as [N _]. apply N. rewrite !elem_of_app, elem_of_list_singleton. tauto.
Qed.

Lemma create_over_raw E s dt dev dims nd b len o h s' :
  wf s -> aitisa_create dt dev dims nd (HPtr b) len o E s = Done (SUCCESS, h) s' ->
  exists p pd pm ps sz off n lt dt' dev' m, h = HPtr p /\ pd <> HUndef /\ pm <> HUndef /\
    Inv E (heap s) [IM (e_alloc E) (HPtr ps); IM (e_alloc E) pm; IM (e_alloc E) pd; IM (e_alloc E) (HPtr p)] s' /\
    heap s' !! p = Some (Blk (e_alloc E) (CTensor (TI sz off n pd lt pm (HPtr ps)))) /\
    heap s' !! ps = Some (Blk (e_alloc E) (CStorage (SI dt' dev' m (HPtr b)))).
Proof.
  intros W e. destruct (tr_done _ _ _ _ _ (tr_create_over E (heap s) dt dev dims nd b len o) s ((SUCCESS, h), s') s' (Inv_start E s W)) as (L' & J & Q).
  { unfold bind, snap, ret. by rewrite e. }
  destruct (Q eq_refl) as (p & pd & pm & ps & sz & off & n & lt & dt' & dev' & m & e1 & Hd & Hm & -> & K3 & K4).
  cbn [fst snd] in *. exists p, pd, pm, ps, sz, off, n, lt, dt', dev', m. by split_and!.
Qed.

Lemma create_over_inv E s p pd pm ps sz off n lt dt' dev' m b s' :
  pd <> HUndef -> pm <> HUndef ->
  Inv E (heap s) [IM (e_alloc E) (HPtr ps); IM (e_alloc E) pm; IM (e_alloc E) pd; IM (e_alloc E) (HPtr p)] s' ->
  heap s' !! p = Some (Blk (e_alloc E) (CTensor (TI sz off n pd lt pm (HPtr ps)))) ->
  heap s' !! ps = Some (Blk (e_alloc E) (CStorage (SI dt' dev' m (HPtr b)))) ->
  b_tag <$> heap s !! b = Some (e_alloc E) -> Inv E (delete b (heap s)) [IT p pd pm ps b] s'.
Proof.
  intros Hd Hm J K3 K4 Hb. set (F := heap s) in *. set (g := e_alloc E) in *.
  destruct (F !! b) as [xb|] eqn:Eb; [|done]. injection Hb as Tb.
  assert (Nb : b ∉ ids [IM g (HPtr ps); IM g pm; IM g pd; IM g (HPtr p)]).
  { intros Hi. destruct (inv_in _ _ _ _ J b Hi). congruence. }
  assert (P : ids [IT p pd pm ps b] ≡ₚ b :: ids [IM g (HPtr ps); IM g pm; IM g pd; IM g (HPtr p)]).
      { rewrite !ids_cons. cbn [foot ids mbind list_bind ids1]. rewrite ?app_nil_r. solve_Permutation. }
      split.
      - apply (inv_wf _ _ _ _ J).
      - rewrite P. constructor; [done|]. apply (inv_nd _ _ _ _ J).
      - intros x Hx. rewrite P, not_elem_of_cons in Hx. destruct Hx as [Hx1 Hx2]. rewrite lookup_delete_ne by done. by apply (inv_out _ _ _ _ J).
      - intros x Hx. rewrite P, elem_of_cons in Hx. destruct (decide (x = b)) as [->|Hn].
        + split; [apply lookup_delete|]. rewrite (inv_out _ _ _ _ J b Nb), Eb. eauto.
        + destruct Hx as [|Hx]; [done|]. rewrite lookup_delete_ne by done. apply (inv_in _ _ _ _ J x Hx).
      - intros i Hi. apply elem_of_list_singleton in Hi as ->. split; [done|]. split; [done|]. split; [by do 4 eexists|]. split; [by do 3 eexists|].
        intros x Hx. rewrite elem_of_cons, elem_of_app in Hx. destruct Hx as [->|[Hx|Hx]].
        + rewrite (inv_out _ _ _ _ J b Nb), Eb. destruct xb. cbn in Tb. subst. eauto.
        + apply (inv_ok _ _ _ _ J (IM g pd)); [do 2 apply elem_of_list_further; apply elem_of_list_here|done].
        + apply (inv_ok _ _ _ _ J (IM g pm)); [apply elem_of_list_further; apply elem_of_list_here|done].
Qed.

Lemma create_over E s dt dev dims nd b len o h s' :
  wf s -> aitisa_create dt dev dims nd (HPtr b) len o E s = Done (SUCCESS, h) s' ->
  exists p, h = HPtr p /\ one_tensor E s s' p [b].
Proof.
  intros W e. set (F := heap s). assert (I : Inv E F [] s) by by apply Inv_start.
  set (g := e_alloc E).
  assert (C : exists p pd pm ps sz off n lt dt' dev' m, h = HPtr p /\ pd <> HUndef /\ pm <> HUndef /\
    Inv E F [IM g (HPtr ps); IM g pm; IM g pd; IM g (HPtr p)] s' /\
    heap s' !! p = Some (Blk g (CTensor (TI sz off n pd lt pm (HPtr ps)))) /\
    heap s' !! ps = Some (Blk g (CStorage (SI dt' dev' m (HPtr b))))).
  { by eapply create_over_raw. }
  destruct C as (p & pd & pm & ps & sz & off & n & lt & dt' & dev' & m & -> & Hd & Hm & J & K3 & K4).
  exists p. split; [done|].
  assert (Hp : parts (heap s') p ≡ₚ ids [IM g (HPtr ps); IM g pm; IM g pd; IM g (HPtr p)] ++ [b]).
  { unfold parts. rewrite K3. cbn [fmap option_fmap option_map b_content t_storage t_dims t_min2maj]. rewrite K4.
    cbn [fmap option_fmap option_map b_content s_data ptr_id]. rewrite !ids_cons. cbn [foot ids mbind list_bind ids1]. rewrite app_nil_r.
    change (ptr_id pd) with (ids1 pd). change (ptr_id pm) with (ids1 pm). solve_Permutation. }
  split; [by eapply Inv_sub|]. split.
  - exists (ids [IM g (HPtr ps); IM g pm; IM g pd; IM g (HPtr p)]). split; [done|]. split; [apply (inv_nd _ _ _ _ J)|]. split.
    + intros x Hx. split.
      * intros Hs. destruct (decide (x ∈ ids [IM g (HPtr ps); IM g pm; IM g pd; IM g (HPtr p)])) as [|Hn]; [done|].
        rewrite (inv_out _ _ _ _ J x Hn) in Hs. fold F in Hx. rewrite Hx in Hs. by destruct Hs.
      * intros Hi. apply (inv_in _ _ _ _ J x Hi).
    + intros x Hx. split; [apply (inv_in _ _ _ _ J x Hx)|]. apply ids_elem in Hx as (i & Hi & Hx).
      pose proof (inv_ok _ _ _ _ J i Hi) as Ko. rewrite !elem_of_cons in Hi.
      destruct Hi as [->|[->|[->|[->|Hi]]]]; [| | | |by apply not_elem_of_nil in Hi].
      all: destruct (Ko x Hx) as [c Hc]; by rewrite Hc.
  - intros Hk Hb. destruct (F !! b) as [xb|] eqn:Eb; [|fold F in Hb; specialize (Hb b (elem_of_list_here _ _)); by rewrite Eb in Hb].
    assert (Tb : b_tag xb = g) by (specialize (Hb b (elem_of_list_here _ _)); fold F in Hb; rewrite Eb in Hb; by injection Hb).
    assert (Nb : b ∉ ids [IM g (HPtr ps); IM g pm; IM g pd; IM g (HPtr p)]).
    { intros Hi. destruct (inv_in _ _ _ _ J b Hi). congruence. }
    assert (J2 : Inv E (delete b F) [IT p pd pm ps b] s').
    { eapply create_over_inv; try done. fold F. rewrite Eb. cbn. by rewrite Tb. }
    apply destroy_eval in J2 as [I1 I2]. destruct (I1 Hk) as [s'' e2]. exists s''. split; [done|].
    destruct (I2 _ _ e2) as [_ I3]. intros x. rewrite (inv_out _ _ _ _ I3) by apply not_elem_of_nil.
    destruct (decide (x ∈ [b])) as [Hx|Hx].
    + apply elem_of_list_singleton in Hx as ->. apply lookup_delete.
    + apply lookup_delete_ne. intros ->. apply Hx. apply elem_of_list_here.
Qed.

(** ** Every operation *)
Lemma op_success E s m h s' :
  wf s -> tr E (heap s) [] m (opQ []) -> m E s = Done (SUCCESS, h) s' -> exists p, h = HPtr p /\ one_tensor E s s' p [].
Proof.
  intros W H' e.
  destruct (tr_done _ _ _ _ _ H' _ _ _ (Inv_start E s W) e) as (L' & I & [(_ & p & pd & pm & ps & px & e1 & ->)|[Hn _]]); [|done].
  exists p. split; [done|]. by eapply one_intro.
Qed.

Ltac op_rule :=
  lazymatch goal with
  | |- tr _ _ _ ?m _ =>
    let h := head_of m in
    lazymatch h with
    | aitisa_full => apply tr_full
    | aitisa_cast => apply tr_cast
    | aitisa_reshape => apply tr_reshape
    | aitisa_squeeze => apply tr_squeeze
    | aitisa_slice => apply tr_slice
    | aitisa_duplicate => apply tr_duplicate
    | aitisa_binary_op => apply tr_binary
    | aitisa_sqrt => apply tr_sqrt
    | aitisa_matmul => apply tr_matmul
    | aitisa_dot => apply tr_dot
    | aitisa_relu => apply tr_relu
    | aitisa_sigmoid => apply tr_sigmoid
    | aitisa_tanh => apply tr_tanh
    | aitisa_softmax => apply tr_softmax
    | aitisa_dropout => apply tr_dropout
    | aitisa_pooling => apply tr_pooling
    | aitisa_conv2d => apply tr_conv2d
    | aitisa_conv3d => apply tr_conv3d
    | aitisa_conv => apply tr_conv
    | aitisa_batch_norm => apply tr_batch_norm
    end
  end.

Lemma run_frame x o E F : tr E F [] (run_op x o) (fun _ _ => True).
Proof.
  destruct x; cbn [run_op]; [apply tr_create_data|..].
  all: eapply tr_weaken; [op_rule|done].
Qed.

Lemma run_keeps E s x o r s' : wf s -> run_op x o E s = Done r s' -> heap s ⊆ heap s' /\ wf s'.
Proof.
  intros W e. destruct (tr_done _ _ _ _ _ (run_frame x o E (heap s)) _ _ _ (Inv_start E s W) e) as (L' & I & _).
  split; [by eapply Inv_sub|apply (inv_wf _ _ _ _ I)].
Qed.

#[local] Hint Extern 1 (tr _ _ _ (cast_template _ _ _) _) => eapply tr_cast_template; mem : tr.
Lemma dtype_pure t E s d s' : tensor_dtype t E s = Done d s' -> s' = s.
Proof.
  intros e. unfold tensor_dtype, tensor_storage, get_timpl, get_simpl, deref, bind in e.
  destruct t as [|b|]; try done. destruct (heap s !! b) as [x|]; [|done]. destruct (b_content x); try done. cbn in e.
  destruct (t_storage t) as [|b'|]; try done. destruct (heap s !! b') as [x'|]; [|done]. destruct (b_content x'); try done.
  cbn in e. unfold ret in e. congruence.
Qed.

Lemma run_success E s x o h s' :
  wf s -> sane x -> run_op x o E s = Done (SUCCESS, h) s' ->
  (exists p, h = HPtr p /\ one_tensor E s s' p (handed x)) \/
  (self_cast x E s /\ h = o /\ heap s' = heap s).
Proof.
  intros W Hx e. destruct x; cbn [handed]; cbn [run_op] in e.
  all: try (left; eapply op_success; [exact W| |exact e];
    op_rule).
  - left. destruct data as [|b|]; [|by eapply create_over|done]. eapply op_success; [exact W| |exact e]. apply tr_create.
  - unfold aitisa_cast, bind at 1 in e. destruct (tensor_dtype t E s) as [d s1| | |] eqn:ed; try done.
    apply dtype_pure in ed as e1. subst s1. destruct (Z.eqb_spec (d_code d) (d_code dt)) as [Hc|Hc].
    + right. unfold ret in e. injection e as <- <-. split; [by exists t, dt, d|done].
    + left. eapply op_success; [exact W| |exact e]. clear -Hc. ts.
  - left. pose proof (tr_done _ _ _ _ _ (tr_conv E (heap s) t filter stride padding dilation groups o []) _ _ _ (Inv_start E s W) e) as (L' & I & [(p & pd & pm & ps & px & e1 & ->)|[Hn _]]); [|done].
    exists p. split; [done|]. by eapply one_intro.
  - left. pose proof (tr_done _ _ _ _ _ (tr_conv2d E (heap s) t filter stride padding dilation groups o []) _ _ _ (Inv_start E s W) e) as (L' & I & [(p & pd & pm & ps & px & e1 & ->)|[Hn _]]); [|done].
    exists p. split; [done|]. by eapply one_intro.
  - left. pose proof (tr_done _ _ _ _ _ (tr_conv3d E (heap s) t filter stride padding dilation groups o []) _ _ _ (Inv_start E s W) e) as (L' & I & [(p & pd & pm & ps & px & e1 & ->)|[Hn _]]); [|done].
    exists p. split; [done|]. by eapply one_intro.
Qed.

(** ** Queries *)
Definition pure {A} (m : M A) : Prop := forall E s a s', m E s = Done a s' -> s' = s.
Lemma pure_bind {A B} (m : M A) (k : A -> M B) : pure m -> (forall a, pure (k a)) -> pure (bind m k).
Proof.
  intros H1 H2 E s a s' e. unfold bind in e. destruct (m E s) as [x s1| | |] eqn:e1; try done.
  apply H1 in e1 as ->. by eapply H2.
Qed.
Lemma pure_iter {S} n i (body : Z -> S -> M S) s : (forall i s, pure (body i s)) -> pure (iter n i body s).
Proof.
  intros H. revert i s. induction n as [|n IH]; intros i s; cbn [iter]; [by intros E x a x' [= <- <-]|].
  apply pure_bind; [apply H|intros ?; apply IH].
Qed.
Lemma pure_iter_down {S} n (body : Z -> S -> M S) s : (forall i s, pure (body i s)) -> pure (iter_down n body s).
Proof.
  intros H. revert s. induction n as [|n IH]; intros s; cbn [iter_down]; [by intros E x a x' [= <- <-]|].
  apply pure_bind; [apply H|intros ?; apply IH].
Qed.
Lemma pure_iter_ret {S R} n i (body : Z -> S -> M (ctl S R)) s : (forall i s, pure (body i s)) -> pure (iter_ret n i body s).
Proof.
  intros H. revert i s. induction n as [|n IH]; intros i s; cbn [iter_ret]; [by intros E x a x' [= <- <-]|].
  apply pure_bind; [apply H|]. intros [x|r]; [apply IH|by intros E y a y' [= <- <-]].
Qed.
Lemma pure_ret {A} (a : A) : pure (ret a). Proof. by intros E s x s' [= _ <-]. Qed.
Lemma pure_undef {A} u : pure (undef u : M A). Proof. by intros E s x s' e. Qed.
Lemma pure_abort {A} : pure (abort : M A). Proof. by intros E s x s' e. Qed.
Lemma pure_ask {A} (f : env -> A) : pure (ask f). Proof. by intros E s x s' [= _ <-]. Qed.
Lemma pure_deref p : pure (deref p).
Proof.
  intros E s x s' e. unfold deref in e. destruct p; try done. destruct (heap s !! b); [|done]. by injection e.
Qed.
Lemma pure_opt {A} (o : option A) u : pure (opt o u).
Proof. destruct o; [apply pure_ret|apply pure_undef]. Qed.
Ltac pu1 :=
  cbv beta match zeta;
  lazymatch goal with
  | |- forall _, _ => intros ?
  | |- pure (ret _) => apply pure_ret
  | |- pure (undef _) => apply pure_undef
  | |- pure abort => apply pure_abort
  | |- pure (ask _) => apply pure_ask
  | |- pure (deref _) => apply pure_deref
  | |- pure (opt _ _) => apply pure_opt
  | |- pure (bind _ _) => apply pure_bind
  | |- pure (iter _ _ _ _) => apply pure_iter
  | |- pure (iter_ret _ _ _ _) => apply pure_iter_ret
  | |- pure (iter_down _ _ _) => apply pure_iter_down
  | |- pure (match ?x with _ => _ end) => destruct x
  | |- pure ?m => let h := head_of m in unfold h
  end.
Lemma query_pure q : pure (run_query q).
Proof. destruct q; cbn [run_query]; repeat pu1. Qed.
