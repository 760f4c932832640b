(** * ProofSample2: every step under the discipline *)
From stdpp Require Import gmap list.
From Coq Require Import ZArith Lia ZifyBool ZifyNat.
From Verif Require Import Base Mem Spec ModelSample SpecSample ProofSample.
Open Scope Z_scope.

Definition good (op : hop) (V : objs) (E : env) (s : st) : Prop :=
  match step op V E s with
  | Done V' s' => inv V' s' /\ releases op V s V' s'
  | Abort => ~ (alloc_all E /\ roomy op)
  | _ => False
  end.

(** A state change that touches counter cells and fresh memory only. *)
Record grows (s s' : st) : Prop := Grows {
  g_old : forall b t c, heap s !! b = Some (Blk t c) -> t <> CNT -> heap s' !! b = Some (Blk t c);
  g_cnt : forall b c, heap s !! b = Some (Blk CNT c) -> is_Some (heap s' !! b);
  g_new : forall b, is_Some (heap s' !! b) -> is_Some (heap s !! b) \/ (ctr s <= b)%nat;
  g_ctr : (ctr s <= ctr s')%nat
}.
Lemma grows_refl s : grows s s.
Proof. split; try done; eauto. Qed.
Lemma grows_trans s1 s2 s3 : grows s1 s2 -> grows s2 s3 -> grows s1 s3.
Proof.
  intros [A1 A2 A3 A4] [B1 B2 B3 B4]. split; [eauto| | |lia].
  - intros b c H. destruct (A2 b c H) as [[t c'] H']. destruct (decide (t = CNT)) as [->|Ht]; [eauto|].
    exists (Blk t c'). eauto.
  - intros b H. destruct (B3 b H) as [H'|H']; [destruct (A3 b H'); eauto|right; lia].
Qed.
Definition after_alloc (tag : nat) (c : content) (s : st) : st :=
  St (<[ctr s := Blk tag c]> (heap s)) (S (ctr s)) (rpos s).
Lemma wf_fresh s : wf s -> heap s !! ctr s = None.
Proof. intros Hw. apply eq_None_not_Some. intros H. apply Hw in H. lia. Qed.
Lemma wf_after s tag c : wf s -> wf (after_alloc tag c s).
Proof.
  intros Hw b [x Hx]. unfold after_alloc in *. cbn [heap ctr] in *.
  apply lookup_insert_Some in Hx as [[<- _]|[_ Hx]]; [lia|].
  assert (is_Some (heap s !! b)) as H by eauto. apply Hw in H. lia.
Qed.
Lemma lookup_after s tag c b x : wf s -> heap s !! b = Some x -> heap (after_alloc tag c s) !! b = Some x.
Proof.
  intros Hw H. unfold after_alloc. cbn [heap]. rewrite lookup_insert_ne; [done|].
  intros <-. rewrite wf_fresh in H; done.
Qed.
Lemma grows_after s tag c : wf s -> grows s (after_alloc tag c s).
Proof.
  intros Hw. split.
  - intros b t c' H _. by apply lookup_after.
  - intros b c' H. exists (Blk CNT c'). by apply lookup_after.
  - intros b [x Hx]. unfold after_alloc in Hx. cbn [heap] in Hx.
    apply lookup_insert_Some in Hx as [[<- _]|[_ Hx]]; [right; lia|left; eauto].
  - unfold after_alloc. cbn. lia.
Qed.
Lemma inv_after V s tag c : inv V s -> inv V (after_alloc tag c s).
Proof.
  intros Hi. eapply inv_heap; [done| |].
  - apply wf_after, (i_wf _ _ Hi).
  - intros b t c' _ _ _ H. apply lookup_after; [|done]. apply (i_wf _ _ Hi).
Qed.
Lemma releases_grows op V s V' s' : inv V s -> grows s s' ->
  (forall b, owned V b -> owned V' b) -> releases op V s V' s'.
Proof.
  intros Hi [G1 G2 G3 G4] Ho. split; [|eauto|done|done].
  intros b Hb. left. split; [by apply Ho|].
  destruct Hb as (x & o & Hx & Hb). destruct (i_buf _ _ Hi x o b Hx Hb) as (c & Hc).
  rewrite Hc. by apply G1.
Qed.
Lemma owned_insert V x o b : V !! x = None -> owned V b -> owned (<[x := o]> V) b.
Proof.
  intros Hx (y & o' & Hy & Hb). exists y, o'. split; [|done].
  rewrite lookup_insert_ne; [done|congruence].
Qed.
Lemma owned_insert_inv V x o b : owned (<[x := o]> V) b -> HPtr b ∈ o_bufs o \/ owned V b.
Proof.
  intros (y & o' & Hy & Hb). apply lookup_insert_Some in Hy as [[_ <-]|[_ Hy]]; [by left|].
  right. by exists y, o'.
Qed.
Lemma owned_delete V x b : owned (delete x V) b -> owned V b.
Proof. intros (y & o & Hy & Hb). apply lookup_delete_Some in Hy as [_ Hy]. by exists y, o. Qed.
Lemma owned_live V s b : inv V s -> owned V b -> exists c, heap s !! b = Some (Blk ARR c).
Proof. intros Hi (x & o & Hx & Hb). by eapply (i_buf _ _ Hi x). Qed.
Lemma fresh_unowned V s b : inv V s -> (ctr s <= b)%nat -> ~ owned V b.
Proof.
  intros Hi Hb Ho. destruct (owned_live V s b Hi Ho) as (c & Hc).
  assert (is_Some (heap s !! b)) as H by eauto. apply (i_wf _ _ Hi) in H. lia.
Qed.
Lemma fresh_uncounted V s b : inv V s -> (ctr s <= b)%nat ->
  forall y o, V !! y = Some o -> o_count o <> HPtr b.
Proof.
  intros Hi Hb y o Hy Hc. assert (o_count o <> HNull) as Hn by congruence.
  destruct (i_cnt _ _ Hi y o Hy Hn) as (c & E1 & E2). assert (c = b) as -> by congruence.
  assert (is_Some (heap s !! b)) as H by eauto. apply (i_wf _ _ Hi) in H. lia.
Qed.

Lemma new_count_run E s :
  new_count E s = Done (HPtr (ctr s)) (after_alloc CNT (CInts [1]) s) \/
  (~ alloc_all E /\ new_count E s = Abort).
Proof.
  unfold new_count, bind. destruct (new_run CNT 4 (fun _ => CInts [1]) E s) as [H|[H (s' & H')]].
  - left. rewrite H. done.
  - right. rewrite H'. split; [|done]. intros Ha. apply H. done.
Qed.
Lemma new_arr_run n c E s :
  new_arr n c E s = Done (HPtr (ctr s)) (after_alloc ARR c s) \/
  (~ (alloc_all E /\ n <= PTRDIFF_MAX) /\ new_arr n c E s = Abort).
Proof.
  unfold new_arr, bind. destruct (new_run ARR n (fun _ => c) E s) as [H|[H (s' & H')]].
  - left. rewrite H. done.
  - right. rewrite H'. split; done.
Qed.

(** Completing a constructor: the counter cell is the last thing allocated. *)
Lemma ctor_good V s x k m bs s0 : inv V s0 -> grows s0 s -> inv V s -> V !! x = None ->
  distinct bs -> HUndef ∉ bs ->
  (forall b, HPtr b ∈ bs -> (exists c, heap s !! b = Some (Blk ARR c)) /\ ~ owned V b) ->
  forall op, let s' := after_alloc CNT (CInts [1]) s in
  let V' := <[x := Obj k m bs (HPtr (ctr s))]> V in inv V' s' /\ releases op V s0 V' s'.
Proof.
  intros Hi0 Hg Hi Hx Hd Hu Hb op s' V'. split.
  - apply inv_fresh with (ctr s); [by apply inv_after|done|done| | |done|done|].
    + unfold s', after_alloc. cbn [heap]. by rewrite lookup_insert.
    + by eapply fresh_uncounted.
    + cbn [o_bufs]. intros b H. destruct (Hb b H) as [(c & Hc) Hn]. split; [|done]. exists c.
      apply lookup_after; [|done]. apply (i_wf _ _ Hi).
  - apply releases_grows; [done| |].
    + eapply grows_trans; [done|]. apply grows_after. apply (i_wf _ _ Hi).
    + intros b. by apply owned_insert.
Qed.

Lemma givable_owned V s b : givable V (heap s) (HPtr b) ->
  (exists c, heap s !! b = Some (Blk ARR c)) /\ ~ owned V b.
Proof. intros [?|(b' & c & [= <-] & H & Hn)]; [done|]. eauto. Qed.
Lemma givable_defined V h : ~ givable V h HUndef.
Proof. intros [?|(b' & c & ? & H & Hn)]; done. Qed.

(** ** The operations *)
Lemma good_new n c V E s : inv V s -> good (NewArr n c) V E s.
Proof.
  intros Hi. unfold good. cbn [step]. unfold bind. destruct (new_arr_run n c E s) as [->|[H ->]].
  - cbn. split; [by apply inv_after|]. apply releases_grows; [done| |done].
    apply grows_after. apply (i_wf _ _ Hi).
  - done.
Qed.
Lemma good_del p V E s : inv V s -> givable V (heap s) p -> good (DelArr p) V E s.
Proof.
  intros Hi Hg. unfold good. cbn [step]. unfold bind.
  destruct Hg as [->|(b & c & -> & Hb & Hn)].
  - cbn [free_tag ret]. split; [done|]. apply releases_grows; [done|apply grows_refl|done].
  - cbn [free_tag]. rewrite Hb. cbn [b_tag]. rewrite bool_decide_true by done. cbn [ret].
    assert (forall b' t c', b' <> b -> heap s !! b' = Some (Blk t c') ->
      delete b (heap s) !! b' = Some (Blk t c')) as Hk.
    { intros b' t c' Hne H. by rewrite lookup_delete_ne. }
    split.
    + eapply inv_heap; [done| |].
      * intros b' H. cbn [heap ctr] in *. apply (i_wf _ _ Hi). destruct H as [x H].
        apply lookup_delete_Some in H as [_ H]. eauto.
      * intros b' t c' H1 H2 H3 H. apply Hk; [|done]. intros ->.
        assert (t = ARR) as -> by congruence. by apply Hn, H1.
    + split; cbn [heap ctr].
      * intros b' Hb'. left. split; [done|]. rewrite lookup_delete_ne; [done|]. by intros <-.
      * intros b' t c' H _ _ Hne. apply Hk; [|done]. congruence.
      * intros b' [x H]. apply lookup_delete_Some in H as [_ H]. left. eauto.
      * done.
Qed.
Lemma good_default x k V E s : inv V s -> V !! x = None -> good (Default x k) V E s.
Proof.
  intros Hi Hx. unfold good. cbn [step]. unfold ctor_default, bind.
  destruct (new_count_run E s) as [->|[H ->]]; [|tauto]. cbn [ret].
  apply ctor_good; [done|apply grows_refl|done|done| | |].
  - intros i j b H. apply elem_of_list_lookup_2 in H. by apply elem_of_replicate in H as [? _].
  - intros H. by apply elem_of_replicate in H as [? _].
  - intros b H. by apply elem_of_replicate in H as [? _].
Qed.
Lemma good_ptrs x k m bs V E s : inv V s -> legal (Ptrs x k m bs) V (heap s) -> good (Ptrs x k m bs) V E s.
Proof.
  intros Hi (Hx & _ & _ & Hg & Hd). unfold good. cbn [step]. unfold ctor_ptrs, bind.
  rewrite Forall_forall in Hg.
  destruct (new_count_run E s) as [->|[H ->]]; [|tauto]. cbn [ret].
  apply ctor_good; [done|apply grows_refl|done|done|done| |].
  - intros H. apply Hg in H. by apply givable_defined in H.
  - intros b H. by apply givable_owned, Hg.
Qed.
Lemma new_dims_run n v E s : n <= Z.of_nat (length v) ->
  (exists c, new_dims n v E s = Done (HPtr (ctr s)) (after_alloc ARR c s)) \/
  (~ (alloc_all E /\ 0 <= 8 * n <= PTRDIFF_MAX) /\ new_dims n v E s = Abort).
Proof.
  intros Hn. unfold new_dims. destruct (n <? 0) eqn:H0.
  - right. split; [lia|done].
  - unfold bind. destruct (new_arr_run (8 * n) (CInts (take (Z.to_nat n) v)) E s) as [->|[H ->]].
    + left. eexists. replace (n <=? Z.of_nat (length v)) with true by lia. cbn. done.
    + right. split; [|done]. intros [? ?]. apply H. split; [done|lia].
Qed.
Lemma good_vec1 x n v m d V E s : inv V s -> legal (Vec1 x n v m d) V (heap s) -> good (Vec1 x n v m d) V E s.
Proof.
  intros Hi (Hx & Hn & Hg). unfold good. cbn [step]. unfold ctor_vec1, bind.
  destruct (new_dims_run n v E s Hn) as [(c & ->)|[H ->]]; [|done].
  set (s1 := after_alloc ARR c s).
  assert (inv V s1) as Hi1 by by apply inv_after.
  destruct (new_count_run E s1) as [->|[H ->]]; [|tauto]. cbn [ret].
  assert (forall b, d = HPtr b -> (exists c, heap s1 !! b = Some (Blk ARR c)) /\ ~ owned V b /\ b <> ctr s) as Hdb.
  { intros b ->. apply givable_owned in Hg as [(c' & Hc') Ho]. split_and!; [|done|].
    - exists c'. apply lookup_after; [|done]. apply (i_wf _ _ Hi).
    - intros ->. rewrite wf_fresh in Hc'; [done|]. apply (i_wf _ _ Hi). }
  apply ctor_good; [done|apply grows_after, (i_wf _ _ Hi)|done|done| | |].
  - intros i j b H1 H2. destruct i as [|[|i]], j as [|[|j]]; cbn in *; simplify_eq; try done.
    + destruct (Hdb (ctr s)) as (_ & _ & ?); done.
    + destruct (Hdb (ctr s)) as (_ & _ & ?); done.
  - intros H. apply elem_of_cons in H as [H|H]; [done|]. apply elem_of_list_singleton in H as <-.
    by apply givable_defined in Hg.
  - intros b H. apply elem_of_cons in H as [[= ->]|H].
    + split; [|apply (fresh_unowned V s); [done|lia]]. exists c. unfold s1, after_alloc. cbn [heap]. by rewrite lookup_insert.
    + apply elem_of_list_singleton in H as <-. by destruct (Hdb b) as (? & ? & _).
Qed.
Lemma good_vec2 x n1 v1 n2 v2 m d1 d2 V E s : inv V s ->
  legal (Vec2 x n1 v1 n2 v2 m d1 d2) V (heap s) -> good (Vec2 x n1 v1 n2 v2 m d1 d2) V E s.
Proof.
  intros Hi (Hx & Hn1 & Hn2 & Hg1 & Hg2 & Hdd). unfold good. cbn [step]. unfold ctor_vec2, bind.
  pose proof (i_wf _ _ Hi) as Hw.
  destruct (new_dims_run n1 v1 E s Hn1) as [(c1 & ->)|[H ->]]; [|cbn; tauto].
  set (s1 := after_alloc ARR c1 s).
  assert (inv V s1) as Hi1 by by apply inv_after.
  destruct (new_dims_run n2 v2 E s1 Hn2) as [(c2 & ->)|[H ->]]; [|cbn; tauto].
  set (s2 := after_alloc ARR c2 s1).
  assert (inv V s2) as Hi2 by by apply inv_after.
  destruct (new_count_run E s2) as [->|[H ->]]; [|tauto]. cbn [ret].
  assert (heap s2 !! ctr s = Some (Blk ARR c1)) as Hc1.
  { apply lookup_after; [apply (i_wf _ _ Hi1)|]. unfold s1, after_alloc. cbn [heap]. by rewrite lookup_insert. }
  assert (heap s2 !! ctr s1 = Some (Blk ARR c2)) as Hc2.
  { unfold s2, after_alloc. cbn [heap]. by rewrite lookup_insert. }
  assert (ctr s1 = S (ctr s)) as Hs1 by done.
  assert (forall d b, givable V (heap s) d -> d = HPtr b ->
    (exists c, heap s2 !! b = Some (Blk ARR c)) /\ ~ owned V b /\ (b < ctr s)%nat) as Hdb.
  { intros d b Hg ->. apply givable_owned in Hg as [(c' & Hc') Ho]. split_and!; [|done|].
    - exists c'. apply lookup_after; [apply (i_wf _ _ Hi1)|]. by apply lookup_after.
    - apply Hw. eauto. }
  apply ctor_good; [done| |done|done| | |].
  - eapply grows_trans; apply grows_after; [done|apply (i_wf _ _ Hi1)].
  - intros i j b H1 H2. destruct i as [|[|[|[|i]]]], j as [|[|[|[|j]]]]; cbn in H1, H2; simplify_eq; try done;
      repeat match goal with H : givable V (heap s) (HPtr ?b) |- _ =>
        destruct (Hdb _ b H eq_refl) as (_ & _ & ?); clear H end; try lia;
      specialize (Hdd eq_refl); done.
  - intros H. apply elem_of_cons in H as [H|H]; [done|]. apply elem_of_cons in H as [H|H]; [done|].
    apply elem_of_cons in H as [<-|H]; [by apply givable_defined in Hg1|].
    apply elem_of_list_singleton in H as <-. by apply givable_defined in Hg2.
  - intros b H. apply elem_of_cons in H as [[= ->]|H].
    { split; [eauto|]. apply (fresh_unowned V s); [done|lia]. }
    apply elem_of_cons in H as [[= ->]|H].
    { split; [eauto|]. apply (fresh_unowned V s); [done|lia]. }
    apply elem_of_cons in H as [H|H]; [|apply elem_of_list_singleton in H].
    + symmetry in H. by destruct (Hdb d1 b) as (? & ? & _).
    + symmetry in H. by destruct (Hdb d2 b) as (? & ? & _).
Qed.

Lemma wf_upd s c x : wf s -> is_Some (heap s !! c) -> wf (upd (<[c := x]> (heap s)) s).
Proof.
  intros Hw Hc b [y Hb]. cbn [heap ctr upd] in *. apply lookup_insert_Some in Hb as [[<- _]|[_ Hb]].
  - by apply Hw.
  - apply Hw. eauto.
Qed.
Lemma grows_upd s c n n' : heap s !! c = Some (Blk CNT n) -> grows s (upd (<[c := Blk CNT n']> (heap s)) s).
Proof.
  intros Hc. split; cbn [heap ctr upd].
  - intros b t c' H Ht. rewrite lookup_insert_ne; [done|]. intros <-. congruence.
  - intros b c' H. destruct (decide (b = c)) as [->|Hne]; [rewrite lookup_insert|rewrite lookup_insert_ne by done]; eauto.
  - intros b [y Hb]. left. apply lookup_insert_Some in Hb as [[<- _]|[_ Hb]]; eauto.
  - done.
Qed.

Lemma good_copy x y V E s : inv V s -> legal (Copy x y) V (heap s) -> good (Copy x y) V E s.
Proof.
  intros Hi (Hx & (o & Hy & Hn) & Hlt). unfold good. cbn [step]. unfold the, bind. rewrite Hy. cbn [opt ret].
  destruct (i_cnt _ _ Hi y o Hy Hn) as (c & E1 & E2).
  pose proof (refs_le V c) as Hle. pose proof (i_wf _ _ Hi) as Hw.
  unfold ctor_copy, bind. rewrite E1.
  rewrite (add_count_run c _ 1 E s E2) by (unfold INT_MIN, INT_MAX in *; lia). cbn [ret].
  split.
  - eapply inv_share with (y := y) (o := o); [done..|apply wf_upd; eauto|lia].
  - apply releases_grows; [done|by eapply grows_upd|]. intros b. by apply owned_insert.
Qed.
Lemma good_move x y V E s : inv V s -> legal (Move x y) V (heap s) -> good (Move x y) V E s.
Proof.
  intros Hi (Hx & (o & Hy)). unfold good. cbn [step]. unfold the, bind. rewrite Hy.
  cbn [opt ret ctor_move].
  assert (x <> y) as Hxy by congruence.
  assert (<[x := o]> (<[y := to_nullptr o]> V) = <[y := to_nullptr o]> (<[x := o]> (delete y V))) as ->.
  { rewrite insert_commute by done. rewrite <- delete_insert_ne by congruence.
    by rewrite insert_delete_insert. }
  split.
  - apply inv_nothing; [by apply inv_rename| |done|].
    + rewrite lookup_insert_ne by done. apply lookup_delete.
    + cbn [to_nullptr o_bufs]. apply Forall_replicate. done.
  - apply releases_grows; [done|apply grows_refl|]. intros b Hb. apply owned_insert.
    { rewrite lookup_insert_ne by done. apply lookup_delete. }
    destruct Hb as (z & o' & Hz & Hb). destruct (decide (z = y)) as [->|Hne].
    + exists x, o. rewrite lookup_insert. split; [done|]. congruence.
    + exists z, o'. split; [|done]. rewrite lookup_insert_ne by congruence. by rewrite lookup_delete_ne.
Qed.
