(** * ProofSample4: the remaining steps, and whole histories *)
From stdpp Require Import gmap list.
From Coq Require Import ZArith Lia ZifyBool ZifyNat.
From Verif Require Import Base Mem Spec ModelSample SpecSample ProofSample ProofSample2 ProofSample3.
Open Scope Z_scope.

Lemma good_destroy x V E s : inv V s -> legal (Destroy x) V (heap s) -> good (Destroy x) V E s.
Proof.
  intros Hi (o & Hx). unfold good. cbn [step]. unfold the, bind. rewrite Hx. cbn [opt ret].
  destruct (dtor_run V s x o E Hi Hx) as (s' & -> & H1 & H2 & _). done.
Qed.

Lemma good_assign x y V E s : inv V s -> legal (Assign x y) V (heap s) -> good (Assign x y) V E s.
Proof.
  intros Hi ((a0 & Hx0 & Hna) & (b0 & Hy0 & Hnb) & Hxy & Hsz & (a & b & Hx & Hy & _ & _)).
  assert (a0 = a) as -> by cg. assert (b0 = b) as -> by cg. clear Hx0 Hy0.
  unfold good. cbn [step]. unfold the, bind. rewrite Hx, Hy. cbn [opt ret]. rewrite assign_alt.
  destruct (i_cnt _ _ Hi x a Hx Hna) as (c & Ec & Ehc).
  destruct (drop_run V s x a c E Hi Hx Ec) as (s1 & Hrun & [D1 D2 D3 D4 D5 D6]).
  unfold bind. rewrite Hrun.
  assert (exists z bz, delete x V !! z = Some bz /\ o_count bz = o_count b /\ o_bufs bz = o_bufs b) as
    (z & bz & Hz & Hcz & Hbz).
  { destruct (decide (x = y)) as [->|Hne].
    - destruct Hxy as [?|(z & o & o' & Hzx & Ho & Ho' & He & Hn)]; [done|].
      assert (o = a) as -> by cg. assert (b = a) as -> by cg.
      exists z, o'. split_and!; [by rewrite lookup_delete_ne by done|done|].
      symmetry. by apply (i_same _ _ Hi y z).
    - exists y, b. split; [by rewrite lookup_delete_ne|done]. }
  assert (o_count bz <> HNull) as Hnz by cg.
  destruct (i_cnt _ _ D1 z bz Hz Hnz) as (c' & Ec' & Ehc').
  assert (Z.of_nat (refs (delete x V) c') < INT_MAX) as Hlt.
  { pose proof (refs_le (delete x V) c') as Hle. rewrite map_size_delete_Some in Hle by eauto.
    assert (size V <> 0%nat); [|lia]. intros H0. apply map_size_empty_inv in H0. subst V. by rewrite lookup_empty in Hx. }
  rewrite <- Hcz, Ec'. rewrite (add_count_run c' _ 1 E s1 Ehc') by (unfold INT_MIN, INT_MAX in *; lia). cbn [ret].
  set (s2 := upd _ s1).
  assert (grows s1 s2) as [G1 G2 G3 G4] by by eapply grows_upd.
  rewrite <- (insert_delete_insert V x).
  set (o' := Obj (o_class a) (o_meta b) (o_bufs b) (HPtr c')).
  assert (forall b, owned (<[x := o']> (delete x V)) b <-> owned (delete x V) b) as Ho.
  { intros b'. split.
    - intros H. apply owned_insert_inv in H as [H|H]; [|done]. cbn [o' o_bufs] in H. exists z, bz. by rewrite Hbz.
    - apply owned_insert. apply lookup_delete. }
  split.
  - eapply inv_share with (y := z) (o := bz) (c := c'); [done|apply lookup_delete|done|done|done|done|done| |done].
    apply wf_upd; [|eauto]. apply (i_wf _ _ D1).
  - split.
    + intros b' Hb. destruct (D3 b' Hb) as [[H1 H2]|[H1 H2]].
      * left. split; [by apply Ho|]. destruct (owned_live V s b' Hi Hb) as (c2 & H3). rewrite H3 in *.
        apply G1; [done|]. apply arr_cnt.
      * right. split; [by rewrite Ho|]. cbn [s2 heap upd]. rewrite lookup_insert_ne; [done|]. intros <-. cg.
    + intros b' t c2 H Hn Ht _. apply G1; [|done]. rewrite D4; [done| |done]. intros ->. cg.
    + intros b' Hb. left. apply D5. destruct (G3 b' Hb) as [H|H]; [done|].
      cbn [s2 heap upd] in Hb. destruct (decide (b' = c')) as [->|Hne]; [eauto|].
      rewrite lookup_insert_ne in Hb by done. done.
    + rewrite <- D6. done.
Qed.

Lemma good_use x i V E s : inv V s -> legal (Use x i) V (heap s) -> good (Use x i) V E s.
Proof.
  intros Hi (_ & (o & b & Hx & Hb)). unfold good. cbn [step]. unfold the, bind. rewrite Hx. cbn [opt ret].
  rewrite Hb. cbn [opt ret].
  destruct (i_buf _ _ Hi x o b Hx) as (c & Hc); [by eapply elem_of_list_lookup_2|].
  unfold touch, deref, bind. rewrite Hc. cbn [ret]. split; [done|].
  apply releases_grows; [done|apply grows_refl|done].
Qed.

(** Replacing the buffers of an object that shares with nobody. *)
Lemma inv_replace V s x o o' : inv V s -> V !! x = Some o -> o_count o <> HNull -> ~ shared V x ->
  o_count o' = o_count o -> distinct (o_bufs o') -> HUndef ∉ o_bufs o' ->
  (forall b, HPtr b ∈ o_bufs o' -> (exists c, heap s !! b = Some (Blk ARR c)) /\ ~ owned (delete x V) b) ->
  inv (<[x := o']> V) s.
Proof.
  intros Hi Hx Hn Hs Hc Hd Hu Hb. rewrite <- (insert_delete_insert V x).
  destruct (i_cnt _ _ Hi x o Hx Hn) as (c & E1 & E2).
  pose proof (refs_one V x o c Hx E1 Hs) as H1.
  assert (refs (delete x V) c = 0%nat) as H0.
  { rewrite (refs_delete V x o) in H1 by done. rewrite ref1_same in H1 by done. lia. }
  apply inv_fresh with c.
  - eapply inv_drop; [done|done|apply (i_wf _ _ Hi)|done|]. intros c' H. assert (c' = c) as -> by cg. lia.
  - apply lookup_delete.
  - cg.
  - by rewrite E2, H1.
  - intros y oy Hy Hcy. pose proof (refs_pos _ y oy c Hy Hcy). lia.
  - done.
  - done.
  - done.
Qed.
Lemma unshared_own V s x o b : inv V s -> V !! x = Some o -> ~ shared V x -> HPtr b ∈ o_bufs o ->
  ~ owned (delete x V) b.
Proof.
  intros Hi Hx Hs Hb (y & o' & Hy & Hb'). apply lookup_delete_Some in Hy as [Hne Hy].
  apply Hs. exists y, o, o'. split_and!; [done..| |].
  - symmetry. by apply (i_diff _ _ Hi x y o o' b).
  - destruct (owner_count V s x o b Hi Hx Hb) as (c & H & _). cg.
Qed.

Lemma good_set_data x i p m V E s : inv V s -> legal (SetData x i p m) V (heap s) -> good (SetData x i p m) V E s.
Proof.
  intros Hi ((o0 & Hx0 & Hn) & Hs & Hg & (o & Hx & Hnull)). assert (o0 = o) as -> by cg. clear Hx0.
  unfold good. cbn [step]. unfold the, bind. rewrite Hx. cbn [opt ret].
  assert (forall b, HPtr b ∈ <[i := p]> (o_bufs o) -> HPtr b = p \/ HPtr b ∈ o_bufs o) as Hin.
  { intros b H. apply elem_of_list_lookup in H as [j Hj]. apply list_lookup_insert_Some in Hj as [(-> & <- & _)|[_ Hj]].
    - by left.
    - right. by eapply elem_of_list_lookup_2. }
  destruct (i_dist _ _ Hi x o Hx) as [Hd Hu].
  split.
  - eapply inv_replace; [done|done|done|done|done| | |]; cbn [set_data o_bufs].
    + intros j k b Hj Hk.
      apply list_lookup_insert_Some in Hj as [(-> & Hpj & _)|[Hne Hj]];
        apply list_lookup_insert_Some in Hk as [(-> & Hpk & _)|[Hne' Hk]]; [done| | |by eapply Hd].
      * exfalso. subst p. apply givable_owned in Hg as [_ Hno]. apply Hno. exists x, o. split; [done|].
        by eapply elem_of_list_lookup_2.
      * exfalso. subst p. apply givable_owned in Hg as [_ Hno]. apply Hno. exists x, o. split; [done|].
        by eapply elem_of_list_lookup_2.
    + intros H. apply elem_of_list_lookup in H as [j Hj].
      apply list_lookup_insert_Some in Hj as [(-> & -> & _)|[Hne Hj]].
      * by apply givable_defined in Hg.
      * apply Hu. by eapply elem_of_list_lookup_2.
    + intros b H. destruct (Hin b H) as [<-|Hb].
      * apply givable_owned in Hg as [Hl Hno]. split; [done|]. intros H'. by apply Hno, (owned_delete V x).
      * split; [by eapply (i_buf _ _ Hi x)|]. by eapply unshared_own.
  - apply releases_grows; [done|apply grows_refl|].
    intros b (y & oy & Hy & Hb). destruct (decide (y = x)) as [->|Hne].
    + assert (oy = o) as -> by cg. eexists x, _. rewrite lookup_insert. split; [done|].
      cbn [set_data o_bufs]. apply elem_of_list_lookup in Hb as [j Hj]. eapply (elem_of_list_lookup_2 _ j).
      rewrite list_lookup_insert_ne; [done|]. intros <-. cg.
    + exists y, oy. by rewrite lookup_insert_ne.
Qed.

Lemma good_set_result x n dp xp len m V E s : inv V s -> legal (SetResult x n dp xp len m) V (heap s) ->
  good (SetResult x n dp xp len m) V E s.
Proof.
  intros Hi ((o0 & Hx0 & Hn) & Hs & Hlen & (o & Hx & _ & Hnull) & Hdims & Hdata).
  assert (o0 = o) as -> by cg. clear Hx0. pose proof (i_wf _ _ Hi) as Hw.
  unfold good. cbn [step]. unfold the, bind. rewrite Hx. cbn [opt ret].
  unfold set_result. destruct (n <? 0) eqn:Hn0; [cbn; lia|]. unfold bind.
  destruct (new_arr_run (8 * n) (CInts (replicate (Z.to_nat n) 0)) E s) as [->|[H ->]]; [|cbn; intros [? ?]; apply H; split; [done|lia]].
  set (s1 := after_alloc ARR _ s). assert (inv V s1) as Hi1 by by apply inv_after.
  destruct (new_arr_run len (CData (replicate (Z.to_nat len) MU)) E s1) as [->|[H ->]];
    [|cbn; intros [? ?]; apply H; split; [done|unfold PTRDIFF_MAX; lia]].
  set (s2 := after_alloc ARR _ s1). assert (inv V s2) as Hi2 by by apply inv_after.
  assert (grows s s2) as Hg2.
  { eapply grows_trans; apply grows_after; [done|apply (i_wf _ _ Hi1)]. }
  assert (ctr s1 = S (ctr s)) as Hc1 by done.
  assert (heap s2 !! ctr s = Some (Blk ARR (CInts (replicate (Z.to_nat n) 0)))) as Hd2.
  { apply lookup_after; [apply (i_wf _ _ Hi1)|]. cbn [s1 heap after_alloc]. by rewrite lookup_insert. }
  assert (heap s2 !! ctr s1 = Some (Blk ARR (CData (replicate (Z.to_nat len) MU)))) as Hx2.
  { cbn [s2 heap after_alloc]. by rewrite lookup_insert. }
  assert (forall b y, heap s !! b = Some y -> heap s2 !! b = Some y /\ b <> ctr s /\ b <> ctr s1) as Hold.
  { intros b y Hb. assert (is_Some (heap s !! b)) as Hb' by eauto. apply Hw in Hb'. split_and!; [|lia|lia].
    apply lookup_after; [apply (i_wf _ _ Hi1)|]. by apply lookup_after. }
  (* the two copies *)
  assert (exists cd, (if n =? 0 then ret tt else
     let* l := get_ints dp in check (n <=? Z.of_nat (length l)) UB_oob ;;;
     set_content (HPtr (ctr s)) (CInts (take (Z.to_nat n) l))) E s2 =
     Done tt (upd (<[ctr s := Blk ARR cd]> (heap s2)) s2)) as (cd & Hr1).
  { destruct (n =? 0) eqn:Hz.
    - exists (CInts (replicate (Z.to_nat n) 0)). unfold upd. rewrite insert_id by done. by destruct s2.
    - destruct Hdims as [?|(b & tg & l & -> & Hb & Hl)]; [lia|].
      exists (CInts (take (Z.to_nat n) l)). destruct (Hold _ _ Hb) as (Hb2 & _ & _).
      unfold bind, get_ints, deref, bind. rewrite Hb2. cbn [b_content ret].
      replace (n <=? Z.of_nat (length l)) with true by lia. cbn [check ret].
      unfold set_content, bind, deref. rewrite Hd2. done. }
  unfold bind in Hr1. rewrite Hr1. clear Hr1.
  set (s3 := upd _ s2).
  assert (heap s3 !! ctr s1 = Some (Blk ARR (CData (replicate (Z.to_nat len) MU)))) as Hx3.
  { cbn [s3 heap upd]. rewrite lookup_insert_ne by lia. done. }
  assert (exists cx, memcpy (HPtr (ctr s1)) 0 xp 0 len E s3 =
     Done tt (upd (<[ctr s1 := Blk ARR cx]> (heap s3)) s3)) as (cx & Hr2).
  { unfold memcpy. assert (to_size len = len) as ->.
    { unfold to_size. apply Z.mod_small. unfold SIZE_MOD. lia. }
    destruct (len =? 0) eqn:Hz.
    - exists (CData (replicate (Z.to_nat len) MU)). unfold upd. rewrite insert_id by done. done.
    - destruct Hdata as [?|(b & tg & l & -> & Hb & Hl)]; [lia|].
      destruct (Hold _ _ Hb) as (Hb2 & Hb3 & Hb4).
      assert (heap s3 !! b = Some (Blk tg (CData l))) as Hb5.
      { cbn [s3 heap upd]. by rewrite lookup_insert_ne by congruence. }
      unfold bind, get_bytes, deref, bind. rewrite Hb5. cbn [b_content ret].
      replace ((0 <=? 0) && (0 + len <=? Z.of_nat (length l))) with true by lia. cbn [check ret].
      unfold store_bytes, bind, get_bytes, deref, bind. rewrite Hx3. cbn [b_content ret].
      rewrite take_length, drop_length, replicate_length.
      match goal with |- context [check ?b _] => replace b with true by lia end. cbn [check ret].
      unfold set_content, bind, deref. rewrite Hx3. eexists. done. }
  rewrite Hr2. cbn [ret]. set (s4 := upd _ s3).
  assert (forall b y, b <> ctr s -> b <> ctr s1 -> heap s2 !! b = y -> heap s4 !! b = y) as H24.
  { intros b y H1 H2 Hb. cbn [s4 s3 heap upd]. by rewrite !lookup_insert_ne by congruence. }
  assert (wf s4) as Hw4.
  { intros b Hb. change (ctr s4) with (ctr s2). apply (i_wf _ _ Hi2).
    destruct (decide (b = ctr s)) as [->|H1]; [eauto|]. destruct (decide (b = ctr s1)) as [->|H2]; [eauto|].
    rewrite (H24 b (heap s2 !! b)) in Hb by done. done. }
  assert (grows s s4) as Hg4.
  { split.
    - intros b t c H Ht. destruct (Hold _ _ H) as (H1 & H2 & H3). by apply H24.
    - intros b c H. destruct (Hold _ _ H) as (H1 & H2 & H3). rewrite (H24 b _ H2 H3 H1). eauto.
    - intros b Hb. destruct (decide (b = ctr s)) as [->|H1]; [by right|].
      destruct (decide (b = ctr s1)) as [->|H2]; [right; lia|].
      rewrite (H24 b (heap s2 !! b)) in Hb by done. by apply (g_new _ _ Hg2).
    - cbn. lia. }
  assert (inv V s4) as Hi4.
  { eapply inv_heap; [exact Hi|done|]. intros b t c _ _ _ H. destruct (Hold _ _ H) as (H1 & H2 & H3). by apply H24. }
  split.
  - eapply inv_replace; [done|done|done|done|done| | |]; cbn [o_bufs].
    + intros i j b H1 H2. destruct i as [|[|i]], j as [|[|j]]; cbn in H1, H2; simplify_eq; try done; lia.
    + intros H. apply elem_of_cons in H as [H|H]; [done|]. by apply elem_of_list_singleton in H.
    + intros b H. apply elem_of_cons in H as [[= ->]|H].
      * split.
        -- cbn [s4 s3 heap upd]. rewrite lookup_insert_ne by lia. rewrite lookup_insert. eauto.
        -- intros H. apply owned_delete in H. apply (fresh_unowned V s) in H; [done|done|lia].
      * apply elem_of_list_singleton in H as [= ->]. split.
        -- cbn [s4 heap upd]. rewrite lookup_insert. eauto.
        -- intros H. apply owned_delete in H. apply (fresh_unowned V s) in H; [done|done|lia].
  - apply releases_grows; [done|done|].
    intros b (y & oy & Hy & Hb). destruct (decide (y = x)) as [->|Hne].
    + assert (oy = o) as -> by cg. rewrite Forall_forall in Hnull. by specialize (Hnull _ Hb).
    + exists y, oy. by rewrite lookup_insert_ne.
Qed.

Lemma step_good op V E s : inv V s -> legal op V (heap s) -> good op V E s.
Proof.
  intros Hi Hl. destruct op.
  - by apply good_new.
  - by apply good_del.
  - by apply good_default.
  - by apply good_ptrs.
  - by apply good_vec1.
  - by apply good_vec2.
  - by apply good_copy.
  - by apply good_move.
  - by apply good_assign.
  - by apply good_set_data.
  - by apply good_set_result.
  - by apply good_use.
  - by apply good_destroy.
Qed.
