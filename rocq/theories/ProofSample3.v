(** * ProofSample3: destruction, assignment, setters; whole histories *)
From stdpp Require Import gmap list.
From Coq Require Import ZArith Lia ZifyBool ZifyNat.
From Verif Require Import Base Mem Spec ModelSample SpecSample ProofSample ProofSample2.
Open Scope Z_scope.

Lemma arr_cnt : ARR <> CNT. Proof. discriminate. Qed.
Ltac cg := pose proof arr_cnt; congruence.

(** The common part of operator= and the destructor. *)
Definition drop_ref (o : obj) : M Z :=
  add_count (o_count o) (-1) ;;;
  let* n := get_count (o_count o) in
  (if n =? 0 then delete_all (o_bufs o) else ret tt) ;;; ret n.

Record dropped (V : objs) (s : st) (x : nat) (o : obj) (c : nat) (s' : st) : Prop := Dropped {
  d_inv : inv (delete x V) s';
  d_cnt : heap s' !! c = Some (Blk CNT (CInts [Z.of_nat (refs (delete x V) c)]));
  d_owned : forall b, owned V b ->
    (owned (delete x V) b /\ heap s' !! b = heap s !! b) \/ (~ owned (delete x V) b /\ heap s' !! b = None);
  d_other : forall b, b <> c -> ~ owned V b -> heap s' !! b = heap s !! b;
  d_live : forall b, is_Some (heap s' !! b) -> is_Some (heap s !! b);
  d_ctr : ctr s' = ctr s
}.

Lemma drop_run V s x o c E : inv V s -> V !! x = Some o -> o_count o = HPtr c ->
  exists s', drop_ref o E s = Done (Z.of_nat (refs (delete x V) c)) s' /\ dropped V s x o c s'.
Proof.
  intros Hi Hx Hc. pose proof (i_wf _ _ Hi) as Hw.
  assert (o_count o <> HNull) as Hn by cg.
  destruct (i_cnt _ _ Hi x o Hx Hn) as (c' & E1 & E2). assert (c' = c) as -> by cg. clear E1.
  pose proof (i_max _ _ Hi c) as Hmax.
  assert (Z.of_nat (refs V c) + -1 = Z.of_nat (refs (delete x V) c)) as Hr.
  { rewrite (refs_delete V x o) by done. rewrite ref1_same by done. lia. }
  unfold drop_ref, bind. rewrite Hc.
  rewrite (add_count_run c _ (-1) E s E2) by (unfold INT_MIN in *; lia). rewrite Hr in *.
  set (s1 := upd (<[c := Blk CNT (CInts [Z.of_nat (refs (delete x V) c)])]> (heap s)) s).
  assert (heap s1 !! c = Some (Blk CNT (CInts [Z.of_nat (refs (delete x V) c)]))) as Hs1.
  { cbn [s1 heap upd]. by rewrite lookup_insert. }
  assert (forall b, b <> c -> heap s1 !! b = heap s !! b) as Hs1'.
  { intros b Hb. cbn [s1 heap upd]. by rewrite lookup_insert_ne. }
  assert (wf s1) as Hw1 by (apply wf_upd; eauto).
  assert (forall b, owned V b -> b <> c) as Hbc.
  { intros b Hb ->. destruct (owned_live V s c Hi Hb) as (? & ?). cg. }
  rewrite (get_count_run c _ E s1 Hs1).
  destruct (refs (delete x V) c) as [|m] eqn:Hrefs.
  - change (Z.of_nat 0 =? 0) with true. cbv match.
    destruct (i_dist _ _ Hi x o Hx) as [Hd Hu].
    destruct (delete_all_run (o_bufs o) E s1 Hd Hu) as (h' & Hrun & Hin & Hout).
    { intros b Hb. rewrite Hs1'; [by eapply (i_buf _ _ Hi x)|]. apply Hbc. by exists x, o. }
    rewrite Hrun. cbn [ret]. exists (upd h' s1). split; [done|].
    assert (forall b, HPtr b ∈ o_bufs o -> ~ owned (delete x V) b) as Hno.
    { intros b Hb (y & o' & Hy & Hb'). pose proof Hy as Hy0. apply lookup_delete_Some in Hy as [Hne Hy].
      pose proof (i_diff _ _ Hi x y o o' b Hx Hy Hb Hb') as He.
      assert (1 <= refs (delete x V) c)%nat; [|lia]. eapply refs_pos; [done|cg]. }
    assert (HPtr c ∉ o_bufs o) as Hcn.
    { intros H. apply (Hbc c); [|done]. by exists x, o. }
    assert (forall b, is_Some (h' !! b) -> is_Some (heap s !! b)) as Hlive.
    { intros b Hb. destruct (decide (HPtr b ∈ o_bufs o)) as [H|H].
      - rewrite Hin in Hb by done. by destruct Hb.
      - rewrite Hout in Hb by done. destruct (decide (b = c)) as [->|Hne]; [eauto|]. by rewrite <- Hs1'. }
    split; cbn [heap ctr upd].
    + eapply inv_drop; [done|done| | |].
      * intros b Hb. cbn [heap ctr upd] in *. apply Hw, Hlive. done.
      * intros b t c' H1 H2 H3 H. rewrite Hc in H3. cbn [heap upd]. rewrite Hout.
        { rewrite Hs1'; [done|cg]. }
        intros Hb. destruct H2 as [->| ->]; [by apply (Hno b Hb), H1|].
        destruct (i_buf _ _ Hi x o b Hx Hb) as (? & ?). cg.
      * intros c' H H1. assert (c' = c) as -> by cg. lia.
    + rewrite Hout by done. by rewrite Hs1, ?Hrefs.
    + intros b Hb. destruct (decide (HPtr b ∈ o_bufs o)) as [H|H].
      * right. split; [by apply Hno|by apply Hin].
      * left. split.
        { destruct Hb as (y & o' & Hy & Hb). exists y, o'. split; [|done]. rewrite lookup_delete_ne; [done|].
          intros <-. cg. }
        rewrite Hout by done. apply Hs1'. by apply Hbc.
    + intros b Hne Hb. rewrite Hout; [by apply Hs1'|]. intros H. apply Hb. by exists x, o.
    + done.
    + done.
  - replace (Z.of_nat (S m) =? 0) with false by lia. cbn [ret]. exists s1. split; [done|].
    assert (forall b, owned V b -> owned (delete x V) b) as Hkeep.
    { intros b (y & o' & Hy & Hb). destruct (decide (y = x)) as [->|Hne].
      - assert (o' = o) as -> by cg. destruct (refs_nz (delete x V) c) as (z & o2 & Hz & Hcz); [lia|].
        exists z, o2. split; [done|]. apply lookup_delete_Some in Hz as [_ Hz].
        rewrite <- (i_same _ _ Hi x z o o2 Hx Hz); [done|cg|done].
      - exists y, o'. split; [|done]. by rewrite lookup_delete_ne. }
    split.
    + eapply inv_drop; [done|done|done| |].
      * intros b t c' H1 H2 H3 H. rewrite Hs1'; [done|cg].
      * intros c' H H1. assert (c' = c) as -> by cg. by rewrite Hs1, ?Hrefs.
    + by rewrite Hs1, ?Hrefs.
    + intros b Hb. left. split; [by apply Hkeep|]. apply Hs1'. by apply Hbc.
    + intros b Hne _. by apply Hs1'.
    + intros b Hb. destruct (decide (b = c)) as [->|Hne]; [eauto|]. by rewrite <- Hs1'.
    + done.
Qed.

Lemma dtor_alt o E s : o_count o <> HNull -> dtor o E s =
  (let* n := drop_ref o in
   if n =? 0 then match o_class o with Result => ret tt | _ => free_tag CNT (o_count o) end
   else ret tt) E s.
Proof.
  intros Hn. unfold dtor, drop_ref. destruct (o_count o) as [|c|] eqn:Hc; [done| |]; cbn [is_null]; unfold bind.
  - destruct (add_count _ _ E s) as [[] s1| | |]; try done.
    destruct (get_count _ E s1) as [n s2| | |]; try done.
    destruct (n =? 0) eqn:H0; [|unfold ret; by rewrite H0].
    destruct (delete_all _ E s2) as [[] s3| | |]; try done. unfold ret. by rewrite H0.
  - done.
Qed.
Lemma assign_alt a b E s : assign a b E s =
  (let* n := drop_ref a in add_count (o_count b) 1 ;;;
   ret (Obj (o_class a) (o_meta b) (o_bufs b) (o_count b))) E s.
Proof.
  unfold assign, drop_ref, bind.
  destruct (add_count _ _ E s) as [[] s1| | |]; try done.
  destruct (get_count _ E s1) as [n s2| | |]; try done.
  destruct (n =? 0); [|done]. by destruct (delete_all _ E s2) as [[] s3| | |].
Qed.

Lemma classic_owned V b : owned V b \/ ~ owned V b.
Proof.
  destruct (decide (Exists (fun kv : nat * obj => HPtr b ∈ o_bufs kv.2) (map_to_list V))) as [H|H].
  - left. apply Exists_exists in H as ([x o] & H1 & H2). apply elem_of_map_to_list in H1. by exists x, o.
  - right. intros (x & o & H1 & H2). apply H. apply Exists_exists. exists (x, o). split; [|done].
    by apply elem_of_map_to_list.
Qed.

(** What a destruction leaves behind. *)
Lemma dtor_run V s x o E : inv V s -> V !! x = Some o ->
  exists s', dtor o E s = Done tt s' /\ inv (delete x V) s' /\ releases (Destroy x) V s (delete x V) s' /\
    (forall b t c, heap s' !! b = Some (Blk t c) -> t = CNT -> (exists c', heap s !! b = Some (Blk CNT c')) /\
       (o_count o = HPtr b -> o_class o <> Result -> (1 <= refs (delete x V) b)%nat)).
Proof.
  intros Hi Hx. destruct (o_count o) as [|c|] eqn:Hc.
  - exists s. unfold dtor. rewrite Hc. cbn [is_null]. split; [done|].
    assert (inv (delete x V) s) as Hi'.
    { eapply inv_drop; [done|done|apply (i_wf _ _ Hi)|done|]. intros c. cg. }
    split; [done|]. split.
    + apply releases_grows; [done|apply grows_refl|]. intros b (y & o' & Hy & Hb). exists y, o'. split; [|done].
      rewrite lookup_delete_ne; [done|]. intros <-. assert (o' = o) as -> by cg.
      pose proof (i_null _ _ Hi x o Hx Hc) as Hf. rewrite Forall_forall in Hf. by specialize (Hf _ Hb).
    + intros b t c Hb ->. split; [eauto|done].
  - assert (o_count o <> HNull) as Hn by cg. rewrite dtor_alt by done.
    destruct (drop_run V s x o c E Hi Hx Hc) as (s1 & Hrun & [D1 D2 D3 D4 D5 D6]).
    unfold bind. rewrite Hrun.
    assert (forall b t c', heap s !! b = Some (Blk t c') -> ~ owned V b -> t <> CNT ->
      heap s1 !! b = Some (Blk t c')) as Hoth.
    { intros b t c' H Ho Ht. rewrite D4; [done| |done]. intros ->.
      destruct (i_cnt _ _ Hi x o Hx Hn) as (c2 & E1 & E2). assert (c2 = c) as -> by cg. cg. }
    assert (releases (Destroy x) V s (delete x V) s1) as Hrel.
    { split; [done|eauto| |lia]. intros b Hb. left. by apply D5. }
    assert (forall b t c', heap s1 !! b = Some (Blk t c') -> t = CNT -> exists c'', heap s !! b = Some (Blk CNT c'')) as Hcn.
    { intros b t c' H ->. destruct (decide (b = c)) as [->|Hne].
      - destruct (i_cnt _ _ Hi x o Hx Hn) as (c2 & E1 & E2). assert (c2 = c) as -> by cg. eauto.
      - destruct (decide (HPtr b ∈ o_bufs o)) as [Hb|Hb].
        + assert (owned V b) as Ho by by exists x, o. destruct (owned_live V s b Hi Ho) as (c2 & H2).
          destruct (D3 b Ho) as [[_ He]|[_ He]]; cg.
        + destruct (D5 b) as [y Hy]; [eauto|]. exists c'. destruct y as [t y].
          destruct (decide (t = ARR)) as [->|Hta].
          * assert (heap s1 !! b = heap s !! b \/ heap s1 !! b = None) as [He|He]; [|cg|cg].
            destruct (classic_owned V b) as [Ho|Ho]; [destruct (D3 b Ho) as [[_ ?]|[_ ?]]; eauto|left; by apply D4].
          * rewrite <- D4; [done|done|]. intros Ho. destruct (owned_live V s b Hi Ho). cg. }
    destruct (Z.of_nat (refs (delete x V) c) =? 0) eqn:H0.
    + destruct (decide (o_class o = Result)) as [Hk|Hk].
      { rewrite Hk. cbn [ret]. exists s1. split_and!; [done|done|done|]. intros b t c' H Ht. split; [eauto|done]. }
      assert (match o_class o with Result => ret tt | _ => free_tag CNT (o_count o) end = free_tag CNT (HPtr c)) as ->.
      { rewrite Hc. by destruct (o_class o). }
      cbn [free_tag]. rewrite D2. cbn [b_tag]. rewrite bool_decide_true by done.
      eexists. split; [done|].
      set (s2 := St (delete c (heap s1)) (ctr s1) (rpos s1)).
      assert (forall b t c', t <> CNT -> heap s1 !! b = Some (Blk t c') -> heap s2 !! b = Some (Blk t c')) as Hk2.
      { intros b t c' Ht H. cbn [s2 heap]. rewrite lookup_delete_ne; [done|]. intros <-. cg. }
      assert (wf s2) as Hw2.
      { intros b [y Hb]. cbn [s2 heap ctr] in *. apply lookup_delete_Some in Hb as [_ Hb]. apply (i_wf _ _ D1). eauto. }
      split; [|split].
      * eapply inv_heap; [done|done|]. intros b t c' H1 H2 H3 H. destruct H3 as [->| ->]; [by apply Hk2|].
        cbn [s2 heap]. rewrite lookup_delete_ne; [done|]. intros <-. specialize (H2 eq_refl). lia.
      * destruct Hrel as [R1 R2 R3 R4]. split; [| | |done].
        -- intros b Hb. destruct (R1 b Hb) as [[Ho He]|[Ho He]].
           ++ left. split; [done|]. destruct (owned_live V s b Hi Hb) as (c2 & H2). rewrite H2 in *. by apply Hk2.
           ++ right. split; [done|]. cbn [s2 heap]. by apply lookup_delete_None; right.
        -- intros b t c' H Ho Ht Hne. apply Hk2; [done|]. by apply R2.
        -- intros b [y Hb]. cbn [s2 heap] in Hb. apply lookup_delete_Some in Hb as [_ Hb]. apply R3. eauto.
      * intros b t c' Hb Ht. cbn [s2 heap] in Hb. apply lookup_delete_Some in Hb as [Hne Hb].
        split; [eauto|]. cg.
    + cbn [ret]. exists s1. split_and!; [done|done|done|]. intros b t c' H Ht. split; [eauto|].
      intros [= ->] _. lia.
  - assert (o_count o <> HNull) as Hn by cg.
    destruct (i_cnt _ _ Hi x o Hx Hn) as (c2 & E1 & E2). cg.
Qed.
