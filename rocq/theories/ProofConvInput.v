(** * ProofConvInput: the convolution samples, step by step *)
From stdpp Require Import gmap list.
From Coq Require Import ZArith Lia ZifyBool ZifyNat.
From Verif Require Import Base Mem Spec ModelSample SpecSample ModelConvInput SpecConvInput ProofSample ProofSample2.
Open Scope Z_scope.

Record cinv (V : cobjs) (s : st) : Prop := CInv {
  ci_wf : wf s;
  ci_class : forall x o, V !! x = Some o -> o_class (c_base o) = Binary_Input;
  ci_cnt : forall x o, V !! x = Some o -> exists c, o_count (c_base o) = HPtr c /\ heap s !! c = Some (Blk CNT (CInts [1]));
  ci_undef : forall x o, V !! x = Some o -> HUndef ∉ arrays o;
  ci_arr : forall x o b, V !! x = Some o -> HPtr b ∈ arrays o -> exists c, heap s !! b = Some (Blk ARR c);
  ci_dist : forall x o, V !! x = Some o -> distinct (arrays o);
  ci_sep : forall x y o o' b, V !! x = Some o -> V !! y = Some o' -> has o b -> has o' b -> x = y
}.
Lemma cinv_empty s : wf s -> cinv ∅ s.
Proof. split; [done|..]; intros *; rewrite lookup_empty; done. Qed.
Lemma held_live V s b : cinv V s -> held V b -> is_Some (heap s !! b).
Proof.
  intros Hi (x & o & Hx & [Hb|Hb]).
  - destruct (ci_arr _ _ Hi x o b Hx Hb) as (c & ->). eauto.
  - destruct (ci_cnt _ _ Hi x o Hx) as (c & Hc & Hh). assert (c = b) as -> by congruence. eauto.
Qed.
Lemma cinv_heap V s s' : cinv V s -> wf s' -> (forall b, held V b -> heap s' !! b = heap s !! b) -> cinv V s'.
Proof.
  intros Hi Hw H. split; [done|apply Hi| |apply Hi| |apply Hi|apply Hi].
  - intros x o Hx. destruct (ci_cnt _ _ Hi x o Hx) as (c & Hc & Hh). exists c. split; [done|].
    rewrite H; [done|]. exists x, o. split; [done|by right].
  - intros x o b Hx Hb. destruct (ci_arr _ _ Hi x o b Hx Hb) as (c & Hc). exists c.
    rewrite H; [done|]. exists x, o. split; [done|by left].
Qed.
Lemma cinv_after V s tag c : cinv V s -> cinv V (after_alloc tag c s).
Proof.
  intros Hi. eapply cinv_heap; [done|apply wf_after, (ci_wf _ _ Hi)|]. intros b Hb.
  destruct (held_live _ _ _ Hi Hb) as [x Hx]. rewrite Hx. apply lookup_after; [apply (ci_wf _ _ Hi)|done].
Qed.

(** ** Putting an object into place *)
Lemma cinv_insert V s x o c : cinv V s -> V !! x = None -> o_class (c_base o) = Binary_Input ->
  o_count (c_base o) = HPtr c -> heap s !! c = Some (Blk CNT (CInts [1])) -> ~ held V c ->
  HUndef ∉ arrays o -> distinct (arrays o) ->
  (forall b, HPtr b ∈ arrays o -> (exists c, heap s !! b = Some (Blk ARR c)) /\ ~ held V b) ->
  cinv (<[x := o]> V) s.
Proof.
  intros Hi Hx Hk Hc Hh Hn Hu Hd Hb.
  assert (forall b, has o b -> ~ held V b) as Hsep.
  { intros b [H|H]; [by apply Hb|]. assert (c = b) as <- by congruence. done. }
  split; [apply Hi|..].
  - intros y o'. rewrite lookup_insert_Some. intros [[_ <-]|[_ Hy]]; [done|by eapply (ci_class _ _ Hi)].
  - intros y o'. rewrite lookup_insert_Some. intros [[_ <-]|[_ Hy]]; [eauto|by eapply (ci_cnt _ _ Hi)].
  - intros y o'. rewrite lookup_insert_Some. intros [[_ <-]|[_ Hy]]; [done|by eapply (ci_undef _ _ Hi)].
  - intros y o' b. rewrite lookup_insert_Some. intros [[_ <-]|[_ Hy]] H; [by apply Hb|by eapply (ci_arr _ _ Hi)].
  - intros y o'. rewrite lookup_insert_Some. intros [[_ <-]|[_ Hy]]; [done|by eapply (ci_dist _ _ Hi)].
  - intros y z o1 o2 b. rewrite !lookup_insert_Some. intros [[<- <-]|[_ Hy]] [[<- <-]|[_ Hz]] H1 H2; try done.
    + exfalso. eapply Hsep; [exact H1|]. by exists z, o2.
    + exfalso. eapply Hsep; [exact H2|]. by exists y, o1.
    + by eapply (ci_sep _ _ Hi y z).
Qed.
Lemma held_insert V x o b : V !! x = None -> held (<[x := o]> V) b <-> has o b \/ held V b.
Proof.
  intros Hx. split.
  - intros (y & o' & Hy & Hb). apply lookup_insert_Some in Hy as [[<- <-]|[_ Hy]]; [by left|]. right. by exists y, o'.
  - intros [H|(y & o' & Hy & Hb)].
    + exists x, o. split; [apply lookup_insert|done].
    + exists y, o'. split; [|done]. rewrite lookup_insert_ne; [done|congruence].
Qed.
Lemma exact_insert op V s s' x o : V !! x = None ->
  (forall b, is_Some (heap s !! b) -> heap s' !! b = heap s !! b) ->
  (forall b, heap s !! b = None -> is_Some (heap s' !! b) -> has o b) ->
  exact_step op V s (<[x := o]> V) s'.
Proof.
  intros Hx Hk Hn. split.
  - intros b _ Hb. by apply Hk.
  - intros b Hb []. apply held_insert; [done|by right].
  - intros b _ Hb _. by apply Hk.
  - intros b H1 H2. left. apply held_insert; [done|]. left. by apply Hn.
Qed.
Lemma cgivable_live V s b : cgivable V (heap s) (HPtr b) ->
  (exists c, heap s !! b = Some (Blk ARR c)) /\ ~ held V b.
Proof. intros [?|(b' & c & [= <-] & H & Hn)]; [done|]. eauto. Qed.
Lemma cgivable_defined V h : ~ cgivable V h HUndef.
Proof. intros [?|(b' & c & ? & H & Hn)]; done. Qed.

Definition cgood (op : cop) (V : cobjs) (E : env) (s : st) : Prop :=
  match cstep op V E s with
  | Done V' s' => cinv V' s' /\ exact_step op V s V' s'
  | Abort => ~ (alloc_all E /\ croomy op)
  | _ => False
  end.

Lemma after_old s tag c b : wf s -> is_Some (heap s !! b) -> heap (after_alloc tag c s) !! b = heap s !! b.
Proof. intros Hw [x Hx]. rewrite Hx. by apply lookup_after. Qed.
Lemma after_new s tag c b : heap s !! b = None -> is_Some (heap (after_alloc tag c s) !! b) -> b = ctr s.
Proof. intros H [x Hx]. cbn in Hx. apply lookup_insert_Some in Hx as [[<- _]|[_ Hx]]; [done|congruence]. Qed.
Lemma after_here s tag c : heap (after_alloc tag c s) !! ctr s = Some (Blk tag c).
Proof. cbn. apply lookup_insert. Qed.

Lemma cgood_new n c V E s : cinv V s -> cgood (CNewArr n c) V E s.
Proof.
  intros Hi. unfold cgood. cbn [cstep]. unfold bind. destruct (new_arr_run n c E s) as [->|[H ->]]; [|done].
  cbn [ret]. split; [by apply cinv_after|]. pose proof (ci_wf _ _ Hi) as Hw. split.
  - intros b _ Hb. by apply after_old.
  - by intros b Hb [].
  - intros b _ Hb _. by apply after_old.
  - intros b _ _. right. eauto.
Qed.
Lemma cgood_del p V E s : cinv V s -> cgivable V (heap s) p -> cgood (CDelArr p) V E s.
Proof.
  intros Hi Hg. unfold cgood. cbn [cstep]. unfold bind. destruct Hg as [->|(b & c & -> & Hb & Hn)].
  - cbn [free_tag ret]. split; [done|]. split; [done|by intros b ? []|done|].
    intros b H1 [x H2]. congruence.
  - cbn [free_tag]. rewrite Hb. cbn [b_tag]. rewrite bool_decide_true by done. cbn [ret]. split.
    + eapply cinv_heap; [done| |].
      * intros b' [x Hx]. cbn in *. apply lookup_delete_Some in Hx as [_ Hx]. apply (ci_wf _ _ Hi). eauto.
      * intros b' Hb'. cbn. rewrite lookup_delete_ne; [done|]. by intros ->.
    + split.
      * intros b' Hb' _. cbn. rewrite lookup_delete_ne; [done|]. by intros ->.
      * by intros b' ? [].
      * intros b' _ _ Hne. cbn. rewrite lookup_delete_ne; [done|]. intros ->. done.
      * intros b' H1 [x Hx]. cbn in Hx. apply lookup_delete_Some in Hx as [_ Hx]. congruence.
Qed.
Lemma cgood_ctor op V E s x m bs ps g : cinv V s -> V !! x = None ->
  Forall (cgivable V (heap s)) (bs ++ ps) -> distinct (bs ++ ps) ->
  cstep op V E s = (let* c := new_count in ret (<[x := CObj (Obj Binary_Input m bs c) ps g]> V)) E s ->
  croomy op -> cgood op V E s.
Proof.
  intros Hi Hx Hg Hd Hop Hroom. unfold cgood. rewrite Hop. unfold bind. pose proof (ci_wf _ _ Hi) as Hw.
  destruct (new_count_run E s) as [->|[H ->]]; [|tauto]. cbn [ret]. rewrite Forall_forall in Hg. split.
  - eapply cinv_insert; [by apply cinv_after|done|done|done|apply after_here| | |done|].
    + intros Hc. apply (held_live _ _ _ Hi) in Hc. apply Hw in Hc. lia.
    + intros Hu. apply Hg in Hu. by apply cgivable_defined in Hu.
    + intros b Hb. apply Hg in Hb. apply cgivable_live in Hb as [(c & Hc) Hn]. split; [|done].
      exists c. by apply lookup_after.
  - apply exact_insert; [done|intros; by apply after_old|].
    intros b H1 H2. right. cbn. f_equal. symmetry. by eapply after_new.
Qed.
Lemma cgood_default x V E s : cinv V s -> V !! x = None -> cgood (CDefault x) V E s.
Proof.
  intros Hi Hx. eapply (cgood_ctor _ V E s x [] [HNull; HNull; HNull; HNull] [HNull; HNull; HNull] 1); try done.
  - repeat constructor; by left.
  - intros i j b H. apply elem_of_list_lookup_2 in H. repeat (apply elem_of_cons in H as [H|H]; [done|]). by apply elem_of_nil in H.
  - cbn [cstep]. unfold conv_default, ctor_default, bind. by destruct (new_count E s).
Qed.
Lemma cgood_ptrs x m bs ps g V E s : cinv V s -> clegal (CPtrs x m bs ps g) V (heap s) -> cgood (CPtrs x m bs ps g) V E s.
Proof.
  intros Hi (Hx & _ & _ & Hg & Hd). eapply (cgood_ctor _ V E s x m bs ps g); try done.
  cbn [cstep]. unfold conv_ptrs, ctor_ptrs, bind. by destruct (new_count E s).
Qed.

(** ** The vector constructor *)
Lemma new_params_run n st pa di E s :
  n <= Z.of_nat (length st) -> n <= Z.of_nat (length pa) -> n <= Z.of_nat (length di) ->
  (exists c1 c2 c3, new_params n st pa di E s =
     Done [HPtr (ctr s); HPtr (S (ctr s)); HPtr (S (S (ctr s)))]
       (after_alloc ARR c3 (after_alloc ARR c2 (after_alloc ARR c1 s)))) \/
  (~ (alloc_all E /\ 0 <= 4 * n <= PTRDIFF_MAX) /\ new_params n st pa di E s = Abort).
Proof.
  intros H1 H2 H3. unfold new_params. destruct (n <? 0) eqn:H0; [right; split; [lia|done]|]. unfold bind.
  set (c1 := CInts (take (Z.to_nat n) st)). set (c2 := CInts (take (Z.to_nat n) pa)). set (c3 := CInts (take (Z.to_nat n) di)).
  destruct (new_arr_run (4 * n) c1 E s) as [->|[H ->]]; [|right; split; [tauto|done]].
  destruct (new_arr_run (4 * n) c2 E (after_alloc ARR c1 s)) as [->|[H ->]]; [|right; split; [tauto|done]].
  destruct (new_arr_run (4 * n) c3 E (after_alloc ARR c2 (after_alloc ARR c1 s))) as [->|[H ->]]; [|right; split; [tauto|done]].
  left. exists c1, c2, c3. unfold check. rewrite (proj2 (Z.leb_le _ _) H1), (proj2 (Z.leb_le _ _) H2), (proj2 (Z.leb_le _ _) H3).
  done.
Qed.

Lemma vec_len n1 : 0 <= n1 -> n1 - 2 <= INT_MAX -> wrap I32 (n1 - 2) = n1 - 2.
Proof. intros H1 H2. unfold wrap, INT_MAX in *. cbn [is_signed]. change (bits I32) with 32. change (2 ^ (32 - 1)) with 2147483648. change (2 ^ 32) with 4294967296. rewrite Z.mod_small; lia. Qed.
Lemma cgood_vec x n1 v1 n2 v2 m d1 d2 st pa di g V E s : cinv V s ->
  clegal (CVec x n1 v1 n2 v2 m d1 d2 st pa di g) V (heap s) ->
  cgood (CVec x n1 v1 n2 v2 m d1 d2 st pa di g) V E s.
Proof.
  intros Hi (Hx & Hn1 & Hn2 & Hst & Hpa & Hdi & Hmax & Hg1 & Hg2 & Hdd). unfold cgood. cbn [cstep].
  unfold conv_vec, ctor_vec2, bind. pose proof (ci_wf _ _ Hi) as Hw.
  destruct (decide (0 <= n1)) as [H0|H0].
  2:{ unfold new_dims at 1. rewrite (proj2 (Z.ltb_lt n1 0)) by lia. cbn. lia. }
  destruct (new_dims_run n1 v1 E s Hn1) as [(c1 & ->)|[H ->]]; [|cbn; intros (HA & ? & ? & ?); apply H; split; [done|lia]].
  set (s1 := after_alloc ARR c1 s).
  destruct (new_dims_run n2 v2 E s1 Hn2) as [(c2 & ->)|[H ->]]; [|cbn; tauto].
  set (s2 := after_alloc ARR c2 s1).
  destruct (new_count_run E s2) as [->|[H ->]]; [|cbn; tauto]. cbn [ret].
  set (s3 := after_alloc CNT (CInts [1]) s2).
  rewrite (vec_len n1) by done.
  destruct (new_params_run (n1 - 2) st pa di E s3 Hst Hpa Hdi) as [(c4 & c5 & c6 & ->)|[H ->]].
  2:{ cbn. intros (HA & Hr1 & Hr2 & _). apply H. split; [done|]. unfold PTRDIFF_MAX in *. lia. }
  set (s4 := after_alloc ARR c4 s3). set (s5 := after_alloc ARR c5 s4). set (s6 := after_alloc ARR c6 s5).
  set (k := ctr s).
  change (ctr s1) with (S k). change (ctr s2) with (S (S k)). change (ctr s3) with (S (S (S k))).
  set (o := CObj _ _ _).
  assert (wf s1) as W1 by by apply wf_after. assert (wf s2) as W2 by by apply wf_after. assert (wf s3) as W3 by by apply wf_after.
  assert (wf s4) as W4 by by apply wf_after. assert (wf s5) as W5 by by apply wf_after.
  assert (forall b, is_Some (heap s !! b) -> heap s6 !! b = heap s !! b) as Hold.
  { intros b Hb. unfold s6, s5, s4, s3, s2, s1.
    assert (is_Some (heap s1 !! b)) as B1 by (unfold s1; by rewrite after_old).
    assert (is_Some (heap s2 !! b)) as B2 by (unfold s2; by rewrite after_old).
    assert (is_Some (heap s3 !! b)) as B3 by (unfold s3; by rewrite after_old).
    assert (is_Some (heap s4 !! b)) as B4 by (unfold s4; by rewrite after_old).
    assert (is_Some (heap s5 !! b)) as B5 by (unfold s5; by rewrite after_old).
    rewrite after_old by done. rewrite after_old by done. rewrite after_old by done.
    rewrite after_old by done. rewrite after_old by done. by rewrite after_old by done. }
  assert (forall b, heap s6 !! b = if decide (b = S (S (S (S (S k))))) then Some (Blk ARR c6)
    else if decide (b = S (S (S (S k)))) then Some (Blk ARR c5) else if decide (b = S (S (S k))) then Some (Blk ARR c4)
    else if decide (b = S (S k)) then Some (Blk CNT (CInts [1])) else if decide (b = S k) then Some (Blk ARR c2)
    else if decide (b = k) then Some (Blk ARR c1) else heap s !! b) as Hall.
  { intros b. unfold s6, s5, s4, s3, s2, s1, after_alloc. cbn [heap ctr]. fold k.
    repeat (case_decide; [subst b; rewrite lookup_insert; done|rewrite lookup_insert_ne by done]). done. }
  assert (forall b, (k <= b)%nat -> ~ held V b) as Hfresh.
  { intros b Hb Hh. apply (held_live _ _ _ Hi) in Hh. apply Hw in Hh. fold k in Hh. lia. }
  assert (forall b, HPtr b = d1 \/ HPtr b = d2 -> (b < k)%nat /\ (exists c, heap s !! b = Some (Blk ARR c)) /\ ~ held V b) as Hgv.
  { intros b [Hb|Hb]; [rewrite <-Hb in Hg1; apply cgivable_live in Hg1 as [(c & Hc) Hn]
      |rewrite <-Hb in Hg2; apply cgivable_live in Hg2 as [(c & Hc) Hn]]; split_and!; eauto; apply Hw; eauto. }
  assert (forall b, HPtr b ∈ arrays o -> (HPtr b = d1 \/ HPtr b = d2) \/
    b = k \/ b = S k \/ b = S (S (S k)) \/ b = S (S (S (S k))) \/ b = S (S (S (S (S k))))) as Hin.
  { intros b Hb. unfold arrays, o in Hb. cbn in Hb. rewrite !elem_of_cons, elem_of_nil in Hb. naive_solver. }
  split.
  - eapply (cinv_insert _ _ _ _ (S (S k))); [|done|done|done| |apply Hfresh; lia| | |].
    + eapply cinv_heap; [done|by apply wf_after|]. intros b Hb. apply Hold. by eapply held_live.
    + rewrite Hall. repeat (rewrite decide_False by lia). by rewrite decide_True.
    + unfold arrays, o. cbn. rewrite !elem_of_cons, elem_of_nil.
      intros [H|[H|[H|[H|[H|[H|[H|H]]]]]]]; try done; subst; [by apply cgivable_defined in Hg1|by apply cgivable_defined in Hg2].
    + intros i j b H1 H2. unfold arrays, o in H1, H2. cbn in H1, H2.
      assert (forall b, HPtr b = d1 -> (b < k)%nat) as L1 by (intros; by apply Hgv; left).
      assert (forall b, HPtr b = d2 -> (b < k)%nat) as L2 by (intros; by apply Hgv; right).
      assert (forall b, HPtr b = d1 -> HPtr b = d2 -> False) as L3.
      { intros b' E1 E2. rewrite <-E1 in Hdd. rewrite <-E2 in Hdd. by specialize (Hdd eq_refl). }
      do 7 (destruct i as [|i]; [do 7 (destruct j as [|j]; [cbn in H1, H2; try done; exfalso;
        try (assert (b < k)%nat by (apply L1; congruence)); try (assert (b < k)%nat by (apply L2; congruence));
        first [solve [apply (L3 b); congruence]|injection H1; injection H2; intros; lia|injection H1; intros; lia|injection H2; intros; lia]
        |]); cbn in H2; done|]).
      cbn in H1. done.
    + intros b Hb. destruct (Hin b Hb) as [Hd|Hd].
      * destruct (Hgv b Hd) as (_ & (c & Hc) & Hn). split; [|done]. exists c. rewrite Hold; eauto.
      * split; [|apply Hfresh; lia]. rewrite Hall.
        repeat (case_decide; [eauto; try lia|]). exfalso. lia.
  - apply exact_insert; [done|done|]. intros b H1 H2. rewrite Hall in H2. unfold has, arrays, o. cbn.
    rewrite !elem_of_cons.
    repeat (case_decide; [subst b; tauto|]). rewrite H1 in H2. by destruct H2.
Qed.

(** ** set_data, access, destructor *)
Lemma cgood_set x i p m V E s : cinv V s -> clegal (CSetData x i p m) V (heap s) -> cgood (CSetData x i p m) V E s.
Proof.
  intros Hi (Hg & o & Hx & Hn). unfold cgood. cbn [cstep]. unfold cthe, bind. rewrite Hx. cbn [opt ret].
  set (o' := CObj _ _ _). pose proof (lookup_lt_Some _ _ _ Hn) as Hlt.
  assert (arrays o' = <[i := p]> (arrays o)) as Ha.
  { unfold arrays, o'. cbn. by rewrite insert_app_l. }
  assert (arrays o !! i = Some HNull) as Hn'. { unfold arrays. by rewrite lookup_app_l. }
  assert (forall b, HPtr b ∈ arrays o' <-> HPtr b = p \/ HPtr b ∈ arrays o) as Hin.
  { intros b. rewrite Ha. split.
    - intros (j & Hj)%elem_of_list_lookup. apply list_lookup_insert_Some in Hj as [(-> & -> & _)|[_ Hj]]; [by left|].
      right. by eapply elem_of_list_lookup_2.
    - intros [->|(j & Hj)%elem_of_list_lookup].
      + eapply elem_of_list_lookup_2. apply (list_lookup_insert _ i). by eapply lookup_lt_Some.
      + eapply elem_of_list_lookup_2. rewrite list_lookup_insert_ne; [exact Hj|]. intros ->. congruence. }
  assert (forall b, has o' b <-> HPtr b = p \/ has o b) as Hhas.
  { intros b. unfold has. rewrite Hin. change (o_count (c_base o')) with (o_count (c_base o)). tauto. }
  assert (forall b, HPtr b = p -> (exists c, heap s !! b = Some (Blk ARR c)) /\ ~ held V b) as Hp.
  { intros b <-. by apply cgivable_live. }
  assert (forall b, held (<[x := o']> V) b <-> HPtr b = p \/ held V b) as Hheld.
  { intros b. split.
    - intros (y & q & Hy & Hb). apply lookup_insert_Some in Hy as [[<- <-]|[_ Hy]].
      + apply Hhas in Hb as [Hb|Hb]; [by left|]. right. by exists x, o.
      + right. by exists y, q.
    - intros [Hb|(y & q & Hy & Hb)].
      + exists x, o'. split; [apply lookup_insert|]. apply Hhas. by left.
      + destruct (decide (y = x)) as [->|Hne].
        * exists x, o'. split; [apply lookup_insert|]. apply Hhas. right. congruence.
        * exists y, q. split; [|done]. by rewrite lookup_insert_ne. }
  split.
  - split; [apply Hi|..].
    + intros y q. rewrite lookup_insert_Some. intros [[<- <-]|[_ Hy]]; [by apply (ci_class _ _ Hi x o)|by eapply (ci_class _ _ Hi)].
    + intros y q. rewrite lookup_insert_Some. intros [[<- <-]|[_ Hy]]; [by apply (ci_cnt _ _ Hi x o)|by eapply (ci_cnt _ _ Hi)].
    + intros y q. rewrite lookup_insert_Some. intros [[<- <-]|[_ Hy]]; [|by eapply (ci_undef _ _ Hi)].
      rewrite Ha. intros (j & Hj)%elem_of_list_lookup. apply list_lookup_insert_Some in Hj as [(_ & -> & _)|[_ Hj]].
      * by apply cgivable_defined in Hg.
      * eapply (ci_undef _ _ Hi x o Hx). by eapply elem_of_list_lookup_2.
    + intros y q b. rewrite lookup_insert_Some. intros [[<- <-]|[_ Hy]] Hb; [|by eapply (ci_arr _ _ Hi)].
      apply Hin in Hb as [Hb|Hb]; [by apply Hp|by eapply (ci_arr _ _ Hi)].
    + intros y q. rewrite lookup_insert_Some. intros [[<- <-]|[_ Hy]]; [|by eapply (ci_dist _ _ Hi)].
      rewrite Ha. intros a b c Hb Hc. apply list_lookup_insert_Some in Hb as [(<- & Hb & _)|[Hab Hb]];
        apply list_lookup_insert_Some in Hc as [(<- & Hc & _)|[Hac Hc]].
      * done.
      * exfalso. destruct (Hp c ltac:(done)) as [_ Hnh]. apply Hnh. exists x, o. split; [done|]. left. by eapply elem_of_list_lookup_2.
      * exfalso. destruct (Hp c ltac:(done)) as [_ Hnh]. apply Hnh. exists x, o. split; [done|]. left. by eapply elem_of_list_lookup_2.
      * by eapply (ci_dist _ _ Hi x o).
    + intros y z o1 o2 b. rewrite !lookup_insert_Some. intros [[<- <-]|[Hne Hy]] [[<- <-]|[Hnz Hz]] H1 H2; try done.
      * apply Hhas in H1 as [H1|H1]; [|by eapply (ci_sep _ _ Hi x z)].
        exfalso. apply (Hp b H1). by exists z, o2.
      * apply Hhas in H2 as [H2|H2]; [|by eapply (ci_sep _ _ Hi y x)].
        exfalso. apply (Hp b H2). by exists y, o1.
      * by eapply (ci_sep _ _ Hi y z).
  - split.
    + done.
    + intros b Hb []. apply Hheld. by right.
    + done.
    + intros b H1 [q H2]. congruence.
Qed.
Lemma cgood_use x i V E s : cinv V s -> clegal (CUse x i) V (heap s) -> cgood (CUse x i) V E s.
Proof.
  intros Hi (o & b & Hx & Hb). unfold cgood. cbn [cstep]. unfold cthe, bind. rewrite Hx. cbn [opt ret]. rewrite Hb. cbn [opt ret].
  destruct (ci_arr _ _ Hi x o b Hx) as (c & Hc).
  { unfold arrays. apply elem_of_app. right. by eapply elem_of_list_lookup_2. }
  unfold touch, deref, bind. rewrite Hc. cbn [ret]. split; [done|]. split; [done|by intros ? ? []|done|].
  intros b' H1 [q H2]. congruence.
Qed.

Lemma distinct_app_l l k : distinct (l ++ k) -> distinct l.
Proof. intros H i j b H1 H2. eapply H; by apply lookup_app_l_Some. Qed.
Lemma distinct_app_r l k : distinct (l ++ k) -> distinct k.
Proof.
  intros H i j b H1 H2. assert (length l + i = length l + j)%nat; [|lia].
  eapply H; rewrite lookup_app_r by lia; [rewrite <-H1|rewrite <-H2]; f_equal; lia.
Qed.
Lemma distinct_app_sep l k b : distinct (l ++ k) -> HPtr b ∈ l -> HPtr b ∉ k.
Proof.
  intros H (i & Hi)%elem_of_list_lookup (j & Hj)%elem_of_list_lookup.
  assert (i = length l + j)%nat; [|apply lookup_lt_Some in Hi; lia].
  eapply H; [by apply lookup_app_l_Some|]. rewrite lookup_app_r by lia. rewrite <-Hj. f_equal. lia.
Qed.
(** The destructor of an object whose counter is 1 releases its blocks and nothing else. *)
Lemma dtor_run V s x o E : cinv V s -> V !! x = Some o ->
  exists h', conv_dtor o E s = Done tt (upd h' s) /\ (forall b, has o b -> h' !! b = None) /\ (forall b, ~ has o b -> h' !! b = heap s !! b).
Proof.
  intros Hi Hx. destruct (ci_cnt _ _ Hi x o Hx) as (c & Hc & Hh).
  pose proof (ci_dist _ _ Hi x o Hx) as Hd. pose proof (ci_undef _ _ Hi x o Hx) as Hu.
  unfold arrays in Hd, Hu. rewrite not_elem_of_app in Hu. destruct Hu as [Hu1 Hu2].
  assert (forall b, HPtr b ∈ arrays o -> exists c, heap s !! b = Some (Blk ARR c)) as Hb by (intros; by eapply (ci_arr _ _ Hi)).
  destruct (delete_all_run (c_arrs o) E s (distinct_app_r _ _ Hd) Hu2) as (h1 & R1 & N1 & K1).
  { intros b Hin. apply Hb. unfold arrays. apply elem_of_app. by right. }
  unfold conv_dtor, bind. rewrite R1. unfold dtor. rewrite Hc. cbn [is_null].
  assert (HPtr c ∉ c_arrs o) as Hcn.
  { intros H. destruct (Hb c) as (q & Hq); [unfold arrays; apply elem_of_app; by right|]. rewrite Hq in Hh. discriminate. }
  assert (HPtr c ∉ o_bufs (c_base o)) as Hcn2.
  { intros H. destruct (Hb c) as (q & Hq); [unfold arrays; apply elem_of_app; by left|]. rewrite Hq in Hh. discriminate. }
  unfold bind. rewrite (add_count_run c 1 (-1)); [|cbn; by rewrite K1|done].
  rewrite (get_count_run c (1 + -1)) by (cbn [heap upd]; by rewrite lookup_insert).
  change (1 + -1 =? 0) with true. cbv match. unfold bind.
  destruct (delete_all_run (o_bufs (c_base o)) E (upd (<[c := Blk CNT (CInts [1 + -1])]> (heap (upd h1 s))) (upd h1 s))
    (distinct_app_l _ _ Hd) Hu1) as (h2 & -> & N2 & K2).
  { intros b Hin. cbn. destruct (Hb b) as (q & Hq); [unfold arrays; apply elem_of_app; by left|]. exists q.
    rewrite lookup_insert_ne by (intros ->; done). rewrite K1; [done|]. by eapply distinct_app_sep. }
  rewrite (ci_class _ _ Hi x o Hx). cbn [free_tag heap upd].
  rewrite K2 by done. cbn [heap upd]. rewrite lookup_insert. cbn [b_tag]. rewrite bool_decide_true by done.
  exists (delete c h2). split; [done|]. split.
  - intros b [Hin|Hin].
    + destruct (decide (b = c)) as [->|Hne]; [by rewrite lookup_delete|]. rewrite lookup_delete_ne by done.
      destruct (decide (HPtr b ∈ o_bufs (c_base o))) as [H2|H2]; [by apply N2|]. rewrite K2 by done. cbn.
      rewrite lookup_insert_ne by done. apply N1. unfold arrays in Hin. apply elem_of_app in Hin as [?|?]; done.
    + assert (c = b) as <- by congruence. by rewrite lookup_delete.
  - intros b Hn. unfold has, arrays in Hn. rewrite elem_of_app in Hn.
    rewrite lookup_delete_ne by (intros ->; tauto). rewrite K2 by tauto. cbn.
    rewrite lookup_insert_ne by (intros ->; tauto). apply K1. tauto.
Qed.
Lemma held_delete V s x o b : cinv V s -> V !! x = Some o -> held (delete x V) b <-> held V b /\ ~ has o b.
Proof.
  intros Hi Hx. split.
  - intros (y & q & Hy & Hb). apply lookup_delete_Some in Hy as [Hne Hy]. split; [by exists y, q|].
    intros Ho. apply Hne. by eapply (ci_sep _ _ Hi x y).
  - intros [(y & q & Hy & Hb) Hn]. exists y, q. split; [|done]. rewrite lookup_delete_ne; [done|].
    intros ->. simplify_eq. done.
Qed.
Lemma has_dec o b : Decision (has o b).
Proof. unfold has. apply _. Qed.
Lemma cgood_destroy x V E s : cinv V s -> is_Some (V !! x) -> cgood (CDestroy x) V E s.
Proof.
  intros Hi [o Hx]. unfold cgood. cbn [cstep]. unfold cthe, bind. rewrite Hx. cbn [opt ret].
  destruct (dtor_run V s x o E Hi Hx) as (h' & -> & N & K). cbn [ret].
  assert (forall b, held (delete x V) b -> h' !! b = heap s !! b) as Hk.
  { intros b Hb. apply K. by eapply held_delete in Hb as [_ Hb]. }
  split.
  - assert (cinv (delete x V) s) as Hi'.
    { split; [apply Hi|..].
      - intros y q Hy. apply lookup_delete_Some in Hy as [_ Hy]. by eapply (ci_class _ _ Hi).
      - intros y q Hy. apply lookup_delete_Some in Hy as [_ Hy]. by eapply (ci_cnt _ _ Hi).
      - intros y q Hy. apply lookup_delete_Some in Hy as [_ Hy]. by eapply (ci_undef _ _ Hi).
      - intros y q b Hy. apply lookup_delete_Some in Hy as [_ Hy]. by eapply (ci_arr _ _ Hi).
      - intros y q Hy. apply lookup_delete_Some in Hy as [_ Hy]. by eapply (ci_dist _ _ Hi).
      - intros y z q1 q2 b Hy Hz. apply lookup_delete_Some in Hy as [_ Hy]. apply lookup_delete_Some in Hz as [_ Hz].
        by eapply (ci_sep _ _ Hi). }
    eapply cinv_heap; [done| |done]. intros b [q Hq]. cbn in Hq. apply (ci_wf _ _ Hi).
    destruct (has_dec o b) as [Hh|Hh]; [rewrite N in Hq by done; done|]. rewrite K in Hq by done. eauto.
  - split.
    + intros b Hb _. by apply Hk.
    + intros b Hb Hn. cbn. apply N. destruct (has_dec o b) as [|Hh]; [done|]. exfalso. apply Hn. by eapply held_delete.
    + intros b Hb _ _. cbn. apply K. intros Hh. apply Hb. by exists x, o.
    + intros b H1 [q Hq]. cbn in Hq. destruct (has_dec o b) as [Hh|Hh]; [rewrite N in Hq by done; done|].
      rewrite K in Hq by done. congruence.
Qed.

Lemma cgood_all op V E s : cinv V s -> clegal op V (heap s) -> cgood op V E s.
Proof.
  intros Hi Hl. destruct op.
  - by apply cgood_new.
  - by apply cgood_del.
  - by apply cgood_default.
  - by apply cgood_ptrs.
  - by apply cgood_vec.
  - done.
  - done.
  - by apply cgood_set.
  - by apply cgood_use.
  - by apply cgood_destroy.
Qed.
