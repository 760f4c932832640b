(** * ProofSample: reference counting of the auto-test objects *)
From stdpp Require Import gmap list.
From Coq Require Import ZArith Lia ZifyBool ZifyNat.
From Verif Require Import Base Mem Spec ModelSample SpecSample.
Open Scope Z_scope.

(** ** The number of references to a counter cell *)
Definition ref1 (o : obj) (c : nat) : nat := if decide (o_count o = HPtr c) then 1 else 0.
Definition refs (V : objs) (c : nat) : nat :=
  size (filter (fun kv : nat * obj => o_count kv.2 = HPtr c) V).

Lemma refs_insert V x o c : V !! x = None -> refs (<[x := o]> V) c = (ref1 o c + refs V c)%nat.
Proof.
  intros H. unfold refs, ref1. case_decide as Hc.
  - rewrite map_filter_insert_True by done. rewrite map_size_insert_None; [done|].
    apply map_filter_lookup_None. by left.
  - rewrite map_filter_insert_False by done. by rewrite delete_notin.
Qed.
Lemma refs_delete V x o c : V !! x = Some o -> refs V c = (ref1 o c + refs (delete x V) c)%nat.
Proof.
  intros H. rewrite <- (insert_delete V x o) at 1 by done.
  apply refs_insert. apply lookup_delete.
Qed.
Lemma refs_le V c : (refs V c <= size V)%nat.
Proof.
  unfold refs. induction V as [|x o V Hx IH] using map_ind.
  - by rewrite map_filter_empty.
  - pose proof (refs_insert V x o c Hx) as H. unfold refs in H. rewrite H.
    rewrite map_size_insert_None by done. unfold ref1. case_decide; lia.
Qed.
Lemma ref1_same o c : o_count o = HPtr c -> ref1 o c = 1%nat.
Proof. intros H. unfold ref1. by rewrite decide_True. Qed.
Lemma ref1_other o c : o_count o <> HPtr c -> ref1 o c = 0%nat.
Proof. intros H. unfold ref1. by rewrite decide_False. Qed.
Lemma refs_pos V x o c : V !! x = Some o -> o_count o = HPtr c -> (1 <= refs V c)%nat.
Proof. intros H Hc. rewrite (refs_delete V x o) by done. rewrite ref1_same by done. lia. Qed.
Lemma refs_zero V c : (forall y o, V !! y = Some o -> o_count o <> HPtr c) -> refs V c = 0%nat.
Proof.
  intros H. unfold refs. apply map_size_empty_iff. apply map_filter_empty_iff.
  intros x o Hx. by eapply H.
Qed.
Lemma refs_nz V c : (1 <= refs V c)%nat -> exists y o, V !! y = Some o /\ o_count o = HPtr c.
Proof.
  intros H. unfold refs in H. destruct (map_choose (filter (fun kv : nat * obj => o_count kv.2 = HPtr c) V))
    as (y & o & Hy).
  { intros He. rewrite He in H. rewrite map_size_empty in H. lia. }
  apply map_filter_lookup_Some in Hy as [Hy Hc]. eauto.
Qed.
Lemma refs_one V x o c : V !! x = Some o -> o_count o = HPtr c -> ~ shared V x -> refs V c = 1%nat.
Proof.
  intros H Hc Hs. rewrite (refs_delete V x o) by done. rewrite ref1_same by done.
  rewrite refs_zero; [done|]. intros y o' Hy Hc'. apply lookup_delete_Some in Hy as [Hy Hy'].
  apply Hs. exists y, o, o'. rewrite Hc, Hc'. done.
Qed.
Lemma refs_two V x o c : V !! x = Some o -> o_count o = HPtr c -> shared V x -> (2 <= refs V c)%nat.
Proof.
  intros H Hc (y & o1 & o2 & Hne & H1 & H2 & He & Hn). simplify_eq.
  rewrite (refs_delete V x o) by done. rewrite ref1_same by done.
  rewrite (refs_delete _ y o2) by (by rewrite lookup_delete_ne by done).
  rewrite ref1_same by congruence. lia.
Qed.

(** ** The invariant *)
Record inv (V : objs) (s : st) : Prop := Inv {
  i_wf : wf s;
  i_null : forall x o, V !! x = Some o -> o_count o = HNull -> Forall (eq HNull) (o_bufs o);
  i_cnt : forall x o, V !! x = Some o -> o_count o <> HNull ->
    exists c, o_count o = HPtr c /\ heap s !! c = Some (Blk CNT (CInts [Z.of_nat (refs V c)]));
  i_same : forall x y o o', V !! x = Some o -> V !! y = Some o' ->
    o_count o = o_count o' -> o_count o <> HNull -> o_bufs o = o_bufs o';
  i_diff : forall x y o o' b, V !! x = Some o -> V !! y = Some o' ->
    HPtr b ∈ o_bufs o -> HPtr b ∈ o_bufs o' -> o_count o = o_count o';
  i_buf : forall x o b, V !! x = Some o -> HPtr b ∈ o_bufs o ->
    exists c, heap s !! b = Some (Blk ARR c);
  i_dist : forall x o, V !! x = Some o -> distinct (o_bufs o) /\ HUndef ∉ o_bufs o;
  i_max : forall c, Z.of_nat (refs V c) <= INT_MAX
}.

Lemma inv_empty s : wf s -> inv ∅ s.
Proof.
  split; try done; intros *; rewrite ?lookup_empty; try done.
Qed.

(** Objects that own something have a counter. *)
Lemma owner_count V s x o b : inv V s -> V !! x = Some o -> HPtr b ∈ o_bufs o ->
  exists c, o_count o = HPtr c /\ heap s !! c = Some (Blk CNT (CInts [Z.of_nat (refs V c)])).
Proof.
  intros Hi Hx Hb. apply (i_cnt _ _ Hi x o Hx). intros Hn.
  pose proof (i_null _ _ Hi x o Hx Hn) as Hf. rewrite Forall_forall in Hf. by specialize (Hf _ Hb).
Qed.

Lemma inv_heap V s s' : inv V s -> wf s' ->
  (forall b t c, (t = ARR -> owned V b) -> (t = CNT -> (1 <= refs V b)%nat) -> t = ARR \/ t = CNT ->
     heap s !! b = Some (Blk t c) -> heap s' !! b = Some (Blk t c)) -> inv V s'.
Proof.
  intros Hi Hw H. split; [done| | | | | | |].
  - apply (i_null _ _ Hi).
  - intros x o Hx Hc. destruct (i_cnt _ _ Hi x o Hx Hc) as (c & E1 & E2). exists c. split; [done|].
    apply H; [done| |by right|done]. intros _. by eapply refs_pos.
  - apply (i_same _ _ Hi).
  - apply (i_diff _ _ Hi).
  - intros x o b Hx Hb. destruct (i_buf _ _ Hi x o b Hx Hb) as (c & E). exists c.
    apply H; [|done|by left|done]. intros _. exists x, o. done.
  - apply (i_dist _ _ Hi).
  - apply (i_max _ _ Hi).
Qed.

(** Removing an object: its counter cell, and the blocks of nobody else, may
    change. *)
Lemma inv_drop V s s' x o : inv V s -> V !! x = Some o -> wf s' ->
  (forall b t c, (t = ARR -> owned (delete x V) b) -> t = ARR \/ t = CNT -> o_count o <> HPtr b ->
     heap s !! b = Some (Blk t c) -> heap s' !! b = Some (Blk t c)) ->
  (forall c, o_count o = HPtr c -> (1 <= refs (delete x V) c)%nat ->
     heap s' !! c = Some (Blk CNT (CInts [Z.of_nat (refs (delete x V) c)]))) ->
  inv (delete x V) s'.
Proof.
  intros Hi Hx Hw H H1. split; [done| | | | | | |].
  - intros y o' Hy. apply lookup_delete_Some in Hy as [_ Hy]. by apply (i_null _ _ Hi y).
  - intros y o' Hy Hc. pose proof Hy as Hy0. apply lookup_delete_Some in Hy as [Hne Hy].
    destruct (i_cnt _ _ Hi y o' Hy Hc) as (c & E1 & E2). exists c. split; [done|].
    destruct (decide (o_count o = HPtr c)) as [He|He].
    + apply H1; [done|]. by eapply refs_pos.
    + rewrite (refs_delete V x o) in E2 by done. rewrite ref1_other in E2 by done.
      apply H; [done|by right|done|done].
  - intros y z o1 o2 Hy Hz. apply lookup_delete_Some in Hy as [_ Hy]. apply lookup_delete_Some in Hz as [_ Hz].
    by apply (i_same _ _ Hi y z).
  - intros y z o1 o2 b Hy Hz. apply lookup_delete_Some in Hy as [_ Hy]. apply lookup_delete_Some in Hz as [_ Hz].
    by apply (i_diff _ _ Hi y z).
  - intros y o' b Hy Hb. pose proof Hy as Hy0. apply lookup_delete_Some in Hy as [_ Hy].
    destruct (i_buf _ _ Hi y o' b Hy Hb) as (c & E). exists c.
    apply H; [|by left| |done]. { intros _. by exists y, o'. }
    intros Hc. assert (o_count o <> HNull) as Hn by congruence.
    destruct (i_cnt _ _ Hi x o Hx Hn) as (c' & E1 & E2).
    assert (c' = b) as -> by congruence. rewrite E in E2. discriminate.
  - intros y o' Hy. apply lookup_delete_Some in Hy as [_ Hy]. by apply (i_dist _ _ Hi y).
  - intros c. pose proof (i_max _ _ Hi c) as Hm. rewrite (refs_delete V x o) in Hm by done. lia.
Qed.

(** Adding an object with a counter cell of its own. *)
Lemma inv_fresh V s x o c : inv V s -> V !! x = None -> o_count o = HPtr c ->
  heap s !! c = Some (Blk CNT (CInts [1])) ->
  (forall y o', V !! y = Some o' -> o_count o' <> HPtr c) ->
  distinct (o_bufs o) -> HUndef ∉ o_bufs o ->
  (forall b, HPtr b ∈ o_bufs o -> (exists c, heap s !! b = Some (Blk ARR c)) /\ ~ owned V b) ->
  inv (<[x := o]> V) s.
Proof.
  intros Hi Hx Hc Hh Hf Hd Hu Hb. split.
  - apply (i_wf _ _ Hi).
  - intros y o' Hy Hn. apply lookup_insert_Some in Hy as [[<- <-]|[Hne Hy]]; [congruence|].
    by apply (i_null _ _ Hi y).
  - intros y o' Hy Hn. apply lookup_insert_Some in Hy as [[<- <-]|[Hne Hy]].
    + exists c. split; [done|]. rewrite refs_insert by done. rewrite ref1_same, refs_zero by done. done.
    + destruct (i_cnt _ _ Hi y o' Hy Hn) as (c' & E1 & E2). exists c'. split; [done|].
      rewrite refs_insert by done. rewrite ref1_other; [done|]. rewrite Hc. intros [= ->]. by eapply Hf.
  - intros y z o1 o2 Hy Hz He Hn.
    apply lookup_insert_Some in Hy as [[<- <-]|[Hne Hy]]; apply lookup_insert_Some in Hz as [[<- <-]|[Hne' Hz]].
    + done.
    + rewrite Hc in He. by eapply Hf in Hz.
    + rewrite Hc in He. by eapply Hf in Hy.
    + by eapply (i_same _ _ Hi y z).
  - intros y z o1 o2 b Hy Hz H1 H2.
    apply lookup_insert_Some in Hy as [[<- <-]|[Hne Hy]]; apply lookup_insert_Some in Hz as [[<- <-]|[Hne' Hz]].
    + done.
    + destruct (Hb _ H1) as [_ []]. by exists z, o2.
    + destruct (Hb _ H2) as [_ []]. by exists y, o1.
    + by eapply (i_diff _ _ Hi y z).
  - intros y o' b Hy H1. apply lookup_insert_Some in Hy as [[<- <-]|[Hne Hy]].
    + apply (Hb _ H1).
    + by eapply (i_buf _ _ Hi y).
  - intros y o' Hy. apply lookup_insert_Some in Hy as [[<- <-]|[Hne Hy]]; [done|].
    by eapply (i_dist _ _ Hi y).
  - intros c'. rewrite refs_insert by done. pose proof (i_max _ _ Hi c') as Hm. unfold ref1.
    case_decide as Hd'; [|lia]. rewrite Hc in Hd'. injection Hd' as <-. rewrite refs_zero by done. done.
Qed.

(** Adding an object with nothing. *)
Lemma inv_nothing V s x o : inv V s -> V !! x = None -> o_count o = HNull ->
  Forall (eq HNull) (o_bufs o) -> inv (<[x := o]> V) s.
Proof.
  intros Hi Hx Hc Hf. rewrite Forall_forall in Hf.
  assert (forall b, HPtr b ∉ o_bufs o) as Hb by (intros b Hb; by specialize (Hf _ Hb)).
  split.
  - apply (i_wf _ _ Hi).
  - intros y o' Hy Hn. apply lookup_insert_Some in Hy as [[<- <-]|[Hne Hy]]; [by apply Forall_forall|].
    by apply (i_null _ _ Hi y).
  - intros y o' Hy Hn. apply lookup_insert_Some in Hy as [[<- <-]|[Hne Hy]]; [done|].
    destruct (i_cnt _ _ Hi y o' Hy Hn) as (c' & E1 & E2). exists c'. split; [done|].
    rewrite refs_insert by done. rewrite ref1_other; [done|]. by rewrite Hc.
  - intros y z o1 o2 Hy Hz He Hn.
    apply lookup_insert_Some in Hy as [[<- <-]|[Hne Hy]]; apply lookup_insert_Some in Hz as [[<- <-]|[Hne' Hz]];
      try congruence.
    by eapply (i_same _ _ Hi y z).
  - intros y z o1 o2 b Hy Hz H1 H2.
    apply lookup_insert_Some in Hy as [[<- <-]|[Hne Hy]]; [by apply Hb in H1|].
    apply lookup_insert_Some in Hz as [[<- <-]|[Hne' Hz]]; [by apply Hb in H2|].
    by eapply (i_diff _ _ Hi y z).
  - intros y o' b Hy H1. apply lookup_insert_Some in Hy as [[<- <-]|[Hne Hy]]; [by apply Hb in H1|].
    by eapply (i_buf _ _ Hi y).
  - intros y o' Hy. apply lookup_insert_Some in Hy as [[<- <-]|[Hne Hy]].
    + split; [|intros H; by specialize (Hf _ H)]. intros i j b H. apply elem_of_list_lookup_2 in H. by apply Hb in H.
    + by eapply (i_dist _ _ Hi y).
  - intros c. rewrite refs_insert by done. rewrite ref1_other by (by rewrite Hc). apply (i_max _ _ Hi).
Qed.

(** Adding a second reference. *)
Lemma inv_share V s s' x y o o' c : inv V s -> V !! x = None -> V !! y = Some o ->
  o_count o = HPtr c -> o_count o' = HPtr c -> o_bufs o' = o_bufs o ->
  heap s' = <[c := Blk CNT (CInts [Z.of_nat (refs V c) + 1])]> (heap s) -> wf s' ->
  Z.of_nat (refs V c) < INT_MAX ->
  inv (<[x := o']> V) s'.
Proof.
  intros Hi Hx Hy Hc Hc' Hb Hh Hw Hlt.
  assert (o_count o <> HNull) as Hn by congruence.
  assert (forall z o1, <[x := o']> V !! z = Some o1 -> exists z' o2, V !! z' = Some o2 /\
    o_count o1 = o_count o2 /\ o_bufs o1 = o_bufs o2) as Hold.
  { intros z o1 Hz. apply lookup_insert_Some in Hz as [[<- <-]|[Hne Hz]].
    - exists y, o. rewrite Hc, Hc', Hb. done.
    - by exists z, o1. }
  assert (forall b z o1, V !! z = Some o1 -> HPtr b ∈ o_bufs o1 -> b <> c) as Hbc.
  { intros b z o1 Hz H ->. destruct (i_buf _ _ Hi z o1 c Hz H) as (? & E1).
    destruct (i_cnt _ _ Hi y o Hy Hn) as (c2 & E2 & E3).
    assert (c2 = c) as -> by congruence. rewrite E1 in E3. discriminate. }
  split; [done| | | | | | |].
  - intros z o1 Hz. destruct (Hold z o1 Hz) as (z' & o2 & Hz' & -> & ->). by apply (i_null _ _ Hi z').
  - intros z o1 Hz Hn1. destruct (Hold z o1 Hz) as (z' & o2 & Hz' & E1 & E2). rewrite E1 in *.
    destruct (i_cnt _ _ Hi z' o2 Hz' Hn1) as (c2 & E3 & E4). exists c2. split; [done|].
    rewrite refs_insert by done. rewrite Hh. destruct (decide (c2 = c)) as [->|Hne].
    + rewrite lookup_insert. rewrite ref1_same by done. do 4 f_equal. lia.
    + rewrite lookup_insert_ne by done. rewrite ref1_other by congruence. done.
  - intros z w o1 o2 Hz Hw1. destruct (Hold z o1 Hz) as (z' & o3 & Hz' & -> & ->).
    destruct (Hold w o2 Hw1) as (w' & o4 & Hw' & -> & ->). by apply (i_same _ _ Hi z' w').
  - intros z w o1 o2 b Hz Hw1. destruct (Hold z o1 Hz) as (z' & o3 & Hz' & -> & ->).
    destruct (Hold w o2 Hw1) as (w' & o4 & Hw' & -> & ->). by apply (i_diff _ _ Hi z' w').
  - intros z o1 b Hz. destruct (Hold z o1 Hz) as (z' & o3 & Hz' & _ & ->). intros H.
    rewrite Hh, lookup_insert_ne by (intros <-; by eapply Hbc). by eapply (i_buf _ _ Hi z').
  - intros z o1 Hz. destruct (Hold z o1 Hz) as (z' & o3 & Hz' & _ & ->). by eapply (i_dist _ _ Hi z').
  - intros c'. rewrite refs_insert by done. pose proof (i_max _ _ Hi c') as Hm. unfold ref1.
    case_decide as Hd'; [|lia]. assert (c' = c) as -> by congruence. lia.
Qed.

(** Renaming an object. *)
Lemma inv_rename V s x y o : inv V s -> V !! x = None -> V !! y = Some o ->
  inv (<[x := o]> (delete y V)) s.
Proof.
  intros Hi Hx Hy.
  assert (x <> y) as Hxy by congruence.
  assert (forall z o1, <[x := o]> (delete y V) !! z = Some o1 -> exists z', V !! z' = Some o1) as Hold.
  { intros z o1 Hz. apply lookup_insert_Some in Hz as [[<- <-]|[Hne Hz]]; [eauto|].
    apply lookup_delete_Some in Hz as [_ Hz]. eauto. }
  split.
  - apply (i_wf _ _ Hi).
  - intros z o1 Hz. destruct (Hold _ _ Hz) as (z' & Hz'). by apply (i_null _ _ Hi z').
  - intros z o1 Hz. destruct (Hold _ _ Hz) as (z' & Hz'). intros Hn.
    destruct (i_cnt _ _ Hi z' o1 Hz' Hn) as (c & E1 & E2). exists c. split; [done|].
    rewrite refs_insert by (by rewrite lookup_delete_ne by done). rewrite E2.
    by rewrite (refs_delete V y o).
  - intros z w o1 o2 Hz Hw. destruct (Hold _ _ Hz) as (z' & Hz'). destruct (Hold _ _ Hw) as (w' & Hw').
    by apply (i_same _ _ Hi z' w').
  - intros z w o1 o2 b Hz Hw. destruct (Hold _ _ Hz) as (z' & Hz'). destruct (Hold _ _ Hw) as (w' & Hw').
    by apply (i_diff _ _ Hi z' w').
  - intros z o1 b Hz. destruct (Hold _ _ Hz) as (z' & Hz'). by apply (i_buf _ _ Hi z').
  - intros z o1 Hz. destruct (Hold _ _ Hz) as (z' & Hz'). by apply (i_dist _ _ Hi z').
  - intros c. rewrite refs_insert by (by rewrite lookup_delete_ne by done).
    rewrite <- (refs_delete V y o) by done. apply (i_max _ _ Hi).
Qed.

(** ** Running the primitives *)
Definition upd (h : gmap nat block) (s : st) : st := St h (ctr s) (rpos s).

Lemma get_count_run c n E s : heap s !! c = Some (Blk CNT (CInts [n])) ->
  get_count (HPtr c) E s = Done n s.
Proof. intros H. unfold get_count, get_ints, deref, bind. rewrite H. done. Qed.
Lemma add_count_run c n d E s : heap s !! c = Some (Blk CNT (CInts [n])) ->
  INT_MIN <= n + d <= INT_MAX ->
  add_count (HPtr c) d E s = Done tt (upd (<[c := Blk CNT (CInts [n + d])]> (heap s)) s).
Proof.
  intros H Hr. unfold add_count, bind. rewrite (get_count_run c n) by done.
  unfold ck32, check, bind. replace ((INT_MIN <=? n + d) && (n + d <=? INT_MAX)) with true by lia.
  unfold ret, set_content, deref, bind. rewrite H. done.
Qed.
Lemma new_run tag n (c : Z -> content) E s :
  (alloc_tag tag n c E s = Done (HPtr (ctr s)) (St (<[ctr s := Blk tag (c n)]> (heap s)) (S (ctr s)) (rpos s))) \/
  (~ (alloc_all E /\ n <= PTRDIFF_MAX) /\ exists s', alloc_tag tag n c E s = Done HNull s').
Proof.
  unfold alloc_tag. destruct (n <=? PTRDIFF_MAX) eqn:H1; cbn [andb].
  - destruct (e_alloc_ok E tag (ctr s) n) eqn:H2; [by left|]. right. split; [|eauto].
    intros [Ha _]. rewrite Ha in H2. done.
  - right. split; [lia|eauto].
Qed.
Lemma delete_all_run l E s : distinct l -> HUndef ∉ l ->
  (forall b, HPtr b ∈ l -> exists c, heap s !! b = Some (Blk ARR c)) ->
  exists h', delete_all l E s = Done tt (upd h' s) /\
    (forall b, HPtr b ∈ l -> h' !! b = None) /\ (forall b, HPtr b ∉ l -> h' !! b = heap s !! b).
Proof.
  revert s. induction l as [|p l IH]; intros s Hd Hu Hb.
  { exists (heap s). split; [by destruct s|]. split; [intros b H; by apply elem_of_nil in H|done]. }
  apply not_elem_of_cons in Hu as [Hu1 Hu].
  assert (distinct l) as Hd'.
  { intros i j b H1 H2. specialize (Hd (S i) (S j) b H1 H2). lia. }
  cbn [delete_all]. unfold bind. destruct p as [|b0|]; [| |done].
  - cbn [free_tag]. destruct (IH s Hd' Hu) as (h' & E1 & E2 & E3).
    { intros b H. apply Hb. by right. }
    exists h'. split; [done|]. split.
    + intros b H. apply elem_of_cons in H as [H|H]; [done|]. by apply E2.
    + intros b H. apply not_elem_of_cons in H as [_ H]. by apply E3.
  - destruct (Hb b0) as (c0 & Hc0); [by left|]. cbn [free_tag]. rewrite Hc0. cbn [b_tag].
    rewrite bool_decide_true by done.
    assert (HPtr b0 ∉ l) as Hn.
    { intros H. apply elem_of_list_lookup in H as [j Hj]. specialize (Hd 0%nat (S j) b0 eq_refl Hj). lia. }
    destruct (IH (St (delete b0 (heap s)) (ctr s) (rpos s)) Hd' Hu) as (h' & E1 & E2 & E3).
    { intros b H. cbn [heap]. rewrite lookup_delete_ne by (intros ->; done). apply Hb. by right. }
    cbn [heap] in *. exists h'. split; [done|]. split.
    + intros b H. destruct (decide (HPtr b ∈ l)) as [Hi|Hi]; [by apply E2|]. rewrite E3 by done.
      apply elem_of_cons in H as [[= ->]|H]; [|done]. by rewrite lookup_delete.
    + intros b H. apply not_elem_of_cons in H as [H1 H]. rewrite E3 by done.
      rewrite lookup_delete_ne by congruence. done.
Qed.
