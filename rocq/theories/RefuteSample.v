(** * RefuteSample: where the auto-test objects break their promise *)
From stdpp Require Import gmap list.
From Coq Require Import ZArith Lia ZifyBool ZifyNat.
From Verif Require Import Base Mem Spec Logic ModelCore ModelSample SpecSample ProofCore ProofCore2
  ProofSample ProofSample2 ProofSample3 ProofSample4 ProofSample5.
Open Scope Z_scope.

Lemma delete_all_dead l E s b : HUndef ∉ l -> HPtr b ∈ l -> (forall b, HPtr b ∈ l -> heap s !! b = None) ->
  delete_all l E s = UB UB_free.
Proof.
  induction l as [|p l IH]; intros Hu Hb Hd; [by apply elem_of_nil in Hb|].
  apply not_elem_of_cons in Hu as [Hu1 Hu]. cbn [delete_all]. unfold bind.
  destruct p as [|b0|]; [| |done].
  - cbn [free_tag]. apply IH; [done| |].
    + apply elem_of_cons in Hb as [Hb|Hb]; done.
    + intros b' H. apply Hd. by right.
  - cbn [free_tag]. rewrite Hd by (by left). done.
Qed.
(** The destructor of the last owner of a buffer that is gone. *)
Lemma dtor_dead o c b E s : HUndef ∉ o_bufs o -> HPtr b ∈ o_bufs o -> distinct (o_bufs o) ->
  o_count o = HPtr c -> heap s !! c = Some (Blk CNT (CInts [1])) ->
  (forall b', HPtr b' ∈ o_bufs o -> b' <> b -> exists x, heap s !! b' = Some (Blk ARR x)) ->
  heap s !! b = None -> dtor o E s = UB UB_free.
Proof.
  intros Hu Hb Hdi Hc Hh Hl Hd. unfold dtor. rewrite Hc. cbn [is_null]. unfold bind.
  rewrite (add_count_run c 1 (-1) E s Hh) by done.
  rewrite (get_count_run c 0) by (cbn [heap upd]; by rewrite lookup_insert).
  change (0 =? 0) with true. cbv match. unfold bind.
  set (s1 := upd _ s).
  assert (b <> c) as Hbc by congruence.
  assert (heap s1 !! b = None) as Hd1 by (cbn [s1 heap upd]; by rewrite lookup_insert_ne).
  assert (forall b', HPtr b' ∈ o_bufs o -> b' <> b -> exists x, heap s1 !! b' = Some (Blk ARR x)) as Hl1.
  { intros b' H1 H2. destruct (Hl b' H1 H2) as (x & Hx). exists x. cbn [s1 heap upd].
    rewrite lookup_insert_ne; [done|]. intros <-. rewrite Hh in Hx. discriminate. }
  clear Hl Hd. clearbody s1. clear Hh.
  assert (delete_all (o_bufs o) E s1 = UB UB_free) as ->; [|done].
  clear Hc. revert s1 Hd1 Hl1. induction (o_bufs o) as [|p l IH]; intros s1 Hd1 Hl1; [by apply elem_of_nil in Hb|].
  apply not_elem_of_cons in Hu as [Hu1 Hu].
  assert (distinct l) as Hdi'.
  { intros i j b' H1 H2. specialize (Hdi (S i) (S j) b' H1 H2). lia. }
  cbn [delete_all]. unfold bind. destruct p as [|b0|]; [| |done].
  - cbn [free_tag]. apply IH; [done| |done|done|].
    + by apply elem_of_cons in Hb as [Hb|Hb].
    + intros b' H. apply Hl1. by right.
  - cbn [free_tag]. destruct (decide (b0 = b)) as [->|Hne]; [by rewrite Hd1|].
    destruct (Hl1 b0) as (x & Hx); [by left|done|]. rewrite Hx. cbn [b_tag]. rewrite bool_decide_true by done.
    apply IH; [done| |done| |].
    + apply elem_of_cons in Hb as [[= <-]|Hb]; done.
    + cbn [heap]. by rewrite lookup_delete_ne.
    + intros b' H1 H2. cbn [heap]. rewrite lookup_delete_ne.
      * apply Hl1; [by right|done].
      * intros <-. apply elem_of_list_lookup in H1 as [j Hj]. specialize (Hdi 0%nat (S j) b0 eq_refl Hj). lia.
Qed.

(** x = x frees the buffers that x goes on using. *)
Lemma self_assign E V s x o b : reach E V s -> V !! x = Some o -> ~ shared V x -> HPtr b ∈ o_bufs o ->
  exists s', step (Assign x x) V E s = Done V s' /\ owner V x b /\ heap s' !! b = None /\
    step (Destroy x) V E s' = UB UB_free.
Proof.
  intros Hre Hx Hs Hb. pose proof (reach_inv _ _ _ Hre) as Hi.
  destruct (owner_count V s x o b Hi Hx Hb) as (c & Hc & Hh).
  pose proof (refs_one V x o c Hx Hc Hs) as H1.
  assert (refs (delete x V) c = 0%nat) as H0.
  { rewrite (refs_delete V x o) in H1 by done. rewrite ref1_same in H1 by done. lia. }
  destruct (drop_run V s x o c E Hi Hx Hc) as (s1 & Hrun & [D1 D2 D3 D4 D5 D6]).
  rewrite H0 in D2. change (Z.of_nat 0) with 0 in D2.
  assert (forall b', HPtr b' ∈ o_bufs o -> heap s1 !! b' = None) as Hdead.
  { intros b' Hb'. destruct (D3 b') as [[H _]|[_ H]]; [by exists x, o| |done].
    exfalso. revert H. by eapply unshared_own. }
  exists (upd (<[c := Blk CNT (CInts [1])]> (heap s1)) s1).
  split_and!.
  - cbn [step]. unfold the, bind. rewrite Hx. cbn [opt ret]. rewrite assign_alt. unfold bind. rewrite Hrun, Hc.
    rewrite (add_count_run c 0 1 E s1 D2) by done. cbn [ret].
    rewrite <- Hc. destruct o as [k m bs cn]. cbn. by rewrite insert_id.
  - by exists o.
  - cbn [heap upd]. rewrite lookup_insert_ne; [by apply Hdead|]. intros ->. apply Hdead in Hb. congruence.
  - cbn [step]. unfold the, bind. rewrite Hx. cbn [opt ret].
    set (s2 := upd _ s1).
    assert (forall b', HPtr b' ∈ o_bufs o -> heap s2 !! b' = None) as Hdead2.
    { intros b' Hb'. cbn [s2 heap upd]. rewrite lookup_insert_ne; [by apply Hdead|]. intros <-. apply Hdead in Hb'. congruence. }
    destruct (i_dist _ _ Hi x o Hx) as [Hdi Hu].
    assert (dtor o E s2 = UB UB_free) as ->; [|done].
    unfold dtor. rewrite Hc. cbn [is_null]. unfold bind.
    rewrite (add_count_run c 1 (-1) E s2) by (try done; cbn [s2 heap upd]; by rewrite lookup_insert).
    rewrite (get_count_run c 0) by (cbn [heap upd]; by rewrite lookup_insert).
    change (0 =? 0) with true. cbv match. unfold bind. rewrite (delete_all_dead _ E _ b); [done|done|done|].
    intros b' Hb'. cbn [heap upd]. rewrite lookup_insert_ne; [by apply Hdead2|]. intros <-.
    apply Hdead in Hb'. congruence.
Qed.

(** A moved-from object can neither be copied nor be on either side of an
    assignment. *)
Lemma moved_from E V s y o : V !! y = Some o -> o_count o = HNull ->
  (forall x, step (Copy x y) V E s = UB UB_null) /\
  (forall z a, V !! z = Some a -> step (Assign y z) V E s = UB UB_null) /\
  (forall x, reach E V s -> alive V x -> step (Assign x y) V E s = UB UB_null).
Proof.
  intros Hy Hc. split_and!.
  - intros x. cbn [step]. unfold the, bind. rewrite Hy. cbn [opt ret]. unfold ctor_copy, bind. by rewrite Hc.
  - intros z a Hz. cbn [step]. unfold the, bind. rewrite Hy, Hz. cbn [opt ret]. unfold assign, bind. by rewrite Hc.
  - intros x Hre (a & Hx & Hn). pose proof (reach_inv _ _ _ Hre) as Hi.
    destruct (i_cnt _ _ Hi x a Hx Hn) as (c & Ec & _).
    destruct (drop_run V s x a c E Hi Hx Ec) as (s1 & Hrun & _).
    cbn [step]. unfold the, bind. rewrite Hx, Hy. cbn [opt ret]. rewrite assign_alt. unfold bind. rewrite Hrun.
    by rewrite Hc.
Qed.
Lemma move_then_copy E V s x y z o : V !! y = Some o -> V !! x = None ->
  steps [Move x y; Copy z y] V E s = UB UB_null.
Proof.
  intros Hy Hx. assert (x <> y) as Hne by congruence. cbn [steps]. unfold bind at 1. cbn [step]. unfold the, bind.
  rewrite Hy. cbn [opt ret ctor_move steps step]. unfold the. rewrite lookup_insert_ne by done. rewrite lookup_insert.
  cbn [opt ret]. unfold ctor_copy, bind. done.
Qed.

(** Assigning to the last owner of a counter loses the counter cell for ever. *)
Lemma assign_leaks E V s x y o c : reach E V s -> legal (Assign x y) V (heap s) -> V !! x = Some o ->
  o_count o = HPtr c -> ~ shared V x ->
  exists V' s', step (Assign x y) V E s = Done V' s' /\ heap s' !! c = Some (Blk CNT (CInts [0])) /\
    forall z oz, V' !! z = Some oz -> o_count oz <> HPtr c.
Proof.
  intros Hre ((a0 & Hx0 & Hna) & (b0 & Hy0 & Hnb) & Hxy & Hsz & (a & b & Hx1 & Hy & _ & _)) Hx Hc Hs.
  assert (a0 = o) as -> by congruence. assert (a = o) as -> by congruence. assert (b0 = b) as -> by congruence.
  destruct Hxy as [Hxy|Hxy]; [|done].
  pose proof (reach_inv _ _ _ Hre) as Hi.
  pose proof (refs_one V x o c Hx Hc Hs) as H1.
  assert (refs (delete x V) c = 0%nat) as H0.
  { rewrite (refs_delete V x o) in H1 by done. rewrite ref1_same in H1 by done. lia. }
  destruct (drop_run V s x o c E Hi Hx Hc) as (s1 & Hrun & [D1 D2 D3 D4 D5 D6]).
  rewrite H0 in D2. change (Z.of_nat 0) with 0 in D2.
  assert (delete x V !! y = Some b) as Hyd by (by rewrite lookup_delete_ne).
  destruct (i_cnt _ _ D1 y b Hyd Hnb) as (c' & Ec' & Ehc').
  assert (Z.of_nat (refs (delete x V) c') < INT_MAX) as Hlt.
  { pose proof (refs_le (delete x V) c') as Hle. rewrite map_size_delete_Some in Hle by eauto.
    assert (size V <> 0%nat); [|lia]. intros Hz. apply map_size_empty_inv in Hz. subst V. by rewrite lookup_empty in Hx. }
  assert (c' <> c) as Hcc.
  { intros ->. pose proof (refs_pos _ y b c Hyd Ec'). lia. }
  eexists _, _. split_and!.
  - cbn [step]. unfold the, bind. rewrite Hx, Hy. cbn [opt ret]. rewrite assign_alt. unfold bind. rewrite Hrun, Ec'.
    rewrite (add_count_run c' _ 1 E s1 Ehc') by (unfold INT_MIN, INT_MAX in *; lia). done.
  - cbn [heap upd]. by rewrite lookup_insert_ne.
  - intros z oz Hz. apply lookup_insert_Some in Hz as [[<- <-]|[Hne Hz]].
    + cbn. congruence.
    + intros Hcz. assert (delete x V !! z = Some oz) as Hzd by (by rewrite lookup_delete_ne).
      pose proof (refs_pos _ z oz c Hzd Hcz). lia.
Qed.

(** Destroying the last Result of a group loses its counter cell. *)
Lemma result_leaks E V s x o c : reach E V s -> V !! x = Some o -> o_class o = Result ->
  o_count o = HPtr c -> ~ shared V x ->
  exists s', step (Destroy x) V E s = Done (delete x V) s' /\ heap s' !! c = Some (Blk CNT (CInts [0])) /\
    forall z oz, delete x V !! z = Some oz -> o_count oz <> HPtr c.
Proof.
  intros Hre Hx Hk Hc Hs. pose proof (reach_inv _ _ _ Hre) as Hi.
  pose proof (refs_one V x o c Hx Hc Hs) as H1.
  assert (refs (delete x V) c = 0%nat) as H0.
  { rewrite (refs_delete V x o) in H1 by done. rewrite ref1_same in H1 by done. lia. }
  destruct (drop_run V s x o c E Hi Hx Hc) as (s1 & Hrun & [D1 D2 D3 D4 D5 D6]).
  rewrite H0 in *. change (Z.of_nat 0) with 0 in *. exists s1. split_and!; [|done|].
  - cbn [step]. unfold the, bind. rewrite Hx. cbn [opt ret]. rewrite dtor_alt by congruence. unfold bind.
    rewrite Hrun. change (0 =? 0) with true. cbv match. rewrite Hk. done.
  - intros z oz Hz Hcz. pose proof (refs_pos _ z oz c Hz Hcz). lia.
Qed.

(** After INT_MAX references one more copy overflows the counter. *)
Lemma steps_app h1 h2 V E s : steps (h1 ++ h2) V E s =
  match steps h1 V E s with Done V' s' => steps h2 V' E s' | UB u => UB u | Abort => Abort | Diverge => Diverge end.
Proof.
  revert V s. induction h1 as [|op h1 IH]; intros V s; [done|]. cbn [app steps]. unfold bind.
  destruct (step op V E s); [apply IH|done..].
Qed.
Lemma copies_run n E V s o c : V !! 0%nat = Some o -> o_count o = HPtr c ->
  heap s !! c = Some (Blk CNT (CInts [1])) -> Z.of_nat n + 1 <= INT_MAX ->
  exists V' s', steps (copies n) V E s = Done V' s' /\ V' !! 0%nat = Some o /\
    heap s' !! c = Some (Blk CNT (CInts [Z.of_nat n + 1])).
Proof.
  intros Hx Hc Hh. induction n as [|n IH]; intros Hn.
  { exists V, s. done. }
  destruct IH as (V1 & s1 & H1 & H2 & H3); [lia|]. unfold copies. rewrite seq_S, fmap_app, steps_app.
  fold (copies n). rewrite H1. cbn [fmap list_fmap steps step]. unfold the, bind. rewrite H2. cbn [opt ret].
  unfold ctor_copy, bind. rewrite Hc. rewrite (add_count_run c _ 1 E s1 H3) by (unfold INT_MIN in *; lia). cbn [ret].
  eexists _, _. split_and!; [done| |].
  - by rewrite lookup_insert_ne.
  - cbn [heap upd]. rewrite lookup_insert. do 4 f_equal. lia.
Qed.
Lemma copies_overflow_n n E V s o c : V !! 0%nat = Some o -> o_count o = HPtr c ->
  heap s !! c = Some (Blk CNT (CInts [1])) -> Z.of_nat n + 1 = INT_MAX ->
  steps (copies (S n)) V E s = UB UB_overflow.
Proof.
  intros Hx Hc Hh Hn.
  destruct (copies_run n E V s o c Hx Hc Hh) as (V1 & s1 & H1 & H2 & H3); [lia|].
  unfold copies. rewrite seq_S, fmap_app, steps_app. fold (copies n). rewrite H1.
  cbn [fmap list_fmap steps step]. unfold the, bind. rewrite H2. cbn [opt ret].
  unfold ctor_copy, bind. rewrite Hc. unfold add_count, bind. rewrite (get_count_run c _ E s1 H3).
  unfold ck32, check, bind.
  replace ((INT_MIN <=? _) && (_ <=? INT_MAX)) with false by lia. done.
Qed.
Lemma copies_overflow n E V s o c : V !! 0%nat = Some o -> o_count o = HPtr c ->
  heap s !! c = Some (Blk CNT (CInts [1])) -> Z.of_nat n = INT_MAX ->
  steps (copies n) V E s = UB UB_overflow.
Proof.
  intros Hx Hc Hh Hn. destruct n as [|n]; [done|]. eapply copies_overflow_n; [done..|lia].
Qed.
Lemma history_overflow n E s : alloc_all E -> Z.of_nat n = INT_MAX ->
  steps (Default 0 Unary_Input :: copies n) ∅ E s = UB UB_overflow.
Proof.
  intros Ha Hn. cbn [steps]. unfold bind. cbn [step]. unfold ctor_default, bind.
  destruct (new_count_run E s) as [->|[H _]]; [|done]. cbn [ret].
  eapply copies_overflow; [apply lookup_insert|done| |done]. cbn [heap after_alloc]. by rewrite lookup_insert.
Qed.

(** Destroying a tensor made over the data of a sample (sample.h:189-221,
    get_binary_sample) releases the buffer behind the sample's back; with the
    default hooks already that release is undefined, the buffer was made by
    new[]. *)
Lemma destroy_foreign tag p pd pm ps px dt dev dims base E s c :
  NoDup [p; pd; pm; ps; px] -> heap s = header_map tag p pd pm ps px dt dev dims ∪ base ->
  base !! px = Some (Blk ARR c) -> tag = e_dealloc E -> e_dealloc E <> ARR ->
  aitisa_destroy (HPtr p) E s = UB UB_free.
Proof.
  intros Hnd Hh Hpx Htag Harr.
  assert (header_map tag p pd pm ps px dt dev dims ⊆ heap s) as Hsub' by (rewrite Hh; apply map_union_subseteq_l).
  pose proof (header_map_p tag p pd pm ps px dt dev dims) as Hp.
  pose proof (header_map_ps tag p pd pm ps px dt dev dims Hnd) as Hps.
  eapply lookup_weaken in Hp; [|done]. eapply lookup_weaken in Hps; [|done].
  assert (heap s !! px = Some (Blk ARR c)) as Hpx'.
  { rewrite Hh. rewrite lookup_union_r; [done|]. apply eq_None_not_Some. rewrite header_map_dom by done.
    nd5 Hnd. naive_solver. }
  pose proof Hnd as Hnd'. nd5 Hnd'.
  assert (forall s, heap s !! px = Some (Blk ARR c) -> raw_dealloc (HPtr px) E s = UB UB_free) as Hbad.
  { intros s0 Hs0. unfold raw_dealloc, free_tag. rewrite Hs0. cbn [b_tag]. rewrite bool_decide_false by congruence. done. }
  unfold aitisa_destroy. cbn [is_null].
  erewrite bind_done by (by eapply get_timpl_ok). cbn [t_dims t_min2maj t_storage].
  unfold destroy_shape, destroy_layout, destroy_storage.
  destruct dims as [|d0 dims0] eqn:Hdims.
  - cbn [is_null].
    erewrite bind_done; [|erewrite bind_done by done; done].
    unfold bind at 1. erewrite bind_done by (by eapply get_simpl_ok). cbn [s_data is_null].
    unfold bind. rewrite Hbad by done. done.
  - rewrite <-Hdims in *.
    assert (dims <> []) as Hne by (by subst).
    pose proof (header_map_pd tag p pd pm ps px dt dev dims Hnd Hne) as Hpd.
    pose proof (header_map_pm tag p pd pm ps px dt dev dims Hnd Hne) as Hpm.
    eapply lookup_weaken in Hpd; [|done]. eapply lookup_weaken in Hpm; [|done].
    clear Hdims. cbn [is_null].
    erewrite bind_done.
    2:{ erewrite bind_done by (by eapply raw_dealloc_ok).
        eapply raw_dealloc_ok; [cbn; rewrite lookup_delete_ne by done; done|done]. }
    unfold bind at 1. erewrite bind_done.
    2:{ eapply get_simpl_ok. cbn. rewrite !lookup_delete_ne by done. done. }
    cbn [s_data is_null]. unfold bind. rewrite Hbad; [done|]. cbn. rewrite !lookup_delete_ne by done. done.
Qed.
Lemma tensor_over_sample E V s x o b bytes t dev dims len out :
  reach E V s -> V !! x = Some o -> ~ shared V x -> HPtr b ∈ o_bufs o ->
  heap s !! b = Some (Blk ARR (CData bytes)) ->
  alloc_all E -> hooks_ok E -> fits (tsz t) dims -> len / Z.of_nat (tsz t) = prodZ dims ->
  (let* (_, tensor) := aitisa_create (dtype_of t) dev dims (Z.of_nat (length dims)) (HPtr b) len out in
   let* _ := aitisa_destroy tensor in step (Destroy x) V) E s = UB UB_free.
Proof.
  intros Hre Hx Hs Hb Hbytes Ha Hok Hfit Hlen. pose proof (reach_inv _ _ _ Hre) as Hi.
  pose proof (i_wf _ _ Hi) as Hwf. pose proof (tsz_range t) as Ht.
  assert (wp (aitisa_create (dtype_of t) dev dims (Z.of_nat (length dims)) (HPtr b) len out) E s
    (fun r s' => exists p pd pm ps, r = (SUCCESS, HPtr p) /\
       let new := header_map (e_alloc E) p pd pm ps b (dtype_of t) dev dims in
       NoDup [p; pd; pm; ps; b] /\ heap s' = new ∪ heap s /\ new ##ₘ heap s)) as Hw.
  { apply create_data_rule; [done| |by eapply fits_len|eauto|cbn; lia|done| |].
    - eapply fits_prefixes; [|done]. lia.
    - intros s' p pd pm ps new Hnd Hh Hd _ _ _. by exists p, pd, pm, ps.
    - intros s' Hna. by destruct Hna. }
  apply wp_elim in Hw as (r & s1 & Hr & p & pd & pm & ps & -> & Hnd & Hh & Hd).
  unfold bind at 1. rewrite Hr. unfold bind.
  destruct (decide (e_dealloc E = ARR)) as [He|He].
  - assert (aitisa_destroy (HPtr p) E s1 = Done (SUCCESS, HNull) (St (delete b (heap s)) (ctr s1) (rpos s1))) as ->.
    { eapply (destroy_rule (e_alloc E) p pd pm ps b (dtype_of t) dev dims bytes); [done| | |by symmetry].
      - unfold tensor_map. rewrite <- insert_union_l. rewrite Hh.
        assert (e_alloc E = ARR) as -> by (unfold hooks_ok in Hok; congruence). apply map_eq. intros k. destruct (decide (k = b)) as [->|Hne].
        + rewrite lookup_insert. rewrite lookup_union_r; [done|]. apply eq_None_not_Some. rewrite header_map_dom.
          nd5 Hnd. naive_solver.
        + rewrite lookup_insert_ne by done. rewrite !lookup_union. by rewrite lookup_delete_ne.
      - unfold tensor_map. apply map_disjoint_insert_l_2; [apply lookup_delete|].
        by apply map_disjoint_delete_r. }
    cbn [step]. unfold the, bind. rewrite Hx. cbn [opt ret].
    destruct (i_dist _ _ Hi x o Hx) as [Hdi Hu].
    destruct (owner_count V s x o b Hi Hx Hb) as (c & Hc & Hhc).
    rewrite (refs_one V x o c Hx Hc Hs) in Hhc.
    rewrite (dtor_dead o c b); [done|done|done|done|done| | |]; cbn [heap].
    + rewrite lookup_delete_ne; [done|]. intros ->. rewrite Hbytes in Hhc. discriminate.
    + intros b' H1 H2. rewrite lookup_delete_ne by done. by eapply (i_buf _ _ Hi x).
    + apply lookup_delete.
  - rewrite (destroy_foreign (e_alloc E) p pd pm ps b (dtype_of t) dev dims (heap s) E s1 (CData bytes)); try done.
Qed.

(** With hooks that are not new[]/delete[], whatever the sharing. *)
Lemma tensor_over_sample_hooks E V s b bytes t dev dims len out :
  reach E V s -> owned V b -> heap s !! b = Some (Blk ARR (CData bytes)) ->
  alloc_all E -> hooks_ok E -> e_dealloc E <> ARR -> fits (tsz t) dims -> len / Z.of_nat (tsz t) = prodZ dims ->
  (let* (_, tensor) := aitisa_create (dtype_of t) dev dims (Z.of_nat (length dims)) (HPtr b) len out in
   aitisa_destroy tensor) E s = UB UB_free.
Proof.
  intros Hre _ Hbytes Ha Hok He Hfit Hlen. pose proof (reach_inv _ _ _ Hre) as Hi.
  pose proof (i_wf _ _ Hi) as Hwf. pose proof (tsz_range t) as Ht.
  assert (wp (aitisa_create (dtype_of t) dev dims (Z.of_nat (length dims)) (HPtr b) len out) E s
    (fun r s' => exists p pd pm ps, r = (SUCCESS, HPtr p) /\
       let new := header_map (e_alloc E) p pd pm ps b (dtype_of t) dev dims in
       NoDup [p; pd; pm; ps; b] /\ heap s' = new ∪ heap s /\ new ##ₘ heap s)) as Hw.
  { apply create_data_rule; [done| |by eapply fits_len|eauto|cbn; lia|done| |].
    - eapply fits_prefixes; [|done]. lia.
    - intros s' p pd pm ps new Hnd Hh Hd _ _ _. by exists p, pd, pm, ps.
    - intros s' Hna. by destruct Hna. }
  apply wp_elim in Hw as (r & s1 & Hr & p & pd & pm & ps & -> & Hnd & Hh & Hd).
  unfold bind at 1. rewrite Hr.
  rewrite (destroy_foreign (e_alloc E) p pd pm ps b (dtype_of t) dev dims (heap s) E s1 (CData bytes)); done.
Qed.

(** set_data over a buffer that an object alone owns: nobody owns the old
    buffer any more, and it is still there. *)
Lemma set_data_leaks E V s x o i b p m : reach E V s -> V !! x = Some o -> ~ shared V x ->
  o_bufs o !! i = Some (HPtr b) -> p <> HPtr b ->
  exists V' c, step (SetData x i p m) V E s = Done V' s /\ heap s !! b = Some (Blk ARR c) /\ ~ owned V' b.
Proof.
  intros Hre Hx Hs Hb Hp. pose proof (reach_inv _ _ _ Hre) as Hi.
  assert (HPtr b ∈ o_bufs o) as Hin by (by eapply elem_of_list_lookup_2).
  destruct (i_buf _ _ Hi x o b Hx Hin) as [c Hc].
  eexists _, c. split_and!; [cbn [step]; unfold the, bind; rewrite Hx; done|done|].
  intros (y & o' & Hy & Ho'). apply lookup_insert_Some in Hy as [[<- <-]|[Hne Hy]].
  - cbn [set_data o_bufs] in Ho'. apply elem_of_list_lookup in Ho' as [j Hj].
    destruct (decide (i = j)) as [->|Hij].
    + rewrite list_lookup_insert in Hj by (by eapply lookup_lt_Some). congruence.
    + rewrite list_lookup_insert_ne in Hj by done. apply Hij. by eapply (i_dist _ _ Hi x o Hx).
  - eapply (unshared_own V s x o b); [done..|]. exists y, o'. split; [by rewrite lookup_delete_ne|done].
Qed.
