(** * ProofCore2: creation over a caller's buffer, destroy, resolve, set_item *)
From stdpp Require Import gmap list.
From Coq Require Import ZArith Lia.
From Coq Require Import ZifyBool ZifyNat.
From Verif Require Import Base Mem Spec ModelCore Logic ProofCore.
Open Scope Z_scope.

Ltac Zify.zify_post_hook ::= Z.div_mod_to_equations.

(** ** Creation over a caller's buffer *)
Lemma create_data_rule dt dev dims b len o E s (Q : status * hval -> st -> Prop) :
  wf s -> prefixes_fit dims -> Z.of_nat (length dims) <= INT_MAX ->
  is_Some (heap s !! b) -> d_size dt <> 0 -> len / d_size dt = prodZ dims ->
  (forall s' p pd pm ps,
     let new := header_map (e_alloc E) p pd pm ps b dt dev dims in
     NoDup [p; pd; pm; ps; b] -> heap s' = new ∪ heap s -> new ##ₘ heap s ->
     (forall c, is_Some (new !! c) -> (ctr s <= c < ctr s')%nat) ->
     (ctr s <= ctr s')%nat -> rpos s' = rpos s -> Q (SUCCESS, HPtr p) s') ->
  (forall s', ~ alloc_all E -> keeps s s' -> rpos s' = rpos s -> Q (ALLOC_FAILED, o) s') ->
  wp (aitisa_create dt dev dims (Z.of_nat (length dims)) (HPtr b) len o) E s Q.
Proof.
  intros Hwf Hpre Hlen Hbb Hds Hl HQ HF. unfold aitisa_create.
  pose proof (Hwf _ Hbb) as Hblt.
  assert (forall b, (ctr s <= b)%nat -> heap s !! b = None) as Hf0 by (intros; by apply wf_fresh).
  destruct (raw_alloc_cases 56 CRaw E s ltac:(llia)) as [Ha|[Hna Ha]];
    (eapply wp_step; [exact Ha|]); cbn [is_null].
  2:{ apply wp_ret. apply HF; [done|by apply keeps_fail|done]. }
  set (s1 := st_alloc s _).
  assert (wf s1) as Hwf1 by by apply wf_alloc.
  assert (keeps s s1) as Hk1 by by apply keeps_alloc.
  eapply wp_step; [by apply size_of_dims_ok|].
  eapply wp_step.
  { erewrite bind_done by (apply check_ok; lia). rewrite Hl, Z.eqb_refl. done. }
  cbn [negb]. cbv beta match.
  apply wp_bind. unfold create_shape.
  destruct dims as [|d0 dims0] eqn:Hdims.
  - (* rank 0 *)
    cbn [length Z.of_nat]. simpl (0 =? 0). cbv beta match. simpl negb. simpl andb. cbv beta match.
    eapply wp_step; [done|]. cbv beta match.
    eapply wp_step; [done|]. cbn [fill_ints].
    eapply wp_step; [done|].
    eapply wp_step; [done|]. apply wp_ret. simpl bool_decide. simpl negb. cbv beta match.
    unfold create_storage. apply wp_bind.
    destruct (raw_alloc_cases 32 CRaw E s1 ltac:(llia)) as [Hb|[Hna Hb]];
      (eapply wp_step; [exact Hb|]); cbn [is_null].
    2:{ apply wp_ret. simpl negb. cbv beta match. apply wp_ret. apply HF; [done| |done].
        eapply keeps_trans; [done|]. by apply keeps_fail. }
    set (s2 := st_alloc s1 _).
    eapply wp_step; [done|]. cbn [is_null].
    eapply wp_step.
    { eapply set_content_ok. cbn. rewrite lookup_insert by lia. done. }
    apply wp_ret. simpl negb. cbv beta match.
    eapply wp_step.
    { eapply set_content_ok. cbn.
      rewrite lookup_insert_ne, lookup_insert_ne, lookup_insert by lia. done. }
    apply wp_ret.
    eapply (HQ _ (ctr s) (S (S (S (ctr s)))) (S (S (S (S (ctr s))))) (S (ctr s))).
    + rewrite !NoDup_cons, !elem_of_cons. 
      split_and!; try apply NoDup_nil_2; rewrite ?elem_of_nil; lia.
    + cbn. apply map_eq. intros c. unfold header_map.
      rewrite <-!insert_union_l, (left_id_L ∅ (∪)).
      destruct (decide (c = ctr s)) as [->|]; [by lkup|].
      destruct (decide (c = S (ctr s))) as [->|]; [by lkup|].
      rewrite !lookup_insert_ne by lia. done.
    + apply map_disjoint_spec. intros c x y Hx Hy.
      assert (is_Some (header_map (e_alloc E) (ctr s) (S (S (S (ctr s)))) (S (S (S (S (ctr s)))))
        (S (ctr s)) b dt dev [] !! c)) as Hc by eauto.
      apply header_map_dom in Hc. rewrite Hf0 in Hy by naive_solver. done.
    + intros c Hc. apply header_map_dom in Hc. cbn. naive_solver lia.
    + cbn. lia.
    + done.
  - rewrite <-Hdims in *.
    assert (dims <> []) as Hne by (by subst).
    assert (0 < Z.of_nat (length dims)) as Hpos by (subst; cbn; lia).
    clear Hdims d0 dims0.
    replace (Z.of_nat (length dims) =? 0) with false by lia. simpl negb. 
    destruct (raw_alloc_cases (8 * Z.of_nat (length dims)) (fun _ => CInts []) E s1 ltac:(llia))
      as [Hd|[Hna Hd]]; (eapply wp_step; [exact Hd|]); cbn [is_null andb].
    2:{ apply wp_ret. simpl negb. cbv beta match. apply wp_ret. apply HF; [done| |done].
        eapply keeps_trans; [done|]. by apply keeps_fail. }
    set (s2 := st_alloc s1 _).
    assert (wf s2) as Hwf2 by by apply wf_alloc.
    assert (keeps s s2) as Hk2 by (eapply keeps_trans; [done|by apply keeps_alloc]).
    eapply wp_step.
    { apply append_loop. intros k x acc Hx. erewrite bind_done by (by apply aget_nat). done. }
    eapply wp_step.
    { eapply fill_ints_ok; [|done|].
      - cbn. rewrite lookup_insert. done.
      - rewrite to_size_id; llia. }
    set (s3 := upd s2 _ _).
    assert (wf s3) as Hwf3.
    { apply wf_upd; [done|]. cbn. rewrite lookup_insert. eauto. }
    assert (keeps s s3) as Hk3.
    { apply keeps_upd; [done|done|cbn; lia|]. cbn. rewrite lookup_insert. eauto. }
    unfold create_default_layout. cbn [negb]. rewrite Z.eqb_refl. cbn [negb].
    replace (Z.of_nat (length dims) =? 0) with false by lia. cbn [negb].
    apply wp_bind.
    destruct (raw_alloc_cases (8 * Z.of_nat (length dims)) (fun _ => CInts []) E s3 ltac:(llia))
      as [He|[Hna He]]; (eapply wp_step; [exact He|]); cbn [is_null andb].
    2:{ apply wp_ret. apply wp_ret. simpl negb. cbv beta match. apply wp_ret.
        apply HF; [done| |done].
        eapply keeps_trans; [done|]. by apply keeps_fail. }
    set (s4 := st_alloc s3 _).
    assert (wf s4) as Hwf4 by by apply wf_alloc.
    assert (keeps s s4) as Hk4 by (eapply keeps_trans; [done|by apply keeps_alloc]).
    eapply wp_step; [apply layout_loop|].
    eapply wp_step.
    { eapply fill_ints_ok.
      - cbn. rewrite lookup_insert. done.
      - intros H0. apply (f_equal length) in H0. rewrite rowmajor_length in H0. cbn in H0. lia.
      - rewrite rowmajor_length, to_size_id; llia. }
    set (s5 := upd s4 _ _).
    assert (wf s5) as Hwf5.
    { apply wf_upd; [done|]. cbn. rewrite lookup_insert. eauto. }
    assert (keeps s s5) as Hk5.
    { apply keeps_upd; [done|done|cbn; lia|]. cbn. rewrite lookup_insert. eauto. }
    apply wp_ret. apply wp_ret. simpl negb. cbv beta match.
    unfold create_storage. apply wp_bind.
    destruct (raw_alloc_cases 32 CRaw E s5 ltac:(llia)) as [Hb|[Hna Hb]];
      (eapply wp_step; [exact Hb|]); cbn [is_null].
    2:{ apply wp_ret. simpl negb. cbv beta match. apply wp_ret. apply HF; [done| |done].
        eapply keeps_trans; [done|]. by apply keeps_fail. }
    set (s6 := st_alloc s5 _).
    eapply wp_step; [done|]. cbn [is_null].
    eapply wp_step.
    { eapply set_content_ok. cbn. rewrite lookup_insert by lia. done. }
    apply wp_ret. simpl negb. cbv beta match.
    eapply wp_step.
    { eapply set_content_ok. cbn.
      rewrite !(lookup_insert_ne _ _ (ctr s)) by lia. rewrite lookup_insert. done. }
    apply wp_ret.
    eapply (HQ _ (ctr s) (S (ctr s)) (S (S (ctr s))) (S (S (S (ctr s))))).
    + rewrite !NoDup_cons, !elem_of_cons. 
      split_and!; try apply NoDup_nil_2; rewrite ?elem_of_nil; lia.
    + cbn. apply map_eq. intros c.
      unfold header_map. destruct dims as [|d0 dims0] eqn:Hdims; [done|]. rewrite <-Hdims in *.
      rewrite <-!insert_union_l, (left_id_L ∅ (∪)).
      destruct (decide (c = ctr s)) as [->|]; [by lkup|].
      destruct (decide (c = S (ctr s))) as [->|]; [by lkup|].
      destruct (decide (c = S (S (ctr s)))) as [->|]; [by lkup|].
      destruct (decide (c = S (S (S (ctr s))))) as [->|]; [by lkup|].
      rewrite !lookup_insert_ne by lia. done.
    + apply map_disjoint_spec. intros c x y Hx Hy.
      assert (ctr s <= c)%nat as Hc.
      { assert (is_Some (header_map (e_alloc E) (ctr s) (S (ctr s)) (S (S (ctr s))) (S (S (S (ctr s))))
          b dt dev dims !! c)) as Hc by eauto.
        apply header_map_dom in Hc. lia. }
      rewrite Hf0 in Hy by done. done.
    + intros c Hc. apply header_map_dom in Hc. cbn. lia.
    + cbn. lia.
    + done.
Qed.

Lemma create_data_mismatch dt dev dims b len o E s :
  wf s -> prefixes_fit dims -> Z.of_nat (length dims) <= INT_MAX ->
  d_size dt <> 0 -> len / d_size dt <> prodZ dims ->
  wp (aitisa_create dt dev dims (Z.of_nat (length dims)) (HPtr b) len o) E s
    (fun r s' => keeps s s' /\ rpos s' = rpos s /\ r.2 = o /\
       (r.1 = INVALID_ARGUMENT \/ (r.1 = ALLOC_FAILED /\ ~ alloc_all E))).
Proof.
  intros Hwf Hpre Hlen Hds Hl. unfold aitisa_create.
  destruct (raw_alloc_cases 56 CRaw E s ltac:(llia)) as [Ha|[Hna Ha]];
    (eapply wp_step; [exact Ha|]); cbn [is_null].
  2:{ apply wp_ret. split_and!; [by apply keeps_fail|done|done|by right]. }
  eapply wp_step; [by apply size_of_dims_ok|].
  eapply wp_step.
  { erewrite bind_done by (apply check_ok; lia). done. }
  replace (len / d_size dt =? prodZ dims) with false by lia. cbn [negb].
  apply wp_ret. split_and!; [by apply keeps_alloc|done|done|by left].
Qed.

(** ** Destroy *)
Lemma destroy_rule tag p pd pm ps px dt dev dims bytes base E s :
  NoDup [p; pd; pm; ps; px] ->
  heap s = tensor_map tag p pd pm ps px dt dev dims bytes ∪ base ->
  tensor_map tag p pd pm ps px dt dev dims bytes ##ₘ base ->
  tag = e_dealloc E ->
  aitisa_destroy (HPtr p) E s = Done (SUCCESS, HNull) (St base (ctr s) (rpos s)).
Proof.
  intros Hnd Hh Hdisj Htag.
  set (new := tensor_map tag p pd pm ps px dt dev dims bytes) in *.
  assert (new ⊆ heap s) as Hsub by (rewrite Hh; apply map_union_subseteq_l).
  assert (header_map tag p pd pm ps px dt dev dims ⊆ heap s) as Hsub'.
  { etrans; [|done]. by apply header_sub_tensor. }
  pose proof (header_map_p tag p pd pm ps px dt dev dims) as Hp.
  pose proof (header_map_ps tag p pd pm ps px dt dev dims Hnd) as Hps.
  pose proof (tensor_map_px tag p pd pm ps px dt dev dims bytes) as Hpx.
  eapply lookup_weaken in Hp; [|done]. eapply lookup_weaken in Hps; [|done].
  fold new in Hpx. eapply lookup_weaken in Hpx; [|done].
  pose proof Hnd as Hnd'. nd5 Hnd'.
  assert (forall b, is_Some (new !! b) -> base !! b = None) as Hbase.
  { intros b [x Hx]. by eapply map_disjoint_Some_l. }
  unfold aitisa_destroy. cbn [is_null].
  erewrite bind_done by (by eapply get_timpl_ok). cbn [t_dims t_min2maj t_storage].
  unfold destroy_shape, destroy_layout, destroy_storage.
  destruct dims as [|d0 dims0] eqn:Hdims.
  - cbn [is_null]. 
    erewrite bind_done; [|erewrite bind_done by done; done].
    erewrite bind_done.
    2:{ erewrite bind_done by (by eapply get_simpl_ok). cbn [s_data is_null].
        erewrite bind_done by (by eapply raw_dealloc_ok).
        eapply raw_dealloc_ok; [cbn; rewrite lookup_delete_ne by done; done|done]. }
    erewrite bind_done.
    2:{ eapply raw_dealloc_ok; [cbn; rewrite !lookup_delete_ne by done; done|done]. }
    unfold ret, st_free. do 2 f_equal. cbn. rewrite Hh. apply map_eq. intros b.
    destruct (decide (b = p)) as [->|]; [rewrite lookup_delete, Hbase; [done|]|].
    { apply tensor_map_dom; auto. }
    rewrite lookup_delete_ne by done.
    destruct (decide (b = ps)) as [->|]; [rewrite lookup_delete, Hbase; [done|]|].
    { apply tensor_map_dom; auto. }
    rewrite lookup_delete_ne by done.
    destruct (decide (b = px)) as [->|]; [rewrite lookup_delete, Hbase; [done|]|].
    { apply tensor_map_dom; auto. }
    rewrite lookup_delete_ne by done.
    apply lookup_union_r. apply eq_None_not_Some. unfold new. rewrite tensor_map_dom. naive_solver.
  - rewrite <-Hdims in *.
    assert (dims <> []) as Hne by (by subst).
    pose proof (header_map_pd tag p pd pm ps px dt dev dims Hnd Hne) as Hpd.
    pose proof (header_map_pm tag p pd pm ps px dt dev dims Hnd Hne) as Hpm.
    eapply lookup_weaken in Hpd; [|done]. eapply lookup_weaken in Hpm; [|done].
    clear Hdims. cbn [is_null].
    erewrite bind_done.
    2:{ erewrite bind_done by (by eapply raw_dealloc_ok).
        eapply raw_dealloc_ok; [cbn; rewrite lookup_delete_ne by done; done|done]. }
    erewrite bind_done.
    2:{ erewrite bind_done.
        2:{ eapply get_simpl_ok. cbn. rewrite !lookup_delete_ne by done. done. }
        cbn [s_data is_null].
        erewrite bind_done.
        2:{ eapply raw_dealloc_ok; [cbn; rewrite !lookup_delete_ne by done; done|done]. }
        eapply raw_dealloc_ok; [cbn; rewrite !lookup_delete_ne by done; done|done]. }
    erewrite bind_done.
    2:{ eapply raw_dealloc_ok; [cbn; rewrite !lookup_delete_ne by done; done|done]. }
    unfold ret, st_free. do 2 f_equal. cbn. rewrite Hh. apply map_eq. intros b.
    destruct (decide (b = p)) as [->|]; [rewrite lookup_delete, Hbase; [done|]|].
    { apply tensor_map_dom; auto. }
    rewrite lookup_delete_ne by done.
    destruct (decide (b = ps)) as [->|]; [rewrite lookup_delete, Hbase; [done|]|].
    { apply tensor_map_dom; auto. }
    rewrite lookup_delete_ne by done.
    destruct (decide (b = px)) as [->|]; [rewrite lookup_delete, Hbase; [done|]|].
    { apply tensor_map_dom; auto. }
    rewrite lookup_delete_ne by done.
    destruct (decide (b = pm)) as [->|]; [rewrite lookup_delete, Hbase; [done|]|].
    { apply tensor_map_dom; auto 6. }
    rewrite lookup_delete_ne by done.
    destruct (decide (b = pd)) as [->|]; [rewrite lookup_delete, Hbase; [done|]|].
    { apply tensor_map_dom; auto 6. }
    rewrite lookup_delete_ne by done.
    apply lookup_union_r. apply eq_None_not_Some. unfold new. rewrite tensor_map_dom. naive_solver.
Qed.

(** ** From [owns] and [created] to [holds] *)
Lemma owns_holds tag p T new h : valid T -> owns tag p T new -> new ⊆ h -> holds h p T.
Proof.
  intros HT (pd & pm & ps & px & Hnd & ->) Hsub. split; [done|].
  exists px, tag, []. split.
  - eapply view_mono; [done|]. by apply tensor_map_view.
  - eapply lookup_weaken; [|done]. rewrite app_nil_r. apply tensor_map_px.
Qed.
Lemma created_holds E s s' p T k : created_k E s s' p T k -> holds (heap s') p T.
Proof.
  intros (HT & new & Ho & Hh & _). eapply owns_holds; [done|done|].
  rewrite Hh. apply map_union_subseteq_l.
Qed.
Lemma created_sub E s s' p T k : created_k E s s' p T k -> heap s ⊆ heap s'.
Proof.
  intros (HT & new & Ho & Hh & Hd & _). rewrite Hh. by apply map_union_subseteq_r.
Qed.
Lemma created_wf E s s' p T k : wf s -> created_k E s s' p T k -> wf s'.
Proof.
  intros Hwf (HT & new & Ho & Hh & Hd & Hr & Hc & _) b. rewrite Hh.
  intros [x Hx]. apply lookup_union_Some in Hx as [Hx|Hx]; [| |done].
  - apply Hr. eauto.
  - assert (b < ctr s)%nat by (apply Hwf; eauto). lia.
Qed.

(** ** Resolve *)
Lemma resolve_ok E s p T : holds (heap s) p T ->
  exists pd px tg ex,
    ints_at (heap s) pd (a_dims T) /\ heap s !! px = Some (Blk tg (CData (cells (a_type T) (a_vals T) ++ ex))) /\ aitisa_resolve (HPtr p) E s
    = Done (e_garbage E 0%nat,
        Resolved (dtype_of (a_type T)) (a_dev T) pd (Z.of_nat (length (a_dims T)))
          (HPtr px) ((prodZ (a_dims T) * Z.of_nat (tsz (a_type T))) mod UINT32_MOD)) s.
Proof.
  intros ((Hfit & Hlen) & px & tg & ex & Hv & Hx).
  destruct (get_timpl_view (E:=E) Hv) as (pd & pm & ps & tgs & Ht & Hd & Hm & Hs).
  exists pd, px, tg, ex. split_and!; [done|done|].
  unfold aitisa_resolve. erewrite bind_done by done. cbn [t_storage].
  erewrite bind_done by (by eapply get_simpl_ok). cbn.
  pose proof (fits_bytes _ _ Hfit).
  erewrite bind_done by (apply ck64_ok; llia). done.
Qed.

(** ** set_item *)
Lemma set_item_ok E s p dev dims order px tg t vs ex i v rest :
  view (heap s) p (dtype_of t) dev dims order px ->
  heap s !! px = Some (Blk tg (CData (cells t vs ++ ex))) ->
  (i < length vs)%nat -> Z.of_nat (length vs) * Z.of_nat (tsz t) <= INT64_MAX ->
  aitisa_tensor_set_item (HPtr p) (Z.of_nat i) (encode t v ++ rest) E s
  = Done tt (upd s px (Blk tg (CData (cells t (<[i := v]> vs) ++ ex)))).
Proof.
  intros Hv Hx Hi Hb. unfold aitisa_tensor_set_item.
  pose proof (tsz_range t).
  erewrite bind_done by (by eapply tensor_data_ok).
  erewrite bind_done by (by eapply tensor_dtype_ok). cbn [dtype_of d_size].
  erewrite bind_done by (apply ck64_ok; lims; nia).
  replace (Z.of_nat (tsz t) =? 0) with false by lia.
  rewrite app_length, encode_length.
  erewrite bind_done by (apply check_ok; lia).
  rewrite Nat2Z.id, take_app_alt by (by rewrite encode_length).
  by eapply (store_cells s px tg t vs ex i v).
Qed.
