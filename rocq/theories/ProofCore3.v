(** * ProofCore3: consequences for create, destroy, resolve, set_item *)
From stdpp Require Import gmap list.
From Coq Require Import ZArith Lia.
From Coq Require Import ZifyBool ZifyNat.
From Verif Require Import Base Mem Spec ModelCore Logic ProofCore ProofCore2 ProofKernel ProofBasic Fixture.
Open Scope Z_scope.

Ltac Zify.zify_post_hook ::= Z.div_mod_to_equations.

(** ** Create *)
Lemma create_makes E s t dev dims o :
  wf s -> fits (tsz t) dims ->
  makes_or_nomem (aitisa_create (dtype_of t) dev dims (Z.of_nat (length dims)) HNull 0 o) E s o
    (AT t dev dims (replicate (Z.to_nat (prodZ dims)) VU)).
Proof.
  intros Hwf Hfit. apply Qmakes_elim. apply create_t_rule; [done|done| |].
  - intros s' p pd pm ps px Ht Hr. left. exists p. split; [done|].
    eapply tnew_makes; [done| |exact Ht|done].
    split; [done|]. cbn. rewrite replicate_length. pose proof (fits_nonneg _ _ Hfit). lia.
  - intros s' Hna Hk Hr. right. done.
Qed.

Lemma create_makes_alloc E s t dev dims o :
  wf s -> fits (tsz t) dims -> alloc_all E ->
  makes (aitisa_create (dtype_of t) dev dims (Z.of_nat (length dims)) HNull 0 o) E s
    (AT t dev dims (replicate (Z.to_nat (prodZ dims)) VU)).
Proof. intros. eapply makes_or_nomem_alloc; [done|]. by apply create_makes. Qed.

Lemma create_first_failure E s dt dev dims ndim data len o :
  e_alloc_ok E (e_alloc E) (ctr s) 56 = false ->
  aitisa_create dt dev dims ndim data len o E s
    = Done (ALLOC_FAILED, o) (St (heap s) (S (ctr s)) (rpos s)).
Proof.
  intros Ha. unfold aitisa_create, bind, raw_alloc, alloc_tag.
  change (to_size 56) with 56. rewrite Ha, andb_false_r. done.
Qed.

(** For any data type record whatsoever. *)
Lemma create_any_dtype E s dt dev dims o :
  wf s -> prefixes_fit dims -> Z.of_nat (length dims) <= INT_MAX ->
  0 <= d_size dt * prodZ dims <= INT64_MAX -> alloc_all E ->
  exists s' p pd pm ps px,
    let new := tensor_map (e_alloc E) p pd pm ps px dt dev dims
                 (replicate (Z.to_nat (d_size dt * prodZ dims)) MU) in
    aitisa_create dt dev dims (Z.of_nat (length dims)) HNull 0 o E s = Done (SUCCESS, HPtr p) s' /\
    NoDup [p; pd; pm; ps; px] /\ heap s' = new ∪ heap s /\ new ##ₘ heap s.
Proof.
  intros Hwf Hp Hl Hb Ha.
  assert (wp (aitisa_create dt dev dims (Z.of_nat (length dims)) HNull 0 o) E s (fun r s' =>
    exists p pd pm ps px, r = (SUCCESS, HPtr p) /\
      tnew (e_alloc E) (ctr s) (heap s) s' p pd pm ps px dt dev dims
          (replicate (Z.to_nat (d_size dt * prodZ dims)) MU))) as Hw.
  { apply create_rule; [done|done|done|done| |].
    - intros. do 5 eexists. eauto.
    - intros s' Hna. by destruct Hna. }
  apply wp_elim in Hw as (r & s' & Hr & p & pd & pm & ps & px & -> & (H1 & H2 & H3 & _)).
  exists s', p, pd, pm, ps, px. cbn. split_and!; done.
Qed.

Lemma create_over_data E s t dev dims b tg vs ex len o :
  wf s -> fits (tsz t) dims -> alloc_all E ->
  heap s !! b = Some (Blk tg (CData (cells t vs ++ ex))) ->
  Z.of_nat (length vs) = prodZ dims -> len / Z.of_nat (tsz t) = prodZ dims ->
  exists s' p,
    aitisa_create (dtype_of t) dev dims (Z.of_nat (length dims)) (HPtr b) len o E s
      = Done (SUCCESS, HPtr p) s' /\
    view (heap s') p (dtype_of t) dev dims (rowmajor (length dims)) b /\
    holds (heap s') p (AT t dev dims vs) /\ heap s ⊆ heap s'.
Proof.
  intros Hwf Hfit Ha Hb Hlen Hl. pose proof (tsz_range t).
  assert (wp (aitisa_create (dtype_of t) dev dims (Z.of_nat (length dims)) (HPtr b) len o) E s
    (fun r s' => exists p, r = (SUCCESS, HPtr p) /\
       view (heap s') p (dtype_of t) dev dims (rowmajor (length dims)) b /\ heap s ⊆ heap s')) as Hw.
  { apply create_data_rule.
    - done.
    - eapply fits_prefixes; [|done]. lia.
    - by eapply fits_len.
    - eauto.
    - cbn. lia.
    - done.
    - intros s' p pd pm ps new Hnd Hh Hd _ _ _. exists p. split_and!; [done| |].
      + eapply (view_mono new); [rewrite Hh; apply map_union_subseteq_l|]. by apply header_map_view.
      + rewrite Hh. by apply map_union_subseteq_r.
    - intros s' Hna. by destruct Hna. }
  apply wp_elim in Hw as (r & s' & Hr & p & -> & Hv & Hs).
  exists s', p. split_and!; try done.
  split; [done|]. exists b, tg, ex. split; [done|]. by eapply lookup_weaken.
Qed.

Lemma create_over_data_nomem E s t dev dims b len o :
  wf s -> fits (tsz t) dims -> is_Some (heap s !! b) -> len / Z.of_nat (tsz t) = prodZ dims ->
  exists r s', aitisa_create (dtype_of t) dev dims (Z.of_nat (length dims)) (HPtr b) len o E s
    = Done r s' /\ heap s ⊆ heap s' /\
    ((exists p, r = (SUCCESS, HPtr p)) \/ (~ alloc_all E /\ r = (ALLOC_FAILED, o))).
Proof.
  intros Hwf Hfit Hb Hl. pose proof (tsz_range t).
  assert (wp (aitisa_create (dtype_of t) dev dims (Z.of_nat (length dims)) (HPtr b) len o) E s
    (fun r s' => heap s ⊆ heap s' /\
    ((exists p, r = (SUCCESS, HPtr p)) \/ (~ alloc_all E /\ r = (ALLOC_FAILED, o))))) as Hw.
  { apply create_data_rule; [done| |by eapply fits_len|done|cbn; lia|done| |].
    - eapply fits_prefixes; [|done]. lia.
    - intros s' p pd pm ps new Hnd Hh Hd _ _ _. split; [|eauto].
      rewrite Hh. by apply map_union_subseteq_r.
    - intros s' Hna (Hk & _) _. eauto. }
  apply wp_elim in Hw as (r & s' & Hr & ?). eauto.
Qed.

Lemma create_data_mismatch_status E s t dev dims b len o :
  wf s -> fits (tsz t) dims -> len / Z.of_nat (tsz t) <> prodZ dims -> alloc_all E ->
  exists s', aitisa_create (dtype_of t) dev dims (Z.of_nat (length dims)) (HPtr b) len o E s
    = Done (INVALID_ARGUMENT, o) s' /\ keeps s s'.
Proof.
  intros Hwf Hfit Hl Ha. pose proof (tsz_range t).
  pose proof (create_data_mismatch (dtype_of t) dev dims b len o E s Hwf
    (fits_prefixes (tsz t) _ ltac:(lia) Hfit) (fits_len _ _ Hfit) ltac:(cbn; lia) Hl) as Hw.
  apply wp_elim in Hw as ([x o'] & s' & Hr & Hk & _ & Ho & [Hx|[_ Hna]]); [|done].
  cbn in Ho, Hx. subst. eauto.
Qed.

(** A failed mismatch check leaks the 56-byte header, for every input. *)
Lemma create_data_mismatch_leaks E s t dev dims b len o :
  wf s -> fits (tsz t) dims -> len / Z.of_nat (tsz t) <> prodZ dims -> alloc_all E ->
  aitisa_create (dtype_of t) dev dims (Z.of_nat (length dims)) (HPtr b) len o E s
    = Done (INVALID_ARGUMENT, o)
        (St (<[ctr s := Blk (e_alloc E) (CRaw 56)]> (heap s)) (S (ctr s)) (rpos s)).
Proof.
  intros Hwf Hfit Hl Ha. pose proof (tsz_range t). unfold aitisa_create.
  destruct (raw_alloc_cases 56 CRaw E s ltac:(llia)) as [Hal|[Hna _]]; [|done].
  erewrite bind_done by exact Hal. cbn [is_null].
  erewrite bind_done.
  2:{ apply size_of_dims_ok; [|done|by eapply fits_len]. eapply fits_prefixes; [|done]; lia. }
  erewrite bind_done.
  2:{ erewrite bind_done by (apply check_ok; cbn; lia). done. }
  cbn [dtype_of d_size]. replace (len / Z.of_nat (tsz t) =? prodZ dims) with false by lia. done.
Qed.

(** Negative byte counts are always refused. *)
Lemma create_negative E s dt dev dims o :
  wf s -> prefixes_fit dims -> Z.of_nat (length dims) <= INT_MAX ->
  INT64_MIN <= d_size dt * prodZ dims < 0 ->
  exists s', aitisa_create dt dev dims (Z.of_nat (length dims)) HNull 0 o E s
    = Done (ALLOC_FAILED, o) s' /\ keeps s s'.
Proof.
  intros Hwf Hpre Hlen Hbytes.
  assert (wp (aitisa_create dt dev dims (Z.of_nat (length dims)) HNull 0 o) E s
    (fun r s' => r = (ALLOC_FAILED, o) /\ keeps s s')) as Hw.
  2:{ apply wp_elim in Hw as (r & s' & Hr & -> & Hk). eauto. }
  unfold aitisa_create.
  destruct (raw_alloc_cases 56 CRaw E s ltac:(llia)) as [Ha|[Hna Ha]];
    (eapply wp_step; [exact Ha|]); cbn [is_null].
  2:{ apply wp_ret. split; [done|by apply keeps_fail]. }
  set (s1 := st_alloc s _).
  assert (wf s1) as Hwf1 by by apply wf_alloc.
  assert (keeps s s1) as Hk1 by by apply keeps_alloc.
  eapply wp_step; [by apply size_of_dims_ok|].
  eapply wp_step; [done|]. cbv beta match.
  assert (forall s2 st, wf s2 -> keeps s s2 ->
    wp (let* (s0, st0) := create_storage dt dev (prodZ dims) HNull in
        if negb (bool_decide (s0 = SUCCESS)) then ret (s0, o)
        else set_content (HPtr (ctr s)) (CTensor (st st0)) ;;; ret (SUCCESS, HPtr (ctr s))) E s2
      (fun r s' => r = (ALLOC_FAILED, o) /\ keeps s s')) as Hst.
  { intros s2 st Hwf2 Hk2. unfold create_storage. apply wp_bind.
    destruct (raw_alloc_cases 32 CRaw E s2 ltac:(llia)) as [Hb|[Hna Hb]];
      (eapply wp_step; [exact Hb|]); cbn [is_null].
    2:{ apply wp_ret. simpl negb. cbv beta match. apply wp_ret. split; [done|].
        eapply keeps_trans; [done|]. by apply keeps_fail. }
    set (s3 := st_alloc s2 _).
    eapply wp_step.
    { erewrite bind_done by (apply ck64_ok; lims; lia).
      unfold raw_alloc, alloc_tag.
      replace (to_size (d_size dt * prodZ dims) <=? PTRDIFF_MAX) with false.
      2:{ unfold to_size, SIZE_MOD, PTRDIFF_MAX, INT64_MIN in *. lia. }
      cbn [andb]. done. }
    cbn [is_null]. apply wp_ret. simpl negb. cbv beta match. apply wp_ret. split; [done|].
    eapply keeps_trans; [done|]. eapply keeps_trans; [by apply keeps_alloc|].
    apply (keeps_fail s3). by apply wf_alloc. }
  apply wp_bind. unfold create_shape.
  destruct dims as [|d0 dims0] eqn:Hdims.
  - cbn [length Z.of_nat]. simpl (0 =? 0). cbv beta match. simpl negb. simpl andb. cbv beta match.
    eapply wp_step; [done|]. cbv beta match.
    eapply wp_step; [done|]. cbn [fill_ints].
    eapply wp_step; [done|].
    eapply wp_step; [done|]. apply wp_ret. simpl bool_decide. simpl negb. cbv beta match.
    by apply (Hst s1 (fun st0 => TI (prodZ []) 0 0 HNull LAYOUT_DENSE HNull st0)).
  - rewrite <-Hdims in *.
    assert (dims <> []) as Hne by (by subst).
    assert (0 < Z.of_nat (length dims)) as Hpos by (subst; cbn; lia).
    clear Hdims d0 dims0.
    replace (Z.of_nat (length dims) =? 0) with false by lia. simpl negb.
    destruct (raw_alloc_cases (8 * Z.of_nat (length dims)) (fun _ => CInts []) E s1 ltac:(llia))
      as [Hd|[Hna Hd]]; (eapply wp_step; [exact Hd|]); cbn [is_null andb].
    2:{ apply wp_ret. simpl negb. cbv beta match. apply wp_ret. split; [done|].
        eapply keeps_trans; [done|]. by apply keeps_fail. }
    set (s2 := st_alloc s1 _).
    assert (wf s2) as Hwf2 by by apply wf_alloc.
    assert (keeps s s2) as Hk2 by (eapply keeps_trans; [done|by apply keeps_alloc]).
    eapply wp_step.
    { apply append_loop. intros k x acc Hx. erewrite bind_done by (by apply aget_nat). done. }
    eapply wp_step.
    { eapply fill_ints_ok; [|done|].
      - cbn. rewrite lookup_insert. done.
      - rewrite to_size_id; llia. }
    set (s3 := upd s2 _ _).
    assert (wf s3) as Hwf3.
    { apply wf_upd; [done|]. cbn. rewrite lookup_insert. eauto. }
    assert (keeps s s3) as Hk3.
    { apply keeps_upd; [done|done|cbn; lia|]. cbn. rewrite lookup_insert. eauto. }
    unfold create_default_layout. cbn [negb]. rewrite Z.eqb_refl. cbn [negb].
    replace (Z.of_nat (length dims) =? 0) with false by lia. cbn [negb].
    apply wp_bind.
    destruct (raw_alloc_cases (8 * Z.of_nat (length dims)) (fun _ => CInts []) E s3 ltac:(llia))
      as [He|[Hna He]]; (eapply wp_step; [exact He|]); cbn [is_null andb].
    2:{ apply wp_ret. apply wp_ret. simpl negb. cbv beta match. apply wp_ret.
        split; [done|]. eapply keeps_trans; [done|]. by apply keeps_fail. }
    set (s4 := st_alloc s3 _).
    assert (wf s4) as Hwf4 by by apply wf_alloc.
    assert (keeps s s4) as Hk4 by (eapply keeps_trans; [done|by apply keeps_alloc]).
    eapply wp_step; [apply layout_loop|].
    eapply wp_step.
    { eapply fill_ints_ok.
      - cbn. rewrite lookup_insert. done.
      - intros H0. apply (f_equal length) in H0. rewrite rowmajor_length in H0. cbn in H0. lia.
      - rewrite rowmajor_length, to_size_id; llia. }
    set (s5 := upd s4 _ _).
    assert (wf s5) as Hwf5.
    { apply wf_upd; [done|]. cbn. rewrite lookup_insert. eauto. }
    assert (keeps s s5) as Hk5.
    { apply keeps_upd; [done|done|cbn; lia|]. cbn. rewrite lookup_insert. eauto. }
    apply wp_ret. apply wp_ret. simpl negb. cbv beta match.
    apply (Hst s5 (fun st0 => TI (prodZ dims) 0 (Z.of_nat (length dims)) _ LAYOUT_DENSE _ st0)); done.
Qed.

(** ** Destroy *)
Lemma destroy_owned E s tag p T new base :
  owns tag p T new -> heap s = new ∪ base -> new ##ₘ base -> tag = e_dealloc E ->
  aitisa_destroy (HPtr p) E s = Done (SUCCESS, HNull) (St base (ctr s) (rpos s)).
Proof. intros (pd & pm & ps & px & Hnd & ->) Hh Hd Ht. by eapply destroy_rule. Qed.

Lemma destroy_created E s s' p T k : hooks_ok E -> created_k E s s' p T k ->
  aitisa_destroy (HPtr p) E s' = Done (SUCCESS, HNull) (St (heap s) (ctr s') (rpos s')).
Proof.
  intros Hh (_ & new & Ho & Hn & Hd & _). eapply destroy_owned; [done|done|done|]. done.
Qed.

Lemma destroy_null E s : aitisa_destroy HNull E s = Done (SUCCESS, HNull) s.
Proof. done. Qed.

Lemma create_destroy E s t dev dims o :
  wf s -> fits (tsz t) dims -> alloc_all E -> hooks_ok E ->
  exists p s' s'',
    aitisa_create (dtype_of t) dev dims (Z.of_nat (length dims)) HNull 0 o E s = Done (SUCCESS, HPtr p) s' /\
    aitisa_destroy (HPtr p) E s' = Done (SUCCESS, HNull) s'' /\ heap s'' = heap s.
Proof.
  intros Hwf Hf Ha Hh.
  pose proof (create_makes E s t dev dims o Hwf Hf) as Hm.
  apply makes_or_nomem_alloc in Hm as (s' & p & Hr & Hc); [|done].
  exists p, s'. eexists. split_and!; [done|by eapply destroy_created|done].
Qed.

Lemma destroy_stale E s p : heap s !! p = None -> aitisa_destroy (HPtr p) E s = UB UB_dangling.
Proof. intros Hp. unfold aitisa_destroy, get_timpl, deref, bind. cbn. by rewrite Hp. Qed.

Lemma destroy_twice_stale E s tag p T new base :
  owns tag p T new -> heap s = new ∪ base -> new ##ₘ base -> tag = e_dealloc E ->
  exists s', aitisa_destroy (HPtr p) E s = Done (SUCCESS, HNull) s' /\
    aitisa_destroy HNull E s' = Done (SUCCESS, HNull) s' /\
    aitisa_destroy (HPtr p) E s' = UB UB_dangling.
Proof.
  intros Ho Hh Hd Ht. eexists. split_and!; [by eapply destroy_owned|done|].
  apply destroy_stale. cbn. destruct Ho as (pd & pm & ps & px & Hnd & ->).
  eapply map_disjoint_Some_l; [done|]. eapply lookup_weaken; [|by apply header_sub_tensor].
  apply header_map_p.
Qed.

(** ** set_item *)
Lemma set_item_owned E s tag p T new base i v rest :
  valid T -> owns tag p T new -> heap s = new ∪ base -> new ##ₘ base ->
  (i < length (a_vals T))%nat ->
  exists new',
    aitisa_tensor_set_item (HPtr p) (Z.of_nat i) (encode (a_type T) v ++ rest) E s
      = Done tt (St (new' ∪ base) (ctr s) (rpos s)) /\
    owns tag p (AT (a_type T) (a_dev T) (a_dims T) (<[i := v]> (a_vals T))) new' /\
    new' ##ₘ base.
Proof.
  intros [Hfit Hlen] (pd & pm & ps & px & Hnd & ->) Hh Hd Hi.
  pose proof (fits_bytes _ _ Hfit) as Hb.
  assert (tensor_map tag p pd pm ps px (dtype_of (a_type T)) (a_dev T) (a_dims T)
    (cells (a_type T) (a_vals T)) ⊆ heap s) as Hsub by (rewrite Hh; apply map_union_subseteq_l).
  eexists. split_and!.
  - erewrite set_item_ok.
    + unfold upd. rewrite Hh, insert_union_l, tensor_map_upd. done.
    + eapply view_mono; [done|]. by apply tensor_map_view.
    + rewrite app_nil_r. eapply lookup_weaken; [|done]. apply tensor_map_px.
    + done.
    + lia.
  - exists pd, pm, ps, px. split; [done|]. cbn [a_type a_dev a_dims a_vals].
    rewrite app_nil_r. done.
  - rewrite app_nil_r.
    eapply map_disjoint_dom_2. apply map_disjoint_dom_1 in Hd.
    intros b Hb1 Hb2. apply (Hd b); [|done].
    apply elem_of_dom in Hb1. apply elem_of_dom. rewrite tensor_map_dom in *. done.
Qed.

Lemma set_item_holds E s p T i v rest :
  holds (heap s) p T -> (i < length (a_vals T))%nat ->
  exists s' px,
    aitisa_tensor_set_item (HPtr p) (Z.of_nat i) (encode (a_type T) v ++ rest) E s = Done tt s' /\
    holds (heap s') p (AT (a_type T) (a_dev T) (a_dims T) (<[i := v]> (a_vals T))) /\
    view (heap s) p (dtype_of (a_type T)) (a_dev T) (a_dims T) (rowmajor (length (a_dims T))) px /\
    (forall b, b <> px -> heap s' !! b = heap s !! b).
Proof.
  intros ((Hfit & Hlen) & px & tg & ex & Hv & Hx) Hi.
  pose proof (fits_bytes _ _ Hfit) as Hb.
  eexists _, px. split_and!.
  - eapply set_item_ok; [done|done|done|]. lia.
  - split; [split; [done|cbn; by rewrite insert_length]|].
    exists px, tg, ex. cbn [a_type a_dev a_dims a_vals]. split.
    + cbn [heap upd]. by eapply view_upd.
    + cbn. by rewrite lookup_insert.
  - done.
  - intros b Hne. cbn. by rewrite lookup_insert_ne.
Qed.


Lemma set_item_oob E s tag p T new base i v :
  valid T -> owns tag p T new -> heap s = new ∪ base ->
  ~ (0 <= i < Z.of_nat (length (a_vals T))) ->
  exists u, aitisa_tensor_set_item (HPtr p) i (encode (a_type T) v) E s = UB u.
Proof.
  intros [Hfit Hlen] (pd & pm & ps & px & Hnd & ->) Hh Hi.
  assert (tensor_map tag p pd pm ps px (dtype_of (a_type T)) (a_dev T) (a_dims T)
    (cells (a_type T) (a_vals T)) ⊆ heap s) as Hsub by (rewrite Hh; apply map_union_subseteq_l).
  assert (view (heap s) p (dtype_of (a_type T)) (a_dev T) (a_dims T)
    (rowmajor (length (a_dims T))) px) as Hv.
  { eapply view_mono; [done|]. by apply tensor_map_view. }
  assert (heap s !! px = Some (Blk tag (CData (cells (a_type T) (a_vals T))))) as Hx.
  { eapply lookup_weaken; [|done]. apply tensor_map_px. }
  pose proof (tsz_range (a_type T)) as Ht.
  unfold aitisa_tensor_set_item.
  erewrite bind_done by (by eapply tensor_data_ok).
  erewrite bind_done by (by eapply tensor_dtype_ok). cbn [dtype_of d_size].
  set (z := Z.of_nat (tsz (a_type T))) in *.
  destruct (decide (INT64_MIN <= i * z <= INT64_MAX)) as [Hr|Hr].
  2:{ exists UB_overflow. unfold ck64, check, bind.
      replace ((INT64_MIN <=? i * z) && (i * z <=? INT64_MAX)) with false by lia. done. }
  erewrite bind_done by (by apply ck64_ok).
  replace (z =? 0) with false by lia.
  rewrite encode_length.
  erewrite bind_done by (apply check_ok; lia).
  unfold z. rewrite Nat2Z.id, firstn_all2 by (rewrite encode_length; lia).
  unfold store_bytes. erewrite bind_done by (by eapply get_bytes_ok).
  rewrite encode_length, cells_length.
  exists UB_oob. unfold check.
  replace ((0 <=? i * Z.of_nat (tsz (a_type T))) &&
    (i * Z.of_nat (tsz (a_type T)) + Z.of_nat (tsz (a_type T)) <=?
     Z.of_nat (length (a_vals T) * tsz (a_type T)))) with false; [done|].
  symmetry. apply andb_false_iff. rewrite Nat2Z.inj_mul. fold z.
  destruct (decide (i < 0)); [left; nia|right; nia].
Qed.

(** ** Resolve *)
Lemma resolve_view E s p T : holds (heap s) p T ->
  prodZ (a_dims T) * Z.of_nat (tsz (a_type T)) < UINT32_MOD ->
  exists x pd px tg ex,
    aitisa_resolve (HPtr p) E s
    = Done (x, Resolved (dtype_of (a_type T)) (a_dev T) pd (Z.of_nat (length (a_dims T)))
        (HPtr px) (prodZ (a_dims T) * Z.of_nat (tsz (a_type T)))) s /\
    ints_at (heap s) pd (a_dims T) /\
    heap s !! px = Some (Blk tg (CData (cells (a_type T) (a_vals T) ++ ex))).
Proof.
  intros Hh Hl. pose proof (resolve_ok E s p T Hh) as (pd & px & tg & ex & H1 & H2 & H3).
  exists (e_garbage E 0%nat), pd, px, tg, ex. split_and!; [|done|done].
  rewrite H3. pose proof (fits_bytes _ _ (valid_fits _ (holds_valid _ _ _ Hh))).
  rewrite Z.mod_small by (unfold UINT32_MOD in *; lia). done.
Qed.

(** A tensor of [n] bytes. *)
Definition T_bytes (n : Z) : atensor := AT U8 cpu [n] (replicate (Z.to_nat n) VU).
Lemma T_bytes_valid n : 0 <= n <= INT64_MAX -> valid (T_bytes n).
Proof.
  intros Hn. unfold T_bytes. split; cbn [a_type a_dims a_vals].
  - split_and!; [repeat constructor; lia|cbn; llia|].
    cbn [tsz fmap list_fmap]. rewrite prodZ_cons, prodZ_nil. llia.
  - rewrite replicate_length, prodZ_cons, prodZ_nil. lia.
Qed.
Lemma resolve_truncates E : exists s p T x r,
  holds (heap s) p T /\ prodZ (a_dims T) * Z.of_nat (tsz (a_type T)) = 4294967296 /\
  aitisa_resolve (HPtr p) E s = Done (x, r) s /\ r_len r = 0.
Proof.
  assert (exists n, n = 4294967296) as [n Hn] by eauto.
  assert (holds (heap (fx [T_bytes n])) 0 (T_bytes n)) as Hh.
  { apply (fx_holds [T_bytes n] 0); [done|]. apply T_bytes_valid. lims; lia. }
  destruct (resolve_ok E (fx [T_bytes n]) 0 (T_bytes n) Hh) as (pd & px & tg & ex & H1 & H2 & H3).
  assert (prodZ (a_dims (T_bytes n)) * Z.of_nat (tsz (a_type (T_bytes n))) = n) as Hp.
  { cbn [T_bytes a_dims a_type tsz]. rewrite prodZ_cons, prodZ_nil. lia. }
  eexists _, _, _, _, _. split_and!; [exact Hh|by rewrite Hp|exact H3|].
  cbn [r_len]. rewrite Hp, Hn. done.
Qed.
