(** * ProofSlice: aitisa_slice and aitisa_duplicate *)
From stdpp Require Import gmap list.
From Coq Require Import ZArith Lia.
From Coq Require Import ZifyBool ZifyNat.
From Verif Require Import Base Mem Spec ModelCore ModelBasic Logic ProofCore ProofCore2 ProofKernel
  ProofBasic ProofSqueeze ProofIndex ProofKernel2 ProofFloat.
Open Scope Z_scope.

Ltac Zify.zify_post_hook ::= Z.div_mod_to_equations.

Lemma tnew_lo tag lo lo' base s p pd pm ps px dt dev dims bytes :
  tnew tag lo base s p pd pm ps px dt dev dims bytes -> (lo' <= lo)%nat ->
  tnew tag lo' base s p pd pm ps px dt dev dims bytes.
Proof.
  intros (H1 & H2 & H3 & H4 & H5) Hle. split_and!; try done.
  intros b Hb. specialize (H4 b Hb). lia.
Qed.

(** ** The request *)
Lemma slice_ok_len ds bs ss ts : slice_ok ds bs ss ts ->
  length bs = length ds /\ length ss = length ds /\ length ts = length ds.
Proof.
  revert bs ss ts. induction ds as [|d ds IH]; intros [|b bs] [|s ss] [|t ts] H; try done.
  destruct H as [_ H]. cbn. apply IH in H. lia.
Qed.
Lemma slice_ok_lookup ds bs ss ts i d b s t : slice_ok ds bs ss ts ->
  ds !! i = Some d -> bs !! i = Some b -> ss !! i = Some s -> ts !! i = Some t ->
  0 <= b < d /\ 0 <= s /\ b + s <= d /\ b + s <= INT_MAX /\ 1 <= t <= INT_MAX.
Proof.
  revert bs ss ts i. induction ds as [|d0 ds IH]; intros [|b0 bs] [|s0 ss] [|t0 ts] i H; try done.
  destruct H as [H0 H]. destruct i as [|i]; cbn; intros; [by simplify_eq|by eapply IH].
Qed.
Lemma slice_ok_get ds bs ss ts i : slice_ok ds bs ss ts -> (i < length ds)%nat ->
  exists d b s t, ds !! i = Some d /\ bs !! i = Some b /\ ss !! i = Some s /\ ts !! i = Some t /\
  0 <= b < d /\ 0 <= s /\ b + s <= d /\ b + s <= INT_MAX /\ 1 <= t <= INT_MAX.
Proof.
  intros H Hi. pose proof (slice_ok_len _ _ _ _ H) as (H1 & H2 & H3).
  destruct (lookup_lt_is_Some_2 ds i) as [d Hd]; [lia|].
  destruct (lookup_lt_is_Some_2 bs i) as [b Hb]; [lia|].
  destruct (lookup_lt_is_Some_2 ss i) as [s Hs]; [lia|].
  destruct (lookup_lt_is_Some_2 ts i) as [t Ht]; [lia|].
  exists d, b, s, t. pose proof (slice_ok_lookup _ _ _ _ _ _ _ _ _ H Hd Hb Hs Ht). done.
Qed.

(** ** Extents *)
Lemma cdiv_pos s t : 1 <= t -> 0 < s -> 1 <= cdiv s t.
Proof. intros. unfold cdiv. nia. Qed.
Lemma cdiv_0 t : 1 <= t -> cdiv 0 t = 0.
Proof. intros. unfold cdiv. cbn. by rewrite Z.div_0_l by lia. Qed.
Lemma cdiv_le s t : 1 <= t -> 0 <= s -> 0 <= cdiv s t <= s.
Proof. intros. unfold cdiv. nia. Qed.
Lemma cdiv_bounds s t : 1 <= t -> (cdiv s t - 1) * t < s <= cdiv s t * t.
Proof. intros. unfold cdiv. nia. Qed.
Lemma cdiv_spec s t c : 1 <= t -> (c < cdiv s t <-> t * c < s).
Proof. intros. unfold cdiv. nia. Qed.

Lemma slice_extent_ok s t E x : 0 <= s <= INT_MAX -> 1 <= t <= INT_MAX ->
  slice_extent s t E x = Done (cdiv s t) x.
Proof.
  intros Hs Ht. unfold slice_extent.
  erewrite bind_done by (apply opt_ok, ceil_div_double; llia).
  pose proof (cdiv_le s t ltac:(lia) ltac:(lia)).
  erewrite bind_done by (apply check_ok; llia). done.
Qed.

Definition slice_ext (size step : list Z) : list Z := zip_with cdiv size step.
Lemma slice_dims_filter ds bs ss ts : slice_ok ds bs ss ts ->
  slice_dims ss ts = filter (fun d => 0 < d) (slice_ext ss ts).
Proof.
  revert bs ss ts. induction ds as [|d ds IH]; intros [|b bs] [|s ss] [|t ts] H; try done.
  destruct H as [H0 H]. cbn [slice_dims]. unfold slice_ext. cbn [zip_with].
  destruct (Z.eqb_spec s 0) as [->|Hs].
  - rewrite cdiv_0 by lia. rewrite filter_cons_False by lia. by eapply IH.
  - pose proof (cdiv_pos s t ltac:(lia) ltac:(lia)).
    rewrite filter_cons_True by lia. f_equal. by eapply IH.
Qed.

(** Extents with the dropped axes kept as 1 *)
Definition slice_es (size step : list Z) : list Z := Z.max 1 <$> slice_ext size step.
Lemma slice_es_cons s ss t ts :
  slice_es (s :: ss) (t :: ts) = Z.max 1 (cdiv s t) :: slice_es ss ts.
Proof. done. Qed.
Lemma slice_es_pos ss ts : Forall (fun d => 0 < d) (slice_es ss ts).
Proof. apply Forall_fmap, Forall_true. intros d. unfold compose. lia. Qed.
Lemma slice_dims_pos ds bs ss ts : slice_ok ds bs ss ts -> Forall (fun d => 0 < d) (slice_dims ss ts).
Proof. intros H. erewrite slice_dims_filter by done. apply Forall_forall. intros x Hx. by apply elem_of_list_filter in Hx as [? _]. Qed.
Lemma slice_es_prod ds bs ss ts : slice_ok ds bs ss ts ->
  prodZ (slice_es ss ts) = prodZ (slice_dims ss ts).
Proof.
  revert bs ss ts. induction ds as [|d ds IH]; intros [|b bs] [|s ss] [|t ts] H; try done.
  destruct H as [H0 H]. cbn [slice_dims]. unfold slice_es, slice_ext.
  cbn [zip_with]. rewrite fmap_cons, prodZ_cons. unfold slice_es, slice_ext in IH.
  rewrite (IH _ _ _ H). destruct (Z.eqb_spec s 0) as [->|Hs].
  - rewrite cdiv_0 by lia. lia.
  - pose proof (cdiv_pos s t ltac:(lia) ltac:(lia)). rewrite prodZ_cons, Z.max_r by lia. done.
Qed.
Lemma slice_dims_le ds bs ss ts : slice_ok ds bs ss ts ->
  prodZ (Z.max 1 <$> slice_dims ss ts) <= prodZ (Z.max 1 <$> ds) /\
  (length (slice_dims ss ts) <= length ds)%nat.
Proof.
  revert bs ss ts. induction ds as [|d ds IH]; intros [|b bs] [|s ss] [|t ts] H; try done.
  destruct H as [H0 H]. cbn [slice_dims]. apply IH in H as [H1 H2]. clear IH.
  pose proof (prodZ_max_pos (slice_dims ss ts)). pose proof (prodZ_max_pos ds).
  destruct (Z.eqb_spec s 0) as [->|Hs].
  - rewrite fmap_cons, prodZ_cons. split; [|cbn; lia].
    assert (1 <= Z.max 1 d) by lia. nia.
  - rewrite !fmap_cons, !prodZ_cons. split; [|cbn; lia].
    pose proof (cdiv_le s t ltac:(lia) ltac:(lia)). apply Z.mul_le_mono_nonneg; lia.
Qed.
Lemma slice_dims_fits sz ds bs ss ts : slice_ok ds bs ss ts -> fits sz ds ->
  fits sz (slice_dims ss ts).
Proof.
  intros H (H1 & H2 & H3). pose proof (slice_dims_le _ _ _ _ H) as [H4 H5]. split_and!; [|lia|nia].
  eapply Forall_impl; [by eapply slice_dims_pos|]. intros; cbn in *; lia.
Qed.

(** ** Coordinates *)
Fixpoint slice_pos (begin step c : list Z) : list Z :=
  match begin, step, c with
  | b :: bs, t :: ts, i :: c => b + t * i :: slice_pos bs ts c
  | _, _, _ => []
  end.
Lemma slice_pos_length bs ts c : length ts = length bs -> length c = length bs ->
  length (slice_pos bs ts c) = length bs.
Proof.
  revert ts c. induction bs as [|b bs IH]; intros [|t ts] [|i c]; cbn; intros; try done.
  f_equal. apply IH; lia.
Qed.
Lemma slice_pos_lookup bs ts c i b t x : bs !! i = Some b -> ts !! i = Some t -> c !! i = Some x ->
  slice_pos bs ts c !! i = Some (b + t * x).
Proof.
  revert ts c i. induction bs as [|b0 bs IH]; intros [|t0 ts] [|x0 c] [|i]; cbn; intros; try done.
  - by simplify_eq.
  - by apply IH.
Qed.
Lemma slice_pos_insert bs ts c i b t x : bs !! i = Some b -> ts !! i = Some t -> 
  slice_pos bs ts (<[i := x]> c) = <[i := b + t * x]> (slice_pos bs ts c).
Proof.
  revert ts c i. induction bs as [|b0 bs IH]; intros [|t0 ts] [|x0 c] [|i]; cbn; intros; try done.
  - by simplify_eq.
  - f_equal. by apply IH.
Qed.
Lemma slice_src_pos ds bs ss ts k : slice_ok ds bs ss ts ->
  slice_src bs ss ts (unravel (slice_dims ss ts) k) = slice_pos bs ts (unravel (slice_es ss ts) k).
Proof.
  revert bs ss ts. induction ds as [|d ds IH]; intros [|b bs] [|s ss] [|t ts] H; try done.
  destruct H as [H0 H]. cbn [slice_src slice_dims].
  rewrite slice_es_cons. cbn [unravel slice_pos].
  destruct (Z.eqb_spec s 0) as [->|Hs].
  - f_equal; [|by eapply IH].
    rewrite cdiv_0 by lia. change (Z.max 1 0) with 1. rewrite Z.mod_1_r. lia.
  - cbn [unravel]. erewrite slice_es_prod by done. f_equal; [|by eapply IH].
    pose proof (cdiv_pos s t ltac:(lia) ltac:(lia)). by rewrite Z.max_r by lia.
Qed.
Lemma slice_pos_in_box ds bs ss ts c : slice_ok ds bs ss ts -> in_box (slice_es ss ts) c ->
  in_box ds (slice_pos bs ts c).
Proof.
  revert bs ss ts c. induction ds as [|d ds IH]; intros [|b bs] [|s ss] [|t ts] c H; try done.
  - intros _. constructor.
  - destruct H as [H0 H]. rewrite slice_es_cons.
    intros Hc. destruct c as [|i c]; [by inversion Hc|]. apply in_box_cons in Hc as [Hi Hc].
    cbn [slice_pos]. apply in_box_cons. split; [|by eapply IH].
    assert (i < cdiv s t \/ i = 0) as [Hlt| ->] by lia.
    + apply cdiv_spec in Hlt; [|lia]. nia.
    + lia.
Qed.

(** ** slice_check_parameters *)
Lemma slice_check_ok p ds bs ss ts dt dev order px E s :
  view (heap s) p dt dev ds order px -> slice_ok ds bs ss ts ->
  slice_check_parameters (HPtr p) bs ss ts E s = Done SUCCESS s.
Proof.
  intros Hv Hok. unfold slice_check_parameters.
  erewrite bind_done by (by eapply tensor_ndim_ok).
  erewrite bind_done by (by eapply tensor_dims_ok).
  rewrite Nat2Z.id.
  erewrite bind_done.
  2:{ apply (iter_ret_pure (fun _ => tt)); [done|]. intros k Hk. rewrite Z.add_0_l.
      destruct (slice_ok_get _ _ _ _ k Hok Hk) as (d & b & sz & t & Hd & Hb & Hs & Ht & H).
      erewrite bind_done by (by apply aget_nat).
      erewrite bind_done by (by apply aget_nat).
      erewrite bind_done by (by apply aget_nat).
      replace (sz <? 0) with false by lia.
      erewrite bind_done.
      2:{ erewrite bind_done by (apply ck32_ok; llia). done. }
      erewrite bind_done by (by apply aget_nat).
      replace (b <? 0) with false by lia. replace (d <=? b) with false by lia.
      replace (d <? b + sz) with false by lia. replace (t <? 1) with false by lia. done. }
  done.
Qed.

(** ** slice_create_output *)
Lemma filter_take_len {A} (P : A -> Prop) `{!forall x, Decision (P x)} (l : list A) k :
  (length (filter P (take k l)) <= length (filter P l))%nat.
Proof. rewrite <-(take_drop k l) at 2. rewrite filter_app, app_length. lia. Qed.

Lemma slice_ext_loop ds bs ss ts E s : slice_ok ds bs ss ts -> Z.of_nat (length ds) <= INT_MAX ->
  for32 0 (Z.of_nat (length ds)) (fun i '(temp, n) =>
        let* s := aget ss i in
        let* st := aget ts i in
        let* e := slice_extent s st in
        ret (temp ++ [e], if 0 <? e then n + 1 else n)) ([], 0) E s
  = Done (slice_ext ss ts, Z.of_nat (length (slice_dims ss ts))) s.
Proof.
  intros Hok Hn. pose proof (slice_ok_len _ _ _ _ Hok) as (H1 & H2 & H3).
  assert (length (slice_ext ss ts) = length ds) as Hl.
  { unfold slice_ext. rewrite zip_with_length. lia. }
  rewrite (for32_pure (fun k => (take k (slice_ext ss ts),
     Z.of_nat (length (filter (fun d => 0 < d) (take k (slice_ext ss ts)))))) _ _ _ (length ds)).
  - rewrite take_ge by lia. by erewrite slice_dims_filter.
  - done.
  - lia.
  - done.
  - intros k Hk. rewrite Z.add_0_l.
    destruct (slice_ok_get _ _ _ _ k Hok Hk) as (d & b & sz & t & Hd & Hb & Hs & Ht & H).
    erewrite bind_done by (by apply aget_nat).
    erewrite bind_done by (by apply aget_nat).
    erewrite bind_done by (apply slice_extent_ok; llia).
    assert (slice_ext ss ts !! k = Some (cdiv sz t)) as Hx.
    { unfold slice_ext. rewrite lookup_zip_with, Hs, Ht. done. }
    rewrite (take_S_r _ _ _ Hx), filter_app, app_length.
    destruct (Z.ltb_spec 0 (cdiv sz t)).
    + rewrite filter_cons_True by done. cbn [filter length list_filter]. unfold ret. do 2 f_equal. cbn. lia.
    + rewrite filter_cons_False by lia. cbn. unfold ret. do 2 f_equal. lia.
Qed.

Lemma slice_collect_loop (temp : list Z) n E s :
  let out := filter (fun d => 0 < d) temp in
  n = Z.of_nat (length temp) -> n <= INT_MAX ->
  for32 0 n (fun i '(out_dims, last) =>
        let* e := aget temp i in
        if 0 <? e then
          let* out_dims := aset out_dims last (Some e) in
          ret (out_dims, last + 1)
        else ret (out_dims, last)) (replicate (length out) None, 0) E s
  = Done (Some <$> out, Z.of_nat (length out)) s.
Proof.
  intros out -> Hn.
  set (cur := fun k => filter (fun d => 0 < d) (take k temp)).
  rewrite (for32_pure (fun k => ((Some <$> cur k) ++ replicate (length out - length (cur k)) None,
    Z.of_nat (length (cur k)))) _ _ _ (length temp)).
  - unfold cur. rewrite firstn_all. fold out. rewrite Nat.sub_diag. cbn. by rewrite app_nil_r.
  - unfold cur. cbn. by rewrite Nat.sub_0_r.
  - lia.
  - done.
  - intros k Hk. rewrite Z.add_0_l. destruct (lookup_lt_is_Some_2 temp k Hk) as [d Hd].
    erewrite bind_done by (by apply aget_nat).
    pose proof (filter_take_len (fun d => 0 < d) temp (S k)) as Hl. fold out in Hl. unfold cur in *.
    rewrite (take_S_r _ _ _ Hd) in *. rewrite filter_app in *.
    destruct (Z.ltb_spec 0 d) as [Hd0|Hd0].
    + rewrite filter_cons_True in * by done. rewrite app_length in Hl |- *. cbn in Hl.
      erewrite bind_done.
      2:{ apply aset_nat. rewrite app_length, fmap_length, replicate_length. lia. }
      rewrite insert_app_r_alt by (rewrite fmap_length; lia).
      rewrite fmap_length, Nat.sub_diag. cbn.
      set (fk := filter _ (take k temp)) in *.
      replace (length out - length fk)%nat with (S (length out - (length fk + 1))) by lia.
      cbn. unfold ret. rewrite fmap_app, <-app_assoc. cbn. do 2 f_equal. lia.
    + rewrite filter_cons_False by lia. by rewrite app_nil_r.
Qed.

Lemma slice_create_rule p T bs ss ts o E s (Q : status * hval -> st -> Prop) :
  wf s -> alloc_all E -> hooks_ok E -> holds (heap s) p T ->
  slice_ok (a_dims T) bs ss ts ->
  (forall s' q pd pm ps px,
     tnew (e_alloc E) (ctr s) (heap s) s' q pd pm ps px (dtype_of (a_type T)) (a_dev T)
       (slice_dims ss ts) (cells (a_type T) (replicate (Z.to_nat (prodZ (slice_dims ss ts))) VU)) ->
     rpos s' = rpos s -> Q (SUCCESS, HPtr q) s') ->
  wp (slice_create_output (HPtr p) bs ss ts o) E s Q.
Proof.
  intros Hwf HA HE HT Hok HQ. unfold slice_create_output.
  pose proof HT as (HvT & bx & tg & ex & Hv & Hx).
  pose proof (valid_fits _ HvT) as Hfit. pose proof (fits_len _ _ Hfit) as Hlen.
  pose proof (slice_dims_fits _ _ _ _ _ Hok Hfit) as Hfit'.
  pose proof (slice_dims_le _ _ _ _ Hok) as [_ Hsl].
  eapply wp_step; [by eapply tensor_ndim_ok|].
  apply wp_scratch; [llia| |done]. cbn [is_null].
  set (s1 := st_alloc s _). assert (wf s1) as Hwf1 by (by apply wf_alloc).
  eapply wp_step; [by eapply slice_ext_loop|]. cbv beta match.
  apply wp_scratch; [llia| |done].
  set (s2 := st_alloc s1 _). assert (wf s2) as Hwf2 by (by apply wf_alloc).
  unfold arr. rewrite Nat2Z.id. rewrite (slice_dims_filter (a_dims T) bs ss ts) at 1 by done.
  eapply wp_step.
  { apply slice_collect_loop; [|done]. unfold slice_ext. rewrite zip_with_length.
    pose proof (slice_ok_len _ _ _ _ Hok). lia. }
  cbv beta match. rewrite <-(slice_dims_filter (a_dims T) bs ss ts) by done.
  assert (ctr s1 = S (ctr s)) as Hc1 by done.
  eapply wp_free; [done|unfold s2; cbn [st_alloc heap]; rewrite lookup_insert_ne by (rewrite Hc1; lia);
     apply st_alloc_lookup|done|].
  set (s3 := st_free s2 (ctr s)). assert (wf s3) as Hwf3 by (by apply wf_free).
  assert (heap s3 = <[ctr s1 := Blk (e_alloc E) (CRaw (8 * Z.of_nat (length (slice_dims ss ts))))]> (heap s)) as Hh3.
  { unfold s3, s2. cbn [st_free st_alloc heap]. rewrite delete_insert_ne by (rewrite Hc1; lia). f_equal.
    apply delete_insert. apply wf_fresh; [done|lia]. }
  assert (heap s !! ctr s1 = None) as Hf1 by (apply wf_fresh; [done|rewrite Hc1; lia]).
  assert (heap s ⊆ heap s3) as Hsub by (rewrite Hh3; by apply insert_subseteq).
  pose proof (view_mono _ _ _ _ _ _ _ _ Hsub Hv) as Hv3.
  eapply wp_step; [by eapply tensor_dtype_ok|].
  eapply wp_step; [by eapply tensor_device_ok|].
  eapply wp_step; [apply force_array_ok|].
  apply wp_bind. apply create_t_rule; [done|done| |done].
  intros s4 q pd pm ps px Ht Hr. cbv beta match.
  assert (heap s3 !! ctr s1 = Some (Blk (e_alloc E) (CRaw (8 * Z.of_nat (length (slice_dims ss ts)))))) as Hl3
    by (rewrite Hh3; by rewrite lookup_insert).
  eapply wp_free; [done|by eapply tnew_lookup|done|].
  apply wp_ret. eapply HQ; [|cbn; by rewrite Hr].
  eapply tnew_free in Ht; [|by eexists].
  rewrite Hh3 in Ht. rewrite delete_insert in Ht by done.
  eapply tnew_lo; [exact Ht|]. cbn. lia.
Qed.

(** ** slice_template *)
Lemma offs_loop dims n E s : n = Z.of_nat (length dims) -> (0 < length dims)%nat ->
  (forall k, 0 <= prodZ (drop k dims) <= INT64_MAX) ->
  (let* offs := aset (replicate (length dims) None) (n - 1) (Some 1) in
   let* offs := iter_down (Z.to_nat (n - 1)) (fun i offs =>
        let* f := uget offs (i + 1) in
        let* d := aget dims (i + 1) in
        let* m := ck64 (f * d) in
        aset offs i (Some m)) offs in
   force_array offs) E s = Done (suffs dims) s.
Proof.
  intros -> Hpos Hfit.
  set (f := fun k => (replicate k None) ++ (Some <$> drop k (suffs dims))).
  erewrite bind_done by (apply aset_Z; rewrite replicate_length; lia).
  erewrite (bind_done _ _ _ _ (f 0%nat)).
  2:{ apply (iter_down_pure f).
      - unfold f. replace (Z.to_nat (Z.of_nat (length dims) - 1)) with (length dims - 1)%nat by lia.
        assert (replicate (length dims) (@None Z) = replicate (length dims - 1) None ++ [None]) as ->.
        { rewrite <-replicate_S_end. f_equal. lia. }
        rewrite insert_app_r_alt by (rewrite replicate_length; lia).
        rewrite replicate_length, Nat.sub_diag. f_equal. cbn.
        rewrite (drop_S _ 1).
        2:{ rewrite suffs_lookup by lia. f_equal. by rewrite drop_ge by lia. }
        rewrite drop_ge by (rewrite suffs_length; lia). done.
      - intros k Hk. unfold f.
        assert (suffs dims !! S k = Some (prodZ (drop (S (S k)) dims))) as H1 by (apply suffs_lookup; lia).
        destruct (lookup_lt_is_Some_2 dims (S k)) as [d Hd]; [lia|].
        erewrite bind_done.
        2:{ apply uget_Z; [lia|]. replace (Z.to_nat (Z.of_nat k + 1)) with (S k) by lia.
            rewrite lookup_app_r by (rewrite replicate_length; lia).
            rewrite replicate_length, Nat.sub_diag, list_lookup_fmap, lookup_drop, Nat.add_0_r, H1.
            done. }
        erewrite bind_done.
        2:{ apply aget_Z; [lia|]. by replace (Z.to_nat (Z.of_nat k + 1)) with (S k) by lia. }
        assert (prodZ (drop (S (S k)) dims) * d = prodZ (drop (S k) dims)) as Hp.
        { rewrite (drop_lookup dims (S k) d Hd), prodZ_cons. lia. }
        rewrite Hp. erewrite bind_done by (apply ck64_ok; specialize (Hfit (S k)); llia).
        rewrite aset_nat.
        2:{ rewrite app_length, replicate_length, fmap_length, drop_length, suffs_length. lia. }
        f_equal. rewrite replicate_S_end, <-app_assoc.
        rewrite insert_app_r_alt by (rewrite replicate_length; lia).
        rewrite replicate_length, Nat.sub_diag. cbn. f_equal.
        rewrite (drop_S (suffs dims) (prodZ (drop (S k) dims)) k) by (apply suffs_lookup; lia). done. }
  unfold f. cbn. apply force_array_ok.
Qed.

Lemma bind_assoc {A B C} (m : M A) (k : A -> M B) (j : B -> M C) E s :
  bind (bind m k) j E s = bind m (fun a => bind (k a) j) E s.
Proof. unfold bind. by destruct (m E s). Qed.
Lemma wp_assoc {A B C} (m : M A) (k : A -> M B) (j : B -> M C) E s Q :
  wp (bind (bind m k) j) E s Q -> wp (bind m (fun a => bind (k a) j)) E s Q.
Proof. unfold wp. by rewrite bind_assoc. Qed.

(** Three scratch blocks on top of a fresh tensor *)
Lemma slice_advance_ok ds bs ss ts k E s :
  slice_ok ds bs ss ts ->
  slice_advance (Z.of_nat (length ds)) bs ts (zip_with (fun b s => b + s - 1) bs ss)
    (slice_pos bs ts (unravel (slice_es ss ts) k)) E s
  = Done (slice_pos bs ts (unravel (slice_es ss ts) (k + 1))) s.
Proof.
  intros Hok. unfold slice_advance. rewrite Nat2Z.id.
  pose proof (slice_ok_len _ _ _ _ Hok) as (H1 & H2 & H3).
  assert (length (slice_es ss ts) = length ds) as Hle.
  { unfold slice_es, slice_ext. rewrite fmap_length, zip_with_length. lia. }
  rewrite <-Hle. apply (odometer (slice_pos bs ts) (slice_es ss ts)); [apply slice_es_pos|].
  intros i e c x He Hc Hx.
  assert (i < length ds)%nat as Hi by (rewrite <-Hle; by eapply lookup_lt_Some).
  destruct (slice_ok_get _ _ _ _ i Hok Hi) as (d & b & sz & t & Hd & Hb & Hs & Ht & H).
  pose proof (in_box_length _ _ Hc) as Hlc.
  assert (e = Z.max 1 (cdiv sz t)) as ->.
  { unfold slice_es, slice_ext in He. rewrite list_lookup_fmap, lookup_zip_with, Hs, Ht in He.
    cbn in He. congruence. }
  pose proof (Forall2_lookup_lr _ _ _ _ _ _ Hc He Hx) as Hxr. cbn beta in Hxr.
  assert (0 <= t * x <= sz) as Htx.
  { assert (x < cdiv sz t \/ x = 0) as [Hlt| ->] by lia; [|lia]. apply cdiv_spec in Hlt; nia. }
  erewrite bind_done by (apply aget_nat; by apply slice_pos_lookup).
  erewrite bind_done by (by apply aget_nat).
  erewrite bind_done by (apply ck64_ok; llia).
  erewrite bind_done.
  2:{ apply aget_nat. rewrite lookup_zip_with, Hb, Hs. done. }
  pose proof (cdiv_spec sz t (x + 1) ltac:(lia)) as Hcs.
  assert ((b + sz - 1 <? b + t * x + t) = negb (x + 1 <? Z.max 1 (cdiv sz t))) as ->.
  { apply eq_iff_eq_true. rewrite negb_true_iff, Z.ltb_lt, Z.ltb_ge. split.
    - intros Hlt. destruct (Z.le_gt_cases (Z.max 1 (cdiv sz t)) (x + 1)); [done|].
      assert (x + 1 < cdiv sz t) as Hy by lia. apply Hcs in Hy. lia.
    - intros Hge. destruct (Z.lt_ge_cases (b + sz - 1) (b + t * x + t)); [done|].
      assert (t * (x + 1) < sz) as Hy by lia. apply Hcs in Hy. lia. }
  assert ((i < length (slice_pos bs ts c))%nat) as Hil.
  { rewrite slice_pos_length by lia. lia. }
  destruct (x + 1 <? Z.max 1 (cdiv sz t)) eqn:Hgo; cbn [negb].
  - erewrite bind_done by (by apply aset_nat). erewrite slice_pos_insert by done.
    by replace (b + t * (x + 1)) with (b + t * x + t) by lia.
  - erewrite bind_done by (by apply aget_nat).
    erewrite bind_done by (by apply aset_nat). erewrite slice_pos_insert by done.
    by replace (b + t * 0) with b by lia.
Qed.

Lemma slice_template_rule p T bs ss ts q pd pm ps px lo E s (Q : status -> st -> Prop) base :
  alloc_all E -> hooks_ok E -> holds base p T -> (0 < length (a_dims T))%nat ->
  slice_ok (a_dims T) bs ss ts -> prodZ (slice_dims ss ts) <= INT_MAX ->
  tnew (e_alloc E) lo base s q pd pm ps px (dtype_of (a_type T)) (a_dev T)
     (slice_dims ss ts) (cells (a_type T) (replicate (Z.to_nat (prodZ (slice_dims ss ts))) VU)) ->
  (forall s',
     tnew (e_alloc E) lo base s' q pd pm ps px (dtype_of (a_type T)) (a_dev T)
       (slice_dims ss ts) (cells (a_type T) (tab (slice_dims ss ts) (fun c => at_ T (slice_src bs ss ts c)))) ->
     rpos s' = rpos s -> Q SUCCESS s') ->
  wp (slice_template (HPtr p) bs ss ts (HPtr q)) E s Q.
Proof.
  intros HA HE HT Hpos Hok Hmax Hn HQ. unfold slice_template.
  pose proof HT as (HvT & bx & tg & ex & Hv & Hx).
  pose proof (valid_fits _ HvT) as Hfit. pose proof (fits_len _ _ Hfit) as Hlen.
  pose proof (slice_ok_len _ _ _ _ Hok) as (H1 & H2 & H3).
  pose proof (fits_size _ _ (tsz_pos _) Hfit) as Hsize.
  pose proof (slice_dims_pos _ _ _ _ Hok) as Hsp. apply prodZ_pos in Hsp as Hspp.
  pose proof (view_mono _ _ _ _ _ _ _ _ (tnew_base _ _ Hn) Hv) as Hv0.
  eapply wp_step; [by eapply tensor_ndim_ok|].
  eapply wp_step; [by eapply tensor_dims_ok|].
  apply wp_scratch; [llia| |done]. set (b1 := ctr s). set (x1 := Blk _ _). set (s1 := st_alloc s x1).
  apply wp_scratch; [llia| |done]. set (b2 := ctr s1). fold x1. set (s2 := st_alloc s1 x1).
  apply wp_scratch; [llia| |done]. set (b3 := ctr s2). fold x1. set (s3 := st_alloc s2 x1).
  cbn [is_null orb].
  apply tnew_alloc with (x := x1) in Hn as Hn1. fold s1 b1 in Hn1.
  apply tnew_alloc with (x := x1) in Hn1 as Hn2. fold s2 b2 in Hn2.
  apply tnew_alloc with (x := x1) in Hn2 as Hn3. fold s3 b3 in Hn3.
  eapply wp_step.
  { rewrite (for32_pure (fun k => (take k bs, take k (zip_with (fun b s => b + s - 1) bs ss)))
      _ _ _ (length (a_dims T))).
    - rewrite !take_ge by (rewrite ?zip_with_length; lia). reflexivity.
    - done.
    - lia.
    - done.
    - intros k Hk. rewrite Z.add_0_l.
      destruct (slice_ok_get _ _ _ _ k Hok Hk) as (d & b & sz & t & Hd & Hb & Hs & Ht & H).
      erewrite bind_done by (by apply aget_nat).
      erewrite bind_done by (by apply aget_nat).
      erewrite bind_done by (apply ck64_ok; llia).
      rewrite (take_S_r _ _ _ Hb).
      assert (zip_with (fun b s => b + s - 1) bs ss !! k = Some (b + sz - 1)) as Hz
        by (rewrite lookup_zip_with, Hb, Hs; done).
      rewrite (take_S_r _ _ _ Hz). done. }
  cbv beta match. unfold arr at 1. rewrite Nat2Z.id.
  apply wp_assoc. apply wp_assoc.
  eapply wp_step.
  { rewrite bind_assoc. apply offs_loop; [done|done|]. intros k. by eapply fits_drop; [apply tsz_pos|]. }
  assert (b1 <> b2 /\ b1 <> b3 /\ b2 <> b3 /\ b2 = S b1 /\ b3 = S (S b1)) as (Hb12 & Hb13 & Hb23 & Hb2 & Hb3).
  { unfold b3, b2, b1, s2, s1. cbn. lia. }
  assert (forall b, (b1 <= b)%nat -> base !! b = None) as Hfr.
  { intros b Hb. destruct (base !! b) eqn:Hbb; [|done].
    destruct Hn as (_ & _ & _ & _ & Hlt). specialize (Hlt b ltac:(eauto)). unfold b1 in Hb. lia. }
  assert (base ⊆ <[b3:=x1]> (<[b2:=x1]> (<[b1:=x1]> base))) as Hsub.
  { etrans; [|apply insert_subseteq; lkup; apply Hfr; lia].
    etrans; [|apply insert_subseteq; lkup; apply Hfr; lia].
    apply insert_subseteq. apply Hfr. lia. }
  pose proof (view_mono _ _ _ _ _ _ _ _ Hsub Hv) as Hvb.
  pose proof (view_mono _ _ _ _ _ _ _ _ (tnew_base _ _ Hn3) Hvb) as Hv3.
  eapply wp_step; [by eapply tensor_dtype_ok|]. rewrite dispatch_all_t.
  apply wp_bind. unfold slice_kernel.
  eapply wp_step; [by eapply tensor_data_ok|].
  eapply wp_step; [by eapply tensor_data_ok, tnew_view|].
  eapply wp_step; [by eapply tensor_size_ok, tnew_view|].
  eapply (wp_fill32_acc (Z.to_nat (prodZ (slice_dims ss ts)))
    (fun k => at_ T (slice_pos bs ts (unravel (slice_es ss ts) (Z.of_nat k))))
    (fun k => slice_pos bs ts (unravel (slice_es ss ts) (Z.of_nat k))));
    [exact Hn3| |lia|lia| |].
  - assert (length (slice_es ss ts) = length bs) as Hle.
    { unfold slice_es, slice_ext. rewrite fmap_length, zip_with_length. lia. }
    clear -Hle H1 H3. assert (length ts = length bs) as Ht by lia. clear H1 H3. revert Hle Ht.
    generalize (slice_es ss ts). revert ts.
    induction bs as [|b bs IH]; intros [|t ts] [|e es] Hl Ht; try done.
    cbn. rewrite Zdiv_0_l, Zmod_0_l. f_equal; [lia|]. apply IH; cbn in *; lia.
  - intros k vs s' Hk Hvs Ht' Hr'.
    assert (in_box (a_dims T) (slice_pos bs ts (unravel (slice_es ss ts) (Z.of_nat k)))) as Hbox.
    { eapply slice_pos_in_box; [done|]. apply unravel_in_box. apply slice_es_pos. }
    pose proof (ravel_bound _ _ Hbox) as Hrb.
    erewrite bind_done by (apply linear_loop; [done|done|done|done|lia]).
    assert (exists v, a_vals T !! Z.to_nat (ravel (a_dims T) (slice_pos bs ts (unravel (slice_es ss ts) (Z.of_nat k)))) = Some v) as [v Hvk].
    { apply lookup_lt_is_Some_2. pose proof (valid_len _ HvT). lia. }
    erewrite bind_done.
    2:{ rewrite <-(Z2Nat.id (ravel _ _)) by lia. eapply loadi_cells; [|exact Hvk].
        eapply tnew_lookup; [exact Ht'|]. by eapply lookup_weaken. }
    unfold at_. rewrite Hvk. cbn [default].
    erewrite bind_done by (eapply tnew_storei; [exact Ht'|lia]).
    rewrite slice_advance_ok by done.
    by replace (Z.of_nat (S k)) with (Z.of_nat k + 1) by lia.
  - intros s4 Ht4 Hr4. apply wp_ret.
    eapply wp_free; [done|eapply tnew_lookup; [exact Ht4|]; lkup; done|done|].
    apply tnew_free with (b := b1) in Ht4; [|lkup; eauto].
    eapply wp_free; [done|eapply tnew_lookup; [exact Ht4|]; rewrite lookup_delete_ne by done; lkup; done|done|].
    apply tnew_free with (b := b2) in Ht4; [|rewrite lookup_delete_ne by done; lkup; eauto].
    eapply wp_free; [done|eapply tnew_lookup; [exact Ht4|]; rewrite !lookup_delete_ne by done; lkup; done|done|].
    apply tnew_free with (b := b3) in Ht4; [|rewrite !lookup_delete_ne by done; lkup; eauto].
    apply wp_ret. apply HQ; [|cbn; by rewrite Hr4].
    rewrite (delete_insert_ne _ b1 b3), (delete_insert_ne _ b1 b2) in Ht4 by done.
    rewrite (delete_insert base b1) in Ht4 by (apply Hfr; lia).
    rewrite (delete_insert_ne _ b2 b3) in Ht4 by done.
    rewrite (delete_insert base b2) in Ht4 by (apply Hfr; lia).
    rewrite (delete_insert base b3) in Ht4 by (apply Hfr; lia).
    unfold tab. erewrite list_fmap_ext; [exact Ht4|].
    intros i k _. cbv beta. by erewrite slice_src_pos.
Qed.

(** ** aitisa_slice *)
Lemma slice_rule p T bs ss ts o E s :
  wf s -> alloc_all E -> hooks_ok E -> holds (heap s) p T ->
  a_dims T <> [] -> slice_ok (a_dims T) bs ss ts -> prodZ (slice_dims ss ts) <= INT_MAX ->
  makes (aitisa_slice (HPtr p) bs ss ts o) E s
    (AT (a_type T) (a_dev T) (slice_dims ss ts)
        (tab (slice_dims ss ts) (fun c => at_ T (slice_src bs ss ts c)))).
Proof.
  intros Hwf HA HE HT Hne Hok Hmax.
  eapply makes_or_nomem_alloc with (o := o); [done|]. apply Qmakes_elim. unfold aitisa_slice.
  pose proof HT as (HvT & bx & tg & ex & Hv & Hx).
  pose proof (valid_fits _ HvT) as Hfit.
  eapply wp_step; [by eapply slice_check_ok|].
  rewrite bool_decide_eq_true_2 by done. cbn [negb].
  apply wp_bind. eapply slice_create_rule; [done..|].
  intros s1 q pd pm ps px Ht Hr. cbv beta match. rewrite bool_decide_eq_true_2 by done. cbn [negb].
  apply wp_bind. eapply slice_template_rule; [done|done|exact HT| |done|done|exact Ht|].
  { destruct (a_dims T); [done|cbn; lia]. }
  intros s2 Ht2 Hr2. apply wp_ret. left. exists q. split; [done|].
  eapply tnew_makes; [done| |exact Ht2|by rewrite Hr2].
  apply tab_valid. by eapply slice_dims_fits.
Qed.

(** ** Rejection *)
Lemma first_failure (P : nat -> Prop) `{!forall i, Decision (P i)} n :
  (forall i, (i < n)%nat -> P i) \/
  exists j, (j < n)%nat /\ ~ P j /\ forall i, (i < j)%nat -> P i.
Proof.
  induction n as [|n [IH|(j & Hj & Hn & Hb)]].
  - left. lia.
  - destruct (decide (P n)) as [Hp|Hp].
    + left. intros i Hi. destruct (decide (i = n)) as [->|]; [done|]. apply IH. lia.
    + right. exists n. auto.
  - right. exists j. split_and!; [lia|done|done].
Qed.

Lemma slice_ok_intro ds bs ss ts :
  length bs = length ds -> length ss = length ds -> length ts = length ds ->
  (forall i d b s t, ds !! i = Some d -> bs !! i = Some b -> ss !! i = Some s -> ts !! i = Some t ->
    0 <= b < d /\ 0 <= s /\ b + s <= d /\ b + s <= INT_MAX /\ 1 <= t <= INT_MAX) ->
  slice_ok ds bs ss ts.
Proof.
  revert bs ss ts. induction ds as [|d ds IH]; intros [|b bs] [|s ss] [|t ts]; cbn; intros H1 H2 H3 H;
    try done. split.
  - by apply (H 0%nat).
  - apply IH; [lia|lia|lia|]. intros i ????. apply (H (S i)).
Qed.

Lemma slice_reject p T bs ss ts o E s :
  holds (heap s) p T ->
  length bs = length (a_dims T) -> length ss = length (a_dims T) -> length ts = length (a_dims T) ->
  Forall (fun z => INT_MIN <= z <= INT_MAX) bs -> Forall (fun z => z <= INT_MAX) ts ->
  Forall2 (fun b s => b + s <= INT_MAX) bs ss ->
  ~ slice_ok (a_dims T) bs ss ts ->
  refuses (aitisa_slice (HPtr p) bs ss ts o) E s o INVALID_ARGUMENT.
Proof.
  intros (HvT & bx & tg & ex & Hv & Hx) Hlb Hls Hlt Hbi Hti Hbs Hno.
  set (P := fun i => match a_dims T !! i, bs !! i, ss !! i, ts !! i with
    | Some d, Some b, Some s, Some t => 0 <= b < d /\ 0 <= s /\ b + s <= d /\ 1 <= t
    | _, _, _, _ => False end).
  assert (forall i, Decision (P i)) as Hdec.
  { intros i. unfold P. repeat case_match; apply _. }
  destruct (first_failure P (length (a_dims T))) as [Hall|(j & Hj & HnP & Hbefore)].
  { destruct Hno. apply slice_ok_intro; [done..|]. intros i d b sz t Hd Hb Hs Ht.
    specialize (Hall i ltac:(by eapply lookup_lt_Some)). unfold P in Hall.
    rewrite Hd, Hb, Hs, Ht in Hall.
    pose proof (Forall2_lookup_lr _ _ _ _ _ _ Hbs Hb Hs) as H1.
    eapply Forall_lookup in Hti; [|exact Ht]. cbn in *. lia. }
  unfold refuses, aitisa_slice, slice_check_parameters.
  erewrite (bind_done _ _ _ _ INVALID_ARGUMENT s); [done|].
  erewrite bind_done by (by eapply tensor_ndim_ok).
  erewrite bind_done by (by eapply tensor_dims_ok).
  rewrite Nat2Z.id.
  assert (forall k, (k <= j)%nat -> exists d b sz t, a_dims T !! k = Some d /\ bs !! k = Some b /\
    ss !! k = Some sz /\ ts !! k = Some t /\ INT_MIN <= b <= INT_MAX /\ b + sz <= INT_MAX) as Hget.
  { intros k Hk.
    destruct (lookup_lt_is_Some_2 (a_dims T) k) as [d Hd]; [lia|].
    destruct (lookup_lt_is_Some_2 bs k) as [b Hb]; [lia|].
    destruct (lookup_lt_is_Some_2 ss k) as [sz Hs]; [lia|].
    destruct (lookup_lt_is_Some_2 ts k) as [t Ht]; [lia|].
    exists d, b, sz, t. pose proof (Forall2_lookup_lr _ _ _ _ _ _ Hbs Hb Hs) as H1.
    eapply Forall_lookup in Hbi; [|exact Hb]. done. }
  assert (forall k (x : status), (k <= j)%nat -> 
    (let* b := aget bs (Z.of_nat k) in
      let* d := aget (a_dims T) (Z.of_nat k) in
      let* s := aget ss (Z.of_nat k) in
      let* cond_size := if s <? 0 then ret true
                        else let* e := ck32 (b + s) in ret (d <? e) in
      let* st := aget ts (Z.of_nat k) in
      let cond_begin := (b <? 0) || (d <=? b) in
      let cond_step := st <? 1 in
      if cond_begin || cond_size || cond_step then ret (Return x)
      else ret (Next tt)) E s = (if decide (P k) then Done (Next tt) s else Done (Return x) s)) as Hstep.
  { intros k x Hk. destruct (Hget k Hk) as (d & b & sz & t & Hd & Hb & Hs & Ht & Hbr & Hsr).
    erewrite bind_done by (by apply aget_nat).
    erewrite bind_done by (by apply aget_nat).
    erewrite bind_done by (by apply aget_nat).
    erewrite (bind_done _ _ _ _ ((sz <? 0) || (d <? b + sz)) s).
    2:{ destruct (Z.ltb_spec sz 0); [done|]. erewrite bind_done by (apply ck32_ok; llia). done. }
    erewrite bind_done by (by apply aget_nat). cbv zeta.
    assert (P k <-> 0 <= b < d /\ 0 <= sz /\ b + sz <= d /\ 1 <= t) as HP.
    { unfold P. by rewrite Hd, Hb, Hs, Ht. }
    destruct (decide (P k)) as [Hp|Hp]; rewrite HP in Hp.
    - replace (_ || _) with false by lia. done.
    - replace ((b <? 0) || (d <=? b) || ((sz <? 0) || (d <? b + sz)) || (t <? 1)) with true by lia. done. }
  rewrite (bind_done _ _ _ _ (Return INVALID_ARGUMENT) s); [done|].
  apply (iter_ret_exit (fun _ => tt) INVALID_ARGUMENT _ _ _ j); [done|done| |].
  - intros k Hk. rewrite Z.add_0_l. rewrite Hstep by lia.
    rewrite decide_True; [done|]. by apply Hbefore.
  - rewrite Z.add_0_l. rewrite Hstep by lia. by rewrite decide_False.
Qed.

(** ** aitisa_duplicate *)
Definition zeros (n : nat) : list Z := replicate n 0.
Definition ones (n : nat) : list Z := replicate n 1.
Lemma dup_ok dims : Forall (fun d => 0 < d <= INT_MAX) dims ->
  slice_ok dims (zeros (length dims)) dims (ones (length dims)).
Proof. induction 1 as [|d ds Hd H IH]; [done|]. cbn. split; [llia|done]. Qed.
Lemma dup_dims dims : Forall (fun d => 0 < d <= INT_MAX) dims ->
  slice_dims dims (ones (length dims)) = dims.
Proof.
  induction 1 as [|d ds Hd H IH]; [done|]. cbn. replace (d =? 0) with false by lia.
  fold (ones (length ds)). rewrite IH. f_equal. unfold cdiv. rewrite Z.div_1_r. lia.
Qed.
Lemma dup_src dims c : Forall (fun d => 0 < d <= INT_MAX) dims -> in_box dims c ->
  slice_src (zeros (length dims)) dims (ones (length dims)) c = c.
Proof.
  intros H. revert c. induction H as [|d ds Hd H IH]; intros c Hc; [by inversion Hc|].
  destruct c as [|i c]; [by inversion Hc|]. apply in_box_cons in Hc as [Hi Hc].
  cbn. replace (d =? 0) with false by lia. f_equal; [lia|]. by apply IH.
Qed.
(** Slicing the full box with step 1 gives the tensor back. *)
Lemma slice_full_box T : valid T -> Forall (fun d => 0 < d <= INT_MAX) (a_dims T) ->
  AT (a_type T) (a_dev T) (slice_dims (a_dims T) (ones (length (a_dims T))))
     (tab (slice_dims (a_dims T) (ones (length (a_dims T)))) (fun c =>
        at_ T (slice_src (zeros (length (a_dims T))) (a_dims T) (ones (length (a_dims T))) c))) = T.
Proof.
  intros HT Hd. rewrite dup_dims by done.
  rewrite (tab_ext _ _ (at_ T)).
  - rewrite tab_at by done. by destruct T.
  - intros c Hc. by rewrite dup_src.
  - apply HT.
Qed.

(** What duplicate computes in general: the slice given by the truncated extents. *)
Lemma duplicate_gen p T o E s :
  let sz := to_int <$> a_dims T in
  let n := length (a_dims T) in
  wf s -> alloc_all E -> hooks_ok E -> holds (heap s) p T -> a_dims T <> [] ->
  slice_ok (a_dims T) (zeros n) sz (ones n) -> prodZ (slice_dims sz (ones n)) <= INT_MAX ->
  makes (aitisa_duplicate (HPtr p) o) E s
    (AT (a_type T) (a_dev T) (slice_dims sz (ones n))
        (tab (slice_dims sz (ones n)) (fun c => at_ T (slice_src (zeros n) sz (ones n) c)))).
Proof.
  intros sz n Hwf HA HE HT Hne Hok Hmax.
  eapply makes_or_nomem_alloc with (o := o); [done|]. apply Qmakes_elim. unfold aitisa_duplicate.
  pose proof HT as (HvT & bx & tg & ex & Hv & Hx).
  pose proof (valid_fits _ HvT) as Hfit. pose proof (fits_len _ _ Hfit) as Hlen.
  eapply wp_step; [by eapply tensor_dims_ok|].
  eapply wp_step; [by eapply tensor_ndim_ok|]. cbv zeta.
  rewrite to_int_id by llia.
  apply wp_scratch; [llia| |done]. set (b1 := ctr s). set (x1 := Blk _ _). set (s1 := st_alloc s x1).
  apply wp_scratch; [llia| |done]. set (b2 := ctr s1). fold x1. set (s2 := st_alloc s1 x1).
  apply wp_scratch; [llia| |done]. set (b3 := ctr s2). fold x1. set (s3 := st_alloc s2 x1).
  cbn [is_null orb].
  assert (wf s1) as Hwf1 by (by apply wf_alloc).
  assert (wf s2) as Hwf2 by (by apply wf_alloc).
  assert (wf s3) as Hwf3 by (by apply wf_alloc).
  assert (keeps s s3) as Hk3.
  { eapply keeps_trans; [by apply keeps_alloc|]. eapply keeps_trans; by apply keeps_alloc. }
  eapply wp_step.
  { rewrite (for64_pure (fun k => (zeros k, take k sz, ones k)) _ _ _ (length (a_dims T))).
    - rewrite take_ge by (unfold sz; rewrite fmap_length; lia). reflexivity.
    - done.
    - lia.
    - intros k Hk. rewrite Z.add_0_l.
      destruct (lookup_lt_is_Some_2 (a_dims T) k) as [d Hdk]; [lia|].
      erewrite bind_done by (by apply aget_nat).
      assert (sz !! k = Some (to_int d)) as Hsk by (unfold sz; by rewrite list_lookup_fmap, Hdk).
      rewrite (take_S_r _ _ _ Hsk).
      unfold zeros, ones. rewrite !replicate_S_end. done. }
  cbv beta match.
  destruct (slice_rule p T (zeros n) sz (ones n) HUndef E s3)
    as (s4 & q & Hr & Hc); [done|done|done| |done|done|done|].
  { eapply holds_mono; [by eapply keeps_sub|done]. }
  eapply wp_step; [exact Hr|]. cbv beta match. rewrite bool_decide_eq_true_2 by done. cbv zeta.
  assert (b1 <> b2 /\ b1 <> b3 /\ b2 <> b3 /\ b2 = S b1 /\ b3 = S (S b1)) as (Hb12 & Hb13 & Hb23 & Hb2 & Hb3).
  { unfold b3, b2, b1, s2, s1. cbn. lia. }
  assert (heap s3 = <[b3:=x1]> (<[b2:=x1]> (<[b1:=x1]> (heap s)))) as Hh3 by done.
  assert (forall b, (b1 <= b)%nat -> heap s !! b = None) as Hfr.
  { intros b Hb. by apply wf_fresh. }
  eapply wp_free; [done|eapply lookup_weaken; [|by eapply created_sub]; rewrite Hh3; lkup; done|done|].
  apply created_free with (b := b1) in Hc; [|rewrite Hh3; lkup; eauto].
  eapply wp_free; [done|eapply lookup_weaken; [|by eapply created_sub]; cbn [st_free heap];
    rewrite lookup_delete_ne by done; rewrite Hh3; lkup; done|done|].
  apply created_free with (b := b2) in Hc; [|cbn [st_free heap];
    rewrite lookup_delete_ne by done; rewrite Hh3; lkup; eauto].
  eapply wp_free; [done|eapply lookup_weaken; [|by eapply created_sub]; cbn [st_free heap];
    rewrite !lookup_delete_ne by done; rewrite Hh3; lkup; done|done|].
  apply created_free with (b := b3) in Hc; [|cbn [st_free heap];
    rewrite !lookup_delete_ne by done; rewrite Hh3; lkup; eauto].
  apply wp_ret. left. exists q. split; [done|].
  eapply (created_rebase _ s _ _ _ _ _ 0) in Hc; [exact Hc| |cbn; unfold b1; lia|cbn; lia].
  cbn [st_free heap]. rewrite Hh3.
  rewrite (delete_insert_ne _ b1 b3), (delete_insert_ne _ b1 b2) by done.
  rewrite (delete_insert (heap s) b1) by (apply Hfr; lia).
  rewrite (delete_insert_ne _ b2 b3) by done.
  rewrite (delete_insert (heap s) b2) by (apply Hfr; lia).
  rewrite (delete_insert (heap s) b3) by (apply Hfr; lia). done.
Qed.

Lemma duplicate_rule p T o E s :
  wf s -> alloc_all E -> hooks_ok E -> holds (heap s) p T -> a_dims T <> [] ->
  Forall (fun d => 0 < d <= INT_MAX) (a_dims T) -> prodZ (a_dims T) <= INT_MAX ->
  makes (aitisa_duplicate (HPtr p) o) E s T.
Proof.
  intros Hwf HA HE HT Hne Hd Hmax.
  assert (to_int <$> a_dims T = a_dims T) as Hsz.
  { clear -Hd. induction Hd as [|d ds Hd H IH]; [done|]. cbn [fmap list_fmap].
    change (list_fmap Z Z to_int ds) with (to_int <$> ds). rewrite IH, to_int_id by llia. done. }
  pose proof (duplicate_gen p T o E s) as H. cbv zeta in H. rewrite Hsz in H.
  rewrite slice_full_box in H by (done || apply HT). rewrite dup_dims in H by done.
  apply H; try done. by apply dup_ok.
Qed.

(** A zero extent is reported, and memory is restored. *)
Lemma duplicate_zero p T o E s :
  wf s -> alloc_all E -> hooks_ok E -> holds (heap s) p T ->
  Forall (fun d => d <= INT_MAX) (a_dims T) -> 0 ∈ a_dims T ->
  exists s', aitisa_duplicate (HPtr p) o E s = Done (INVALID_ARGUMENT, o) s' /\ heap s' = heap s.
Proof.
  intros Hwf HA HE HT Hd H0.
  assert (wp (aitisa_duplicate (HPtr p) o) E s (fun r s' => r = (INVALID_ARGUMENT, o) /\ heap s' = heap s)) as Hw.
  2:{ apply wp_elim in Hw as (r & s' & Hr & -> & Hh). eauto. }
  unfold aitisa_duplicate.
  pose proof HT as (HvT & bx & tg & ex & Hv & Hx).
  pose proof (valid_fits _ HvT) as Hfit. pose proof (fits_len _ _ Hfit) as Hlen.
  eapply wp_step; [by eapply tensor_dims_ok|].
  eapply wp_step; [by eapply tensor_ndim_ok|]. cbv zeta.
  rewrite to_int_id by llia.
  apply wp_scratch; [llia| |done]. set (b1 := ctr s). set (x1 := Blk _ _). set (s1 := st_alloc s x1).
  apply wp_scratch; [llia| |done]. set (b2 := ctr s1). fold x1. set (s2 := st_alloc s1 x1).
  apply wp_scratch; [llia| |done]. set (b3 := ctr s2). fold x1. set (s3 := st_alloc s2 x1).
  cbn [is_null orb].
  assert (wf s1) as Hwf1 by (by apply wf_alloc).
  assert (wf s2) as Hwf2 by (by apply wf_alloc).
  assert (keeps s s3) as Hk3.
  { eapply keeps_trans; [by apply keeps_alloc|]. eapply keeps_trans; by apply keeps_alloc. }
  eapply wp_step.
  { rewrite (for64_pure (fun k => (zeros k, take k (a_dims T), ones k)) _ _ _ (length (a_dims T))).
    - rewrite take_ge by lia. reflexivity.
    - done.
    - lia.
    - intros k Hk. rewrite Z.add_0_l.
      destruct (lookup_lt_is_Some_2 (a_dims T) k) as [d Hdk]; [lia|].
      erewrite bind_done by (by apply aget_nat).
      eapply Forall_lookup in Hd as Hdr; [|exact Hdk]. cbn in Hdr.
      destruct Hfit as [Hnn _]. eapply Forall_lookup in Hnn; [|exact Hdk]. cbn in Hnn.
      rewrite to_int_id by llia. rewrite (take_S_r _ _ _ Hdk).
      unfold zeros, ones. rewrite !replicate_S_end. done. }
  cbv beta match.
  eapply wp_step.
  { apply (slice_reject p T).
    - eapply holds_mono; [by eapply keeps_sub|done].
    - apply replicate_length.
    - done.
    - apply replicate_length.
    - apply Forall_replicate. llia.
    - apply Forall_replicate. llia.
    - clear -Hd. induction Hd; cbn; [constructor|]. constructor; [lia|done].
    - intros Hok. apply elem_of_list_lookup in H0 as [i Hi].
      destruct (slice_ok_get _ _ _ _ i Hok) as (d & b & sz & t & Hd' & H); [by eapply lookup_lt_Some|].
      simplify_eq. lia. }
  cbv beta match. rewrite bool_decide_eq_false_2 by done. cbv zeta.
  assert (b1 <> b2 /\ b1 <> b3 /\ b2 <> b3 /\ b2 = S b1 /\ b3 = S (S b1)) as (Hb12 & Hb13 & Hb23 & Hb2 & Hb3).
  { unfold b3, b2, b1, s2, s1. cbn. lia. }
  assert (heap s3 = <[b3:=x1]> (<[b2:=x1]> (<[b1:=x1]> (heap s)))) as Hh3 by done.
  assert (forall b, (b1 <= b)%nat -> heap s !! b = None) as Hfr.
  { intros b Hb. by apply wf_fresh. }
  eapply wp_free; [done|rewrite Hh3; lkup; done|done|].
  eapply wp_free; [done|cbn [st_free heap]; rewrite lookup_delete_ne by done; rewrite Hh3; lkup; done|done|].
  eapply wp_free; [done|cbn [st_free heap]; rewrite !lookup_delete_ne by done; rewrite Hh3; lkup; done|done|].
  apply wp_ret. split; [done|]. cbn [st_free heap]. rewrite Hh3.
  rewrite (delete_insert_ne _ b1 b3), (delete_insert_ne _ b1 b2) by done.
  rewrite (delete_insert (heap s) b1) by (apply Hfr; lia).
  rewrite (delete_insert_ne _ b2 b3) by done.
  rewrite (delete_insert (heap s) b2) by (apply Hfr; lia).
  rewrite (delete_insert (heap s) b3) by (apply Hfr; lia). done.
Qed.
