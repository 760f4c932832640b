(** * ProofLayout: strides and offsets for an arbitrary layout order *)
From stdpp Require Import gmap list.
From Coq Require Import ZArith Lia.
From Coq Require Import ZifyBool ZifyNat.
From Verif Require Import Base Mem Spec ModelCore ModelBasic Logic ProofCore ProofIndex.
Open Scope Z_scope.

Ltac Zify.zify_post_hook ::= Z.div_mod_to_equations.

Lemma Forall2_rev {A B} (P : A -> B -> Prop) l k : Forall2 P l k -> Forall2 P (rev l) (rev k).
Proof.
  induction 1; cbn; [constructor|]. apply Forall2_app; [done|]. by repeat constructor.
Qed.

(** [l] read in layout order. *)
Definition perm (order l : list Z) : list Z := (fun m => default 0 (l !! Z.to_nat m)) <$> order.

Lemma perm_length order l : length (perm order l) = length order.
Proof. apply fmap_length. Qed.
Lemma perm_app o1 o2 l : perm (o1 ++ o2) l = perm o1 l ++ perm o2 l.
Proof. apply fmap_app. Qed.
Lemma perm_take k order l : take k (perm order l) = perm (take k order) l.
Proof. unfold perm. by rewrite fmap_take. Qed.

Lemma fmap_seq_lookup (l : list Z) :
  (fun m => default 0 (l !! Z.to_nat m)) <$> (Z.of_nat <$> seq 0 (length l)) = l.
Proof.
  apply list_eq. intros i. rewrite !list_lookup_fmap.
  destruct (l !! i) as [x|] eqn:Hx.
  - rewrite lookup_seq_lt by (by apply lookup_lt_Some in Hx). cbn.
    by rewrite Nat2Z.id, Hx.
  - apply lookup_ge_None in Hx. rewrite lookup_seq_ge by done. done.
Qed.

Lemma prodZ_perm l k : Permutation l k -> prodZ l = prodZ k.
Proof.
  induction 1; [done|by rewrite !prodZ_cons, IHPermutation|rewrite !prodZ_cons; ring|congruence].
Qed.
Definition sumZ (l : list Z) : Z := foldr Z.add 0 l.
Lemma sumZ_perm l k : Permutation l k -> sumZ l = sumZ k.
Proof.
  induction 1; cbn; [done|unfold sumZ in *; lia|unfold sumZ in *; lia|congruence].
Qed.
Lemma sumZ_app l k : sumZ (l ++ k) = sumZ l + sumZ k.
Proof. unfold sumZ. induction l; cbn in *; lia. Qed.

Section layout.
Context {n : nat} {order : list Z} (Hlay : layout n order).

Lemma layout_length : length order = n.
Proof using Hlay. rewrite Hlay. by rewrite fmap_length, seq_length. Qed.
Lemma layout_elem m : m ∈ order <-> 0 <= m < Z.of_nat n.
Proof using Hlay.
  rewrite Hlay, elem_of_list_fmap. split.
  - intros (k & -> & Hk). apply elem_of_seq in Hk. lia.
  - intros Hm. exists (Z.to_nat m). rewrite elem_of_seq. lia.
Qed.
Lemma layout_nodup : NoDup order.
Proof using Hlay.
  rewrite Hlay. apply NoDup_fmap_2; [intros ???; lia|]. apply NoDup_seq.
Qed.
Lemma perm_permutation l : length l = n -> Permutation (perm order l) l.
Proof using Hlay.
  intros Hl. unfold perm. rewrite Hlay. subst n. by rewrite fmap_seq_lookup.
Qed.
Lemma perm_lookup l j m : length l = n -> order !! j = Some m ->
  perm order l !! j = l !! Z.to_nat m.
Proof using Hlay.
  intros Hl Hj. unfold perm. rewrite list_lookup_fmap, Hj. cbn.
  assert (0 <= m < Z.of_nat n) as Hm by (apply layout_elem; by eapply elem_of_list_lookup_2).
  destruct (lookup_lt_is_Some_2 l (Z.to_nat m) ltac:(lia)) as [x ->]. done.
Qed.
Lemma perm_inj l k : length l = n -> length k = n -> perm order l = perm order k -> l = k.
Proof using Hlay.
  intros Hl Hk He. apply list_eq_same_length with (n:=n); [done|done|].
  intros i x y Hi Hx Hy.
  assert (Z.of_nat i ∈ order) as Ho by (apply layout_elem; lia).
  apply elem_of_list_lookup in Ho as [j Hj].
  pose proof (perm_lookup l j _ Hl Hj) as H1. pose proof (perm_lookup k j _ Hk Hj) as H2.
  rewrite Nat2Z.id in *. rewrite He in H1. congruence.
Qed.
Lemma perm_in_box dims c : length dims = n ->
  in_box dims c -> in_box (perm order dims) (perm order c).
Proof using Hlay.
  intros Hd Hb. pose proof (in_box_length _ _ Hb) as Hl.
  apply Forall2_same_length_lookup_2; [by rewrite !perm_length|].
  intros j x y Hx Hy.
  assert (j < n)%nat as Hj.
  { apply lookup_lt_Some in Hx. by rewrite perm_length, layout_length in Hx. }
  destruct (lookup_lt_is_Some_2 order j ltac:(rewrite layout_length; lia)) as [m Hm].
  rewrite (perm_lookup _ _ _ Hd Hm) in Hx. rewrite (perm_lookup c j m ltac:(lia) Hm) in Hy.
  eapply Forall2_lookup_lr in Hb; [|done|done]. done.
Qed.
Lemma perm_in_box_inv dims c : length dims = n -> length c = n ->
  in_box (perm order dims) (perm order c) -> in_box dims c.
Proof using Hlay.
  intros Hd Hc Hb. apply Forall2_same_length_lookup_2; [lia|].
  intros i x y Hx Hy. pose proof (lookup_lt_Some _ _ _ Hx).
  assert (Z.of_nat i ∈ order) as Ho by (apply layout_elem; lia).
  apply elem_of_list_lookup in Ho as [j Hj].
  eapply (Forall2_lookup_lr _ _ _ j) in Hb; [exact Hb| |].
  - by rewrite (perm_lookup _ _ _ Hd Hj), Nat2Z.id.
  - by rewrite (perm_lookup _ _ _ Hc Hj), Nat2Z.id.
Qed.
Lemma perm_fits sz dims : length dims = n -> fits sz dims -> fits sz (perm order dims).
Proof using Hlay.
  intros Hd (H1 & H2 & H3). pose proof (perm_permutation dims Hd) as Hp. split_and!.
  - by rewrite Hp.
  - by rewrite Hp.
  - rewrite (prodZ_perm _ (Z.max 1 <$> dims)); [done|]. by apply fmap_Permutation.
Qed.

(** Updating an entry that is not among the first [k]. *)
Lemma perm_take_insert k m l x : order !! k = Some m ->
  perm (take k order) (<[Z.to_nat m := x]> l) = perm (take k order) l.
Proof using Hlay.
  intros Hk. apply list_fmap_ext. intros i y Hy.
  apply lookup_take_Some in Hy as [Hy Hi].
  assert (0 <= m < Z.of_nat n) by (apply layout_elem; by eapply elem_of_list_lookup_2).
  assert (0 <= y < Z.of_nat n) by (apply layout_elem; by eapply elem_of_list_lookup_2).
  rewrite list_lookup_insert_ne; [done|]. intros He.
  assert (m = y) as -> by lia.
  pose proof (NoDup_lookup _ _ _ _ layout_nodup Hy Hk). lia.
Qed.
Lemma perm_snoc_insert k m l x : order !! k = Some m -> length l = n ->
  perm (take (S k) order) (<[Z.to_nat m := x]> l) = perm (take k order) l ++ [x].
Proof using Hlay.
  intros Hk Hl. rewrite (take_S_r _ _ _ Hk), perm_app, perm_take_insert by done. f_equal.
  assert (0 <= m < Z.of_nat n) by (apply layout_elem; by eapply elem_of_list_lookup_2).
  cbn. rewrite list_lookup_insert by lia. done.
Qed.

(** Strides *)
Lemma stride_in_lookup dims j m : order !! j = Some m ->
  stride_in dims order m = prodZ (take j (perm order dims)).
Proof using Hlay.
  pose proof layout_nodup as Hnd. clear Hlay. revert j.
  induction order as [|m' o IH]; intros j Hj; [done|].
  inversion_clear Hnd as [|?? Hni Hnd']. destruct j as [|j]; cbn [stride_in perm fmap list_fmap].
  - cbn in Hj. simplify_eq. by rewrite Z.eqb_refl.
  - cbn in Hj. replace (m' =? m) with false.
    2:{ symmetry. apply Z.eqb_neq. intros ->. apply Hni. by eapply elem_of_list_lookup_2. }
    cbn [take]. rewrite prodZ_cons. f_equal. by apply IH.
Qed.

Lemma ravel_rev_snoc pd pc d c :
  ravel (rev (pd ++ [d])) (rev (pc ++ [c])) = c * prodZ pd + ravel (rev pd) (rev pc).
Proof using Type.
  rewrite !rev_app_distr. cbn [rev app ravel]. f_equal. f_equal.
  apply prodZ_perm. symmetry. apply Permutation_rev.
Qed.

(** The offset of [c] as a dot product *)
Lemma offset_sum dims c : length dims = n -> length c = n ->
  ravel (rev (perm order dims)) (rev (perm order c))
  = dotZ c ((fun d => stride_in dims order (Z.of_nat d)) <$> seq 0 n).
Proof using Hlay.
  intros Hd Hc.
  assert (forall k, (k <= n)%nat ->
    ravel (rev (take k (perm order dims))) (rev (take k (perm order c)))
    = sumZ ((fun m => default 0 (c !! Z.to_nat m) * stride_in dims order m) <$> take k order)) as H.
  { induction k as [|k IH]; intros Hk; [done|].
    destruct (lookup_lt_is_Some_2 order k ltac:(rewrite layout_length; lia)) as [m Hm].
    assert (0 <= m < Z.of_nat n) by (apply layout_elem; by eapply elem_of_list_lookup_2).
    destruct (lookup_lt_is_Some_2 dims (Z.to_nat m) ltac:(lia)) as [d Hdm].
    destruct (lookup_lt_is_Some_2 c (Z.to_nat m) ltac:(lia)) as [cm Hcm].
    rewrite (take_S_r (perm order dims) k d) by (by rewrite (perm_lookup _ _ _ Hd Hm)).
    rewrite (take_S_r (perm order c) k cm) by (by rewrite (perm_lookup _ _ _ Hc Hm)).
    rewrite ravel_rev_snoc, IH by lia. rewrite (take_S_r _ _ _ Hm), fmap_app, sumZ_app.
    cbn. rewrite Hcm, (stride_in_lookup dims k m Hm). cbn. lia. }
  specialize (H n ltac:(lia)). rewrite !take_ge in H by (rewrite ?perm_length, layout_length; lia).
  rewrite H. rewrite (sumZ_perm _ _ (fmap_Permutation _ _ _ Hlay)).
  unfold dotZ, sumZ. f_equal.
  apply list_eq. intros i. rewrite lookup_zip_with, !list_lookup_fmap.
  destruct (decide (i < n)%nat) as [Hi|Hi].
  - rewrite lookup_seq_lt by done. cbn. rewrite Nat2Z.id.
    destruct (lookup_lt_is_Some_2 c i ltac:(lia)) as [x ->]. done.
  - rewrite lookup_seq_ge by lia. cbn. by destruct (c !! i).
Qed.
End layout.

Section offsets.
Context {E : env} {s : st} {p : nat} {dt : dtype} {dev : device}
  {dims order : list Z} {px : nat} {sz : nat}
  (Hv : view (heap s) p dt dev dims order px) (Hsz : (0 < sz)%nat) (Hfit : fits sz dims)
  (Hlay : layout (length dims) order).
Let pd := perm order dims.

Lemma pd_prefix k : 0 <= prodZ (take k pd) <= INT64_MAX.
Proof using Hfit Hlay Hsz.
  pose proof (perm_fits Hlay sz dims eq_refl Hfit) as Hf. fold pd in Hf.
  pose proof (fits_prefixes _ _ Hsz Hf k). destruct Hf as (Hd & _).
  pose proof (prodZ_nonneg (take k pd) ltac:(by apply Forall_take)). lia.
Qed.
Lemma order_lookup k : (k < length dims)%nat ->
  exists m d, order !! k = Some m /\ 0 <= m < Z.of_nat (length dims) /\
    dims !! Z.to_nat m = Some d /\ pd !! k = Some d.
Proof using Hlay.
  clear dependent sz. intros Hk.
  destruct (lookup_lt_is_Some_2 order k ltac:(rewrite (layout_length Hlay); lia)) as [m Hm].
  assert (0 <= m < Z.of_nat (length dims)) by (apply (layout_elem Hlay); by eapply elem_of_list_lookup_2).
  destruct (lookup_lt_is_Some_2 dims (Z.to_nat m) ltac:(lia)) as [d Hdm].
  exists m, d. split_and!; try done; try lia. unfold pd. by rewrite (perm_lookup Hlay _ _ _ eq_refl Hm).
Qed.

Lemma coords_to_offset_ok coords : in_box dims coords ->
  aitisa_coords_to_offset (HPtr p) coords (Z.of_nat (length coords)) E s
  = Done (ravel (rev pd) (rev (perm order coords))) s.
Proof using Hv Hfit Hsz Hlay.
  intros Hb. pose proof (in_box_length _ _ Hb) as Hl. unfold aitisa_coords_to_offset.
  erewrite bind_done by (by eapply tensor_ndim_ok).
  erewrite bind_done by (by eapply tensor_dims_ok).
  erewrite bind_done by (by eapply tensor_min2maj_ok).
  erewrite bind_done by (by apply assert_coords_ok).
  set (pc := perm order coords).
  pose proof (perm_in_box Hlay dims coords eq_refl Hb) as Hpb. fold pd pc in Hpb.
  erewrite bind_done.
  2:{ apply (for64_pure (fun k => (ravel (rev (take k pd)) (rev (take k pc)), prodZ (take k pd),
               Nat.eqb k 0)) _ _ _ (length dims)); [done|lia|].
      intros k Hk. cbv beta match. rewrite Z.add_0_l.
      destruct (order_lookup k Hk) as (m & d & Hm & Hmr & Hdm & Hpd).
      destruct (Forall2_lookup_l _ _ _ _ _ Hb Hdm) as (c & Hc & Hcd).
      assert (pc !! k = Some c) as Hpc.
      { unfold pc. by rewrite (perm_lookup Hlay _ _ _ Hl Hm). }
      erewrite bind_done by (by apply aget_nat).
      erewrite bind_done by (apply aget_Z; [lia|done]).
      erewrite bind_done by (apply aget_Z; [lia|done]).
      pose proof (pd_prefix (S k)) as Hf. pose proof (pd_prefix k) as Hf'.
      pose proof (ravel_bound (rev (take k pd)) (rev (take k pc))) as Hr.
      assert (in_box (rev (take k pd)) (rev (take k pc))) as Hbk.
      { apply Forall2_rev. by apply take_box. }
      specialize (Hr Hbk).
      assert (prodZ (rev (take k pd)) = prodZ (take k pd)) as Hrev.
      { apply prodZ_perm. symmetry. apply Permutation_rev. }
      rewrite (take_S_r pd k d Hpd), (take_S_r pc k c Hpc) in *.
      rewrite prodZ_snoc in *. rewrite ravel_rev_snoc.
      destruct k as [|k].
      - rewrite !take_0. cbn [rev ravel]. rewrite prodZ_nil, Z.mul_1_r, Z.add_0_r, !Z.mul_1_l. done.
      - cbn [Nat.eqb].
        erewrite bind_done by (apply ck64_ok; lims; nia).
        erewrite bind_done by (apply ck64_ok; lims; nia).
        erewrite bind_done by (apply ck64_ok; lims; nia).
        unfold ret. do 3 f_equal. rewrite Z.add_comm, Z.mul_comm. done. }
  cbv beta match. unfold ret. f_equal.
  rewrite !take_ge; [done| |].
  - unfold pc. rewrite perm_length, (layout_length Hlay). lia.
  - unfold pd. rewrite perm_length, (layout_length Hlay). lia.
Qed.

Lemma coords_to_offset_abort coords : ~ in_box dims coords ->
  aitisa_coords_to_offset (HPtr p) coords (Z.of_nat (length coords)) E s = Abort.
Proof using Hv.
  intros Hb. unfold aitisa_coords_to_offset.
  erewrite bind_done by (by eapply tensor_ndim_ok).
  erewrite bind_done by (by eapply tensor_dims_ok).
  erewrite bind_done by (by eapply tensor_min2maj_ok).
  apply bind_abort. by apply assert_coords_abort.
Qed.

Lemma offset_to_coords_ok k coords : 0 <= k < prodZ dims -> length coords = length dims ->
  exists c, aitisa_offset_to_coords (HPtr p) k coords E s = Done c s /\
    in_box dims c /\ ravel (rev pd) (rev (perm order c)) = k.
Proof using Hv Hfit Hsz Hlay.
  intros Hk Hl. 
  pose proof (prodZ_pos_inv dims ltac:(apply Hfit) ltac:(lia)) as Hpos.
  assert (prodZ pd = prodZ dims) as Hpp by (apply prodZ_perm; by apply (perm_permutation Hlay)).
  assert (Forall (fun d => 0 < d) pd) as Hppos.
  { unfold pd. by rewrite (perm_permutation Hlay dims eq_refl). }
  pose proof (fits_prefixes sz dims Hsz Hfit (length dims)) as Hsmax.
  rewrite firstn_all in Hsmax.
  assert (wp (for64 0 (Z.of_nat (length dims)) (fun d '(coords, divisor) =>
      let* dim := aget order d in
      let* x := aget dims dim in
      let* q := div64 k divisor in
      let* r := rem64 q x in
      let* coords := aset coords dim r in
      let* divisor := ck64 (divisor * x) in
      ret (coords, divisor)) (coords, 1)) E s (fun r s' => s' = s /\ length r.1 = length dims /\
      perm order r.1 = rev (unravel (rev pd) k))) as Hw.
  { eapply wp_mono.
    - apply (for64_rule (fun j r s' => s' = s /\ length r.1 = length dims /\
        r.2 = prodZ (take j pd) /\
        perm (take j order) r.1 = rev (unravel (rev (take j pd)) k)) _ _ _ (length dims)).
      + lia.
      + done.
      + intros j [cs dv] s' Hj (-> & Hlc & Hdv & Hcs). cbn [fst snd] in *. subst dv.
        rewrite Z.add_0_l.
        destruct (order_lookup j Hj) as (m & d & Hm & Hmr & Hdm & Hpd).
        assert (0 < d) as Hdpos by (by eapply Forall_lookup_1 in Hpd; [|exact Hppos]).
        assert (0 < prodZ (take j pd)) as Hp by (apply prodZ_pos; by apply Forall_take).
        pose proof (pd_prefix (S j)) as Hf.
        rewrite (take_S_r pd j d Hpd), prodZ_snoc in *.
        assert (0 <= k / prodZ (take j pd) <= k) as Hq.
        { split; [apply Z.div_pos; lia|]. apply Z.div_le_upper_bound; nia. }
        eapply wp_step; [by apply aget_nat|].
        eapply wp_step; [apply aget_Z; [lia|done]|].
        eapply wp_step.
        { apply div64_ok; [lia|]. rewrite Z.quot_div_nonneg by lia. lims; lia. }
        rewrite Z.quot_div_nonneg by lia.
        eapply wp_step.
        { apply rem64_ok; [lia|]. rewrite Z.quot_div_nonneg by lia.
          assert (0 <= k / prodZ (take j pd) / d <= k / prodZ (take j pd)).
          { split; [apply Z.div_pos; lia|]. apply Z.div_le_upper_bound; nia. }
          lims; lia. }
        rewrite Z.rem_mod_nonneg by lia.
        eapply wp_step; [apply aset_Z; lia|].
        eapply wp_step; [apply ck64_ok; lims; nia|].
        apply wp_ret. cbn [fst snd]. split_and!; [done|by rewrite insert_length|done|].
        rewrite (perm_snoc_insert Hlay) by done. rewrite Hcs.
        rewrite rev_app_distr. cbn [rev app unravel]. f_equal. f_equal. f_equal. f_equal.
        apply prodZ_perm, Permutation_rev.
    - intros r s' (-> & Hlr & _ & Hr). split_and!; [done|done|].
      rewrite take_ge in Hr by (rewrite (layout_length Hlay); lia).
      rewrite Hr, take_ge; [done|]. unfold pd. rewrite perm_length, (layout_length Hlay). lia. }
  apply wp_elim in Hw as ([c dv] & s' & Hfor & -> & Hlc & Hc). cbn [fst] in *.
  exists c. split_and!.
  - unfold aitisa_offset_to_coords.
    erewrite bind_done by (by eapply tensor_size_ok).
    erewrite bind_done by (by eapply tensor_ndim_ok).
    erewrite bind_done by (by eapply tensor_dims_ok).
    erewrite bind_done by (by eapply tensor_min2maj_ok).
    erewrite bind_done by (apply assert_ok; lia).
    erewrite bind_done by (apply assert_ok; lia).
    erewrite bind_done by exact Hfor. done.
  - apply (perm_in_box_inv Hlay); [done|done|]. fold pd. rewrite Hc.
    rewrite <-(rev_involutive pd) at 1. apply Forall2_rev. apply unravel_in_box. 
    by apply Forall_rev.
  - rewrite Hc, rev_involutive. apply ravel_unravel.
    + by apply Forall_rev.
    + rewrite (prodZ_perm (rev pd) pd), Hpp; [done|]. symmetry. apply Permutation_rev.
Qed.

Lemma offset_to_coords_abort k coords : ~ (0 <= k < prodZ dims) ->
  aitisa_offset_to_coords (HPtr p) k coords E s = Abort.
Proof using Hv.
  clear dependent sz. clear Hlay. intros Hk. unfold aitisa_offset_to_coords.
  erewrite bind_done by (by eapply tensor_size_ok).
  erewrite bind_done by (by eapply tensor_ndim_ok).
  erewrite bind_done by (by eapply tensor_dims_ok).
  erewrite bind_done by (by eapply tensor_min2maj_ok).
  destruct (Z.leb_spec 0 k).
  - erewrite bind_done by done. apply bind_abort.
    unfold assert_. replace (k <? prodZ dims) with false by lia. done.
  - by apply bind_abort.
Qed.

(** The offset is injective and bounded. *)
Lemma offset_inj c c' : in_box dims c -> in_box dims c' ->
  ravel (rev pd) (rev (perm order c)) = ravel (rev pd) (rev (perm order c')) -> c = c'.
Proof using Hlay.
  clear dependent sz. intros Hc Hc' He.
  pose proof (perm_in_box Hlay dims c eq_refl Hc) as H1.
  pose proof (perm_in_box Hlay dims c' eq_refl Hc') as H2.
  apply ravel_inj in He; [|by apply Forall2_rev|by apply Forall2_rev].
  apply (f_equal (@rev Z)) in He. rewrite !rev_involutive in He.
  apply (perm_inj Hlay) in He; [done| |]; by apply in_box_length.
Qed.
Lemma offset_bound c : in_box dims c ->
  0 <= ravel (rev pd) (rev (perm order c)) < prodZ dims.
Proof using Hlay.
  clear dependent sz. intros Hc. pose proof (perm_in_box Hlay dims c eq_refl Hc) as H1.
  rewrite <-(prodZ_perm (rev pd) dims).
  - apply ravel_bound. by apply Forall2_rev.
  - etrans; [symmetry; apply Permutation_rev|]. by apply (perm_permutation Hlay).
Qed.

Lemma get_all_strides_ok strides : length strides = length dims ->
  Z.of_nat (length dims) <= INT_MAX ->
  aitisa_get_all_strides (HPtr p) strides E s
  = Done ((fun d => stride_in dims order (Z.of_nat d)) <$> seq 0 (length dims)) s.
Proof using Hv Hfit Hsz Hlay.
  intros Hl Hmax.
  assert (wp (for32 0 (Z.of_nat (length dims)) (fun d '(strides, stride) =>
      let* dim := aget order d in
      let* strides := aset strides dim stride in
      let* x := aget dims dim in
      let* stride := ck64 (stride * x) in
      ret (strides, stride)) (strides, 1)) E s (fun r s' => s' = s /\ length r.1 = length dims /\
      perm order r.1 = stride_in dims order <$> order)) as Hw.
  { eapply wp_mono.
    - apply (for32_rule (fun j r s' => s' = s /\ length r.1 = length dims /\
        r.2 = prodZ (take j pd) /\
        perm (take j order) r.1 = stride_in dims order <$> take j order) _ _ _ (length dims)).
      + lia.
      + done.
      + done.
      + intros j [cs dv] s' Hj (-> & Hlc & Hdv & Hcs). cbn [fst snd] in *. subst dv.
        rewrite Z.add_0_l.
        destruct (order_lookup j Hj) as (m & d & Hm & Hmr & Hdm & Hpd).
        pose proof (pd_prefix (S j)) as Hf.
        rewrite (take_S_r pd j d Hpd), prodZ_snoc in *.
        eapply wp_step; [by apply aget_nat|].
        eapply wp_step; [apply aset_Z; lia|].
        eapply wp_step; [apply aget_Z; [lia|done]|].
        eapply wp_step; [apply ck64_ok; lims; nia|].
        apply wp_ret. cbn [fst snd]. split_and!; [done|by rewrite insert_length|done|].
        rewrite (perm_snoc_insert Hlay) by done. rewrite Hcs.
        rewrite (take_S_r order j m Hm), fmap_app. f_equal. cbn.
        by rewrite (stride_in_lookup Hlay dims j m Hm).
    - intros r s' (-> & Hlr & _ & Hr). split_and!; [done|done|].
      by rewrite take_ge in Hr by (rewrite (layout_length Hlay); lia). }
  apply wp_elim in Hw as ([c dv] & s' & Hfor & -> & Hlc & Hc). cbn [fst] in *.
  unfold aitisa_get_all_strides.
  erewrite bind_done by (by eapply tensor_ndim_ok).
  erewrite bind_done by (by eapply tensor_dims_ok).
  erewrite bind_done by (by eapply tensor_min2maj_ok).
  erewrite bind_done by exact Hfor. unfold ret. f_equal.
  apply (perm_inj Hlay); [done|by rewrite fmap_length, seq_length|].
  rewrite Hc. apply list_fmap_ext. intros i m Hm.
  assert (0 <= m < Z.of_nat (length dims)) by (apply (layout_elem Hlay); by eapply elem_of_list_lookup_2).
  rewrite list_lookup_fmap, lookup_seq_lt by lia. cbn. by rewrite Z2Nat.id by lia.
Qed.

Lemma get_stride_ok axis : 0 <= axis < Z.of_nat (length dims) ->
  aitisa_get_stride (HPtr p) axis E s = Done (stride_in dims order axis) s.
Proof using Hv Hfit Hsz Hlay.
  intros Ha. unfold aitisa_get_stride.
  erewrite bind_done by (by eapply tensor_ndim_ok).
  erewrite bind_done by (by eapply tensor_dims_ok).
  erewrite bind_done by (by eapply tensor_min2maj_ok).
  rewrite Nat2Z.id.
  assert (axis ∈ order) as Ho by (by apply (layout_elem Hlay)).
  apply elem_of_list_lookup in Ho as [j Hj].
  pose proof (lookup_lt_Some _ _ _ Hj) as Hjl. rewrite (layout_length Hlay) in Hjl.
  erewrite bind_done.
  2:{ apply (iter_ret_exit (fun k => prodZ (take k pd)) (prodZ (take j pd)) _ _ _ j); [done|done| |].
      - intros k Hk. rewrite Z.add_0_l.
        destruct (order_lookup k ltac:(lia)) as (m & d & Hm & Hmr & Hdm & Hpd).
        erewrite bind_done by (by apply aget_nat).
        replace (m =? axis) with false.
        2:{ symmetry. apply Z.eqb_neq. intros ->.
            pose proof (NoDup_lookup _ _ _ _ (layout_nodup Hlay) Hm Hj). lia. }
        erewrite bind_done by (apply aget_Z; [lia|done]).
        pose proof (pd_prefix (S k)) as Hf.
        rewrite (take_S_r pd k d Hpd), prodZ_snoc in *.
        erewrite bind_done by (apply ck64_ok; lims; nia). done.
      - rewrite Z.add_0_l. erewrite bind_done by (by apply aget_nat).
        by rewrite Z.eqb_refl. }
  cbv beta match. unfold ret. f_equal. symmetry. by apply (stride_in_lookup Hlay).
Qed.
End offsets.

(** ** The row-major layout *)
Lemma rowmajor_S n : rowmajor (S n) = Z.of_nat n :: rowmajor n.
Proof.
  unfold rowmajor. cbn [seq fmap list_fmap]. f_equal; [lia|].
  rewrite <-fmap_S_seq. rewrite <-list_fmap_compose.
  apply list_fmap_ext. intros i x Hx. cbn. lia.
Qed.

Lemma rowmajor_layout n : layout n (rowmajor n).
Proof.
  unfold layout. induction n as [|n IH]; [done|].
  rewrite rowmajor_S, IH. rewrite (seq_S n 0), fmap_app. cbn. apply Permutation_cons_append.
Qed.

Lemma perm_rowmajor l : perm (rowmajor (length l)) l = rev l.
Proof.
  induction l as [|x l IH] using rev_ind; [done|].
  rewrite app_length, Nat.add_comm. cbn [Nat.add length]. rewrite rowmajor_S.
  cbn [perm fmap list_fmap]. rewrite rev_app_distr. cbn [rev app]. f_equal.
  - rewrite Nat2Z.id, lookup_app_r, Nat.sub_diag by lia. done.
  - rewrite <-IH. apply list_fmap_ext. intros i m Hm.
    apply elem_of_list_lookup_2, (layout_elem (rowmajor_layout _)) in Hm.
    rewrite lookup_app_l by lia. done.
Qed.

Lemma offset_rowmajor dims c : length c = length dims ->
  ravel (rev (perm (rowmajor (length dims)) dims)) (rev (perm (rowmajor (length dims)) c))
  = ravel dims c.
Proof.
  intros Hl. rewrite perm_rowmajor. rewrite <-Hl, perm_rowmajor, !rev_involutive. done.
Qed.
