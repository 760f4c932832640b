(** * ProofPool: src/nn/pooling.c *)
From stdpp Require Import gmap list.
From Coq Require Import ZArith Lia Floats.SpecFloat.
From Coq Require Import ZifyBool ZifyNat.
From Verif Require Import Base Mem Spec SpecNN ModelCore ModelBasic ModelMath ModelNN Logic
  ProofCore ProofCore2 ProofCore3 ProofIndex ProofLayout ProofKernel ProofKernel2 ProofBasic ProofBasic2 ProofSlice
  ProofFrame ProofMatmul ProofSoftmax ProofFloat5 ProofWindow.
Open Scope Z_scope.

Ltac Zify.zify_post_hook ::= Z.div_mod_to_equations.

(** Row-major strides *)
Lemma rowmajor_lookup n j : (j < n)%nat -> rowmajor n !! j = Some (Z.of_nat (n - 1 - j)).
Proof.
  revert j. induction n as [|n IH]; intros j Hj; [lia|]. rewrite rowmajor_S.
  destruct j as [|j]; cbn [lookup list_lookup].
  - do 2 f_equal. lia.
  - rewrite IH by lia. do 2 f_equal. lia.
Qed.
Lemma stride_rowmajor dims d : (d < length dims)%nat ->
  stride_in dims (rowmajor (length dims)) (Z.of_nat d) = prodZ (drop (S d) dims).
Proof.
  intros Hd. rewrite (stride_in_lookup (rowmajor_layout (length dims)) dims (length dims - 1 - d)).
  - rewrite perm_rowmajor, firstn_rev.
    rewrite (prodZ_perm _ (drop (S d) dims)); [done|].
    replace (length dims - (length dims - 1 - d))%nat with (S d) by lia. symmetry. apply Permutation_rev.
  - rewrite rowmajor_lookup by lia. do 2 f_equal. lia.
Qed.
Lemma strides_suffs dims :
  (fun d => stride_in dims (rowmajor (length dims)) (Z.of_nat d)) <$> seq 0 (length dims) = suffs dims.
Proof.
  unfold suffs. apply list_fmap_ext. intros i d Hi. apply lookup_seq in Hi as [-> Hi].
  cbn [Nat.add] in *. by rewrite stride_rowmajor.
Qed.

(** ** One output extent *)
Lemma pooling_extent_ok d k s p l E st : win_ok1 d k s p l ->
  pooling_extent d k s p l E st = Done (win_out d k s p l) st.
Proof.
  intros Hok. pose proof (win_out_pos _ _ _ _ _ Hok) as Hpos.
  destruct Hok as (H1 & H2 & H3 & H4 & H5 & H6 & H7 & H8).
  assert (0 <= l * (k - 1)) as Hlk by nia. assert (k - 1 <= l * (k - 1)) as Hk by nia.
  unfold pooling_extent.
  erewrite bind_done by (apply ck32_ok; llia).
  erewrite bind_done by (apply ck32_ok; llia). cbv zeta.
  erewrite bind_done.
  2:{ apply opt_ok. change done with (dbl_of_Z 1). apply extent_double; llia. }
  fold (win_out d k s p l).
  assert (win_out d k s p l <= 2 ^ 53) as Hle.
  { unfold win_out. 
    assert ((d + 2 * p - l * (k - 1) - 1) / s <= d + 2 * p - l * (k - 1) - 1).
    { assert (0 <= d + 2 * p - l * (k - 1) - 1) as H9 by lia. revert H9.
      generalize (d + 2 * p - l * (k - 1) - 1). intros z Hz. apply Z.div_le_upper_bound; nia. }
    llia. }
  erewrite bind_done by (apply check_ok; llia). done.
Qed.

(** ** Stepping through a window *)
Lemma pool_tail_ok h k l E s : 1 <= k -> 1 <= l -> (k - 1) * l <= INT_MAX ->
  INT64_MIN <= h -> h + (k - 1) * l <= INT64_MAX ->
  pool_tail h k l E s = Done (h + l * (k - 1)) s.
Proof.
  intros H1 H2 H3 H4 H5. assert (k - 1 <= (k - 1) * l) as H6 by nia.
  unfold pool_tail. erewrite bind_done by (apply ck32_ok; llia).
  erewrite bind_done by (apply ck32_ok; llia).
  rewrite ck64_ok by llia. f_equal. ring.
Qed.

Lemma pred_lookup (ks : list Z) (i : nat) k : ks !! i = Some k -> (Z.pred <$> ks) !! i = Some (k - 1).
Proof. intros H. rewrite list_lookup_fmap, H. done. Qed.

Lemma pool_next_ok head ks ls j E s :
  length head = length ks -> length ls = length ks -> ks <> [] ->
  (forall i h k l, head !! i = Some h -> ks !! i = Some k -> ls !! i = Some l ->
     1 <= k /\ 1 <= l /\ INT64_MIN <= h /\ h + k * l <= INT64_MAX) ->
  0 <= j < prodZ ks ->
  pool_next (length ks) ls head (slice_pos head ls (Z.pred <$> ks)) (slice_pos head ls (unravel ks j)) E s
  = Done (slice_pos head ls (unravel ks (j + 1)), j + 1 <? prodZ ks) s.
Proof.
  intros L1 L2 Hne Hr Hj. unfold pool_next.
  assert (Forall (fun d => 0 < d) ks) as Hpos.
  { apply Forall_lookup. intros i k Hk. pose proof (lookup_lt_Some _ _ _ Hk) as Hi.
    destruct (lookup_lt_is_Some_2 head i) as [h Hh]; [lia|].
    destruct (lookup_lt_is_Some_2 ls i) as [l Hl]; [lia|].
    destruct (Hr i h k l) as (? & _); try done. lia. }
  apply (odometer_flag (fun c b => (slice_pos head ls c, b)) ks); [done|done|done|].
  intros i k c x Hk Hc Hx. pose proof (lookup_lt_Some _ _ _ Hk) as Hi.
  destruct (lookup_lt_is_Some_2 head i) as [h Hh]; [lia|].
  destruct (lookup_lt_is_Some_2 ls i) as [l Hl]; [lia|].
  destruct (Hr i h k l) as (R1 & R2 & R3 & R4); try done.
  pose proof (Forall2_lookup_lr _ _ _ _ _ _ Hc Hk Hx) as Hxk. cbv beta in Hxk.
  pose proof (in_box_length _ _ Hc) as Lc.
  assert (length (slice_pos head ls c) = length ks) as Lp by (rewrite slice_pos_length; lia).
  assert (0 <= l * x) as Hlx by nia.
  assert (l * x + l <= k * l) as Hlx2 by nia.
  erewrite bind_done by (apply aget_nat; by eapply slice_pos_lookup).
  erewrite bind_done by (by apply aget_nat).
  erewrite bind_done by (apply ck64_ok; llia).
  erewrite bind_done.
  2:{ apply aget_nat. eapply slice_pos_lookup; [exact Hh|exact Hl|by apply pred_lookup]. }
  replace (h + l * (k - 1) <? h + l * x + l) with (negb (x + 1 <? k)).
  2:{ clear -R2. destruct (Z.ltb_spec (x + 1) k); cbn [negb]; symmetry; [apply Z.ltb_ge|apply Z.ltb_lt]; nia. }
  destruct (x + 1 <? k); cbn [negb].
  - erewrite bind_done by (apply aset_nat; lia). unfold ret.
    rewrite (slice_pos_insert _ _ _ _ _ _ _ Hh Hl). by replace (h + l * (x + 1)) with (h + l * x + l) by ring.
  - erewrite bind_done by (by apply aget_nat).
    erewrite bind_done by (apply aset_nat; lia). unfold ret.
    rewrite (slice_pos_insert _ _ _ _ _ _ _ Hh Hl). replace (h + l * 0) with h by ring.
    by destruct (Z.of_nat i =? 0).
Qed.

(** ** Moving the window *)
Definition heads (ps ss o : list Z) : list Z := slice_pos (Z.opp <$> ps) ss o.
Definition tails (ps ss ks ls o : list Z) : list Z := slice_pos (heads ps ss o) ls (Z.pred <$> ks).

Lemma opp_lookup (ps : list Z) (i : nat) p : ps !! i = Some p -> (Z.opp <$> ps) !! i = Some (- p).
Proof. intros H. by rewrite list_lookup_fmap, H. Qed.
Lemma slice_pos_insert_l bs ts c i b t x : ts !! i = Some t -> c !! i = Some x ->
  slice_pos (<[i := b]> bs) ts c = <[i := b + t * x]> (slice_pos bs ts c).
Proof.
  revert ts c i. induction bs as [|b0 bs IH]; intros [|t0 ts] [|x0 c] [|i]; cbn; intros; try done.
  - by simplify_eq.
  - f_equal. by apply IH.
Qed.
Lemma heads_insert ps ss o i p s x : ps !! i = Some p -> ss !! i = Some s ->
  heads ps ss (<[i := x]> o) = <[i := - p + s * x]> (heads ps ss o).
Proof. intros Hp Hs. apply slice_pos_insert; [by apply opp_lookup|done]. Qed.
Lemma tails_insert ps ss ks ls o i p s k l x :
  ps !! i = Some p -> ss !! i = Some s -> ks !! i = Some k -> ls !! i = Some l ->
  tails ps ss ks ls (<[i := x]> o) = <[i := - p + s * x + l * (k - 1)]> (tails ps ss ks ls o).
Proof.
  intros Hp Hs Hk Hl. unfold tails. rewrite (heads_insert _ _ _ _ _ _ _ Hp Hs).
  apply slice_pos_insert_l; [done|by apply pred_lookup].
Qed.

Section win.
Context {sd ks ss ps ls : list Z} (Hok : win_ok sd ks ss ps ls).
Let os := win_outs sd ks ss ps ls.
Let n := length sd.

Lemma heads_length o : length o = n -> length (heads ps ss o) = n.
Proof using Hok.
  intros Ho. destruct (win_ok_length _ _ _ _ _ Hok) as (L1 & L2 & L3 & L4).
  unfold heads. rewrite slice_pos_length; rewrite ?fmap_length; unfold n in *; lia.
Qed.
Lemma tails_length o : length o = n -> length (tails ps ss ks ls o) = n.
Proof using Hok.
  intros Ho. destruct (win_ok_length _ _ _ _ _ Hok) as (L1 & L2 & L3 & L4).
  pose proof (heads_length o Ho). unfold tails.
  rewrite slice_pos_length; rewrite ?fmap_length; unfold n in *; lia.
Qed.
Lemma heads_lookup o i p s x : ps !! i = Some p -> ss !! i = Some s -> o !! i = Some x ->
  heads ps ss o !! i = Some (- p + s * x).
Proof using Type. intros Hp Hs Ho. eapply slice_pos_lookup; [by apply opp_lookup|done|done]. Qed.

Lemma pool_slide_ok nb nc j E st : sd <> [] -> 0 <= j < prodZ os ->
  pool_slide n (nb :: nc :: sd) ks ss ps ls (heads ps ss (unravel os j)) (tails ps ss ks ls (unravel os j)) E st
  = Done (heads ps ss (unravel os (j + 1)), tails ps ss ks ls (unravel os (j + 1)), j + 1 <? prodZ os) st.
Proof using Hok.
  intros Hne Hj. unfold pool_slide.
  pose proof (win_outs_length _ _ _ _ _ Hok) as Lo. fold os n in Lo. rewrite <-Lo.
  apply (odometer_flag (fun c b => (heads ps ss c, tails ps ss ks ls c, b)) os).
  { by apply win_outs_pos. }
  { destruct os; [|done]. destruct sd; [done|]. unfold n in Lo. cbn in Lo. lia. }
  { done. }
  intros i e c x He Hc Hx. pose proof (lookup_lt_Some _ _ _ He) as Hi.
  destruct (win_get _ _ _ _ _ i Hok ltac:(unfold n in Lo; lia))
    as (d & k & s & p & l & Hd & Hk & Hs & Hp & Hl & Hok1 & He').
  fold os in He'. rewrite He in He'. injection He' as ->.
  pose proof (Forall2_lookup_lr _ _ _ _ _ _ Hc He Hx) as Hxe. cbv beta in Hxe.
  pose proof (in_box_length _ _ Hc) as Lc. rewrite Lo in Lc.
  pose proof (heads_length c Lc) as Lh. pose proof (tails_length c Lc) as Lt.
  pose proof (win_reach _ _ _ _ _ x Hok1 Hxe) as [Hr1 Hr2].
  pose proof (win_fits _ _ _ _ _ (x + 1) Hok1 ltac:(lia)) as Hf.
  destruct Hok1 as (H1 & H2 & H3 & H4 & H5 & H6 & H7 & H8).
  assert (0 <= (k - 1) * l) as Hkl by nia.
  replace (- p + s * (x + 1)) with (- p + s * x + s) in Hf by ring.
  erewrite bind_done by (apply aget_nat; by eapply heads_lookup).
  erewrite bind_done by (by apply aget_nat).
  erewrite bind_done by (apply ck64_ok; llia).
  erewrite bind_done by (by apply aget_nat).
  erewrite bind_done by (by apply aget_nat).
  erewrite bind_done by (apply pool_tail_ok; llia).
  erewrite bind_done by (by apply aget_nat).
  erewrite bind_done.
  2:{ apply aget_Z; [lia|]. replace (Z.to_nat (Z.of_nat i + 2)) with (S (S i)) by lia. exact Hd. }
  erewrite bind_done by (apply ck64_ok; llia).
  erewrite bind_done by (apply ck64_ok; llia).
  replace (- p + s * x + s + l * (k - 1)) with (- p + s * x + s + (k - 1) * l) by ring.
  rewrite Hf. destruct (x + 1 <? win_out d k s p l); cbn [negb].
  - erewrite bind_done by (apply aset_nat; lia).
    erewrite bind_done by (apply aset_nat; lia). unfold ret.
    rewrite (heads_insert _ _ _ _ _ _ _ Hp Hs), (tails_insert _ _ _ _ _ _ _ _ _ _ _ Hp Hs Hk Hl).
    replace (- p + s * (x + 1)) with (- p + s * x + s) by ring.
    by rewrite (Z.mul_comm l (k - 1)).
  - erewrite bind_done by (apply ck32_ok; llia).
    erewrite bind_done by (apply pool_tail_ok; llia).
    erewrite bind_done by (apply aset_nat; lia).
    erewrite bind_done by (apply aset_nat; lia). unfold ret.
    rewrite (heads_insert _ _ _ _ _ _ _ Hp Hs), (tails_insert _ _ _ _ _ _ _ _ _ _ _ Hp Hs Hk Hl).
    replace (- p + s * 0) with (- p) by ring. by destruct (Z.of_nat i =? 0).
Qed.

Lemma heads_0 : heads ps ss (unravel os 0) = Z.opp <$> ps.
Proof using Hok.
  destruct (win_ok_length _ _ _ _ _ Hok) as (L1 & L2 & L3 & L4).
  pose proof (win_outs_length _ _ _ _ _ Hok) as Lo. fold os n in Lo.
  apply list_eq_same_length with n; [by rewrite fmap_length|apply heads_length; rewrite unravel_length; lia|].
  intros i a b Hi Ha Hb.
  destruct (win_get _ _ _ _ _ i Hok Hi) as (d & k & s & p & l & Hd & Hk & Hs & Hp & Hl & _).
  rewrite (heads_lookup _ _ _ _ 0 Hp Hs) in Ha.
  2:{ rewrite unravel_0, lookup_replicate. split; [done|lia]. }
  rewrite (opp_lookup _ _ _ Hp) in Hb. injection Ha as <-. injection Hb as <-. ring.
Qed.

Lemma pool_init_ok E st :
  pool_init (Z.of_nat n) ks ps ls E st
  = Done (heads ps ss (unravel os 0), tails ps ss ks ls (unravel os 0)) st.
Proof using Hok.
  destruct (win_ok_length _ _ _ _ _ Hok) as (L1 & L2 & L3 & L4).
  pose proof (win_outs_length _ _ _ _ _ Hok) as Lo. fold os n in Lo.
  pose proof (heads_length (unravel os 0) ltac:(rewrite unravel_length; lia)) as Lh.
  pose proof (tails_length (unravel os 0) ltac:(rewrite unravel_length; lia)) as Lt.
  unfold pool_init.
  rewrite (for64_pure (fun k => (take k (heads ps ss (unravel os 0)), take k (tails ps ss ks ls (unravel os 0)))) _ _ _ n).
  - rewrite !take_ge by lia. done.
  - done.
  - lia.
  - intros i Hi. rewrite Z.add_0_l.
    destruct (win_get _ _ _ _ _ i Hok Hi) as (d & k & s & p & l & Hd & Hk & Hs & Hp & Hl & Hok1 & _).
    destruct Hok1 as (H1 & H2 & H3 & H4 & H5 & H6 & H7 & H8).
    assert (0 <= (k - 1) * l) as Hkl by nia.
    erewrite bind_done by (by apply aget_nat).
    erewrite bind_done by (apply ck32_ok; llia).
    erewrite bind_done by (by apply aget_nat).
    erewrite bind_done by (by apply aget_nat).
    erewrite bind_done by (apply pool_tail_ok; llia).
    assert (heads ps ss (unravel os 0) !! i = Some (- p)) as Hh.
    { rewrite heads_0. by apply opp_lookup. }
    assert (tails ps ss ks ls (unravel os 0) !! i = Some (- p + l * (k - 1))) as Ht.
    { eapply slice_pos_lookup; [exact Hh|exact Hl|by apply pred_lookup]. }
    unfold ret. rewrite (take_S_r _ _ _ Hh), (take_S_r _ _ _ Ht). done.
Qed.
End win.

(** ** Reading a window *)
Lemma box_split sd x : length x = length sd ->
  in_box sd x \/ exists j d y, sd !! j = Some d /\ x !! j = Some y /\ ~ (0 <= y < d) /\
    in_box (take j sd) (take j x).
Proof.
  revert x. induction sd as [|d sd IH]; intros [|y x] Hl; try done; [left; constructor|].
  destruct (decide (0 <= y < d)) as [Hy|Hy].
  - destruct (IH x ltac:(by injection Hl)) as [Hb|(j & d' & y' & H1 & H2 & H3 & H4)].
    + left. by constructor.
    + right. exists (S j), d', y'. split_and!; try done. cbn [take]. by constructor.
  - right. exists 0%nat, d, y. split_and!; try done. rewrite !take_0. constructor.
Qed.

Lemma pool_position_ok nb nc sd x bc E s :
  length x = length sd -> 0 <= bc -> bc + prodZ sd <= INT64_MAX -> Forall (fun d => 0 <= d) sd ->
  pool_position (Z.of_nat (length sd)) (nb :: nc :: sd) (suffs (nb :: nc :: sd)) x bc E s
  = Done (if decide (in_box sd x) then Some (bc + ravel sd x) else None) s.
Proof.
  intros Hl Hbc Hmax Hnn. unfold pool_position. rewrite Nat2Z.id.
  set (acc := fun k => bc + ravel (take k sd) (take k x) * prodZ (drop k sd)).
  assert (forall j, (j < length sd)%nat -> in_box (take (S j) sd) (take (S j) x) ->
     (let* x0 := aget x (0 + Z.of_nat j) in
      let* d := aget (nb :: nc :: sd) (0 + Z.of_nat j + 2) in
      if (0 <=? x0) && (x0 <? d) then
        let* s := aget (suffs (nb :: nc :: sd)) (0 + Z.of_nat j + 2) in
        let* p := ck64 (x0 * s) in
        let* acc := ck64 (acc j + p) in
        ret (Next acc)
      else ret (Return tt)) E s = Done (@Next Z unit (acc (S j))) s) as Hstep.
  { intros j Hj Hb.
    destruct (lookup_lt_is_Some_2 sd j Hj) as [d Hd].
    destruct (lookup_lt_is_Some_2 x j ltac:(lia)) as [y Hy].
    pose proof (ravel_bound _ _ Hb) as Hrb.
    rewrite (take_S_r _ _ _ Hd), (take_S_r _ _ _ Hy) in Hb, Hrb.
    rewrite ravel_snoc, prodZ_snoc in Hrb by (rewrite !take_length; lia).
    apply Forall2_app_inv in Hb as [Hb1 Hb2]; [|rewrite !take_length; lia].
    inversion_clear Hb2 as [|? ? ? ? Hyd _].
    rewrite Z.add_0_l.
    erewrite bind_done by (by apply aget_nat).
    erewrite bind_done.
    2:{ apply aget_Z; [lia|]. replace (Z.to_nat (Z.of_nat j + 2)) with (S (S j)) by lia. exact Hd. }
    replace ((0 <=? y) && (y <? d)) with true by lia.
    erewrite bind_done.
    2:{ apply aget_Z; [lia|]. replace (Z.to_nat (Z.of_nat j + 2)) with (S (S j)) by lia.
        apply suffs_lookup. cbn. lia. }
    cbn [drop].
    set (P := prodZ (drop (S j) sd)).
    assert (0 <= P) as HP by (apply prodZ_nonneg; by apply Forall_drop).
    assert (prodZ sd = prodZ (take j sd) * d * P) as HS.
    { rewrite <-(take_drop_middle sd j d Hd) at 1. rewrite prodZ_app, prodZ_cons. fold P. ring. }
    assert (acc j = bc + ravel (take j sd) (take j x) * d * P) as Hacc.
    { unfold acc. rewrite (drop_S _ _ _ Hd), prodZ_cons. fold P. ring. }
    assert (acc (S j) = acc j + y * P) as HaccS.
    { rewrite Hacc. unfold acc. rewrite (take_S_r _ _ _ Hd), (take_S_r _ _ _ Hy).
      rewrite ravel_snoc by (rewrite !take_length; lia). fold P. ring. }
    set (r := ravel (take j sd) (take j x)) in *.
    pose proof (ravel_bound _ _ Hb1) as Hr0. fold r in Hr0.
    assert (0 <= y * P) as HyP by nia.
    assert (0 <= r * d * P) as HrP by (repeat apply Z.mul_nonneg_nonneg; lia).
    assert (r * d * P + y * P <= prodZ sd) as Hle.
    { rewrite HS, <-Z.mul_add_distr_r. apply Z.mul_le_mono_nonneg_r; lia. }
    erewrite bind_done by (apply ck64_ok; llia).
    erewrite bind_done by (apply ck64_ok; rewrite Hacc; llia).
    unfold ret. by rewrite HaccS. }
  destruct (box_split sd x Hl) as [Hb|(j & d & y & Hd & Hy & Hn & Hb)].
  - rewrite decide_True by done.
    erewrite bind_done.
    2:{ apply (iter_ret_pure acc).
        - unfold acc. rewrite !take_0. cbn [ravel]. ring.
        - intros k Hk. apply Hstep; [done|]. by apply take_box. }
    unfold ret, acc. rewrite !take_ge, drop_ge by lia. rewrite prodZ_nil. do 2 f_equal. f_equal. ring.
  - assert (~ in_box sd x) as Hnb.
    { intros H. pose proof (Forall2_lookup_lr _ _ _ _ _ _ H Hd Hy). done. }
    rewrite decide_False by done.
    erewrite bind_done.
    2:{ apply (iter_ret_exit acc tt _ _ _ j).
        - unfold acc. rewrite !take_0. cbn [ravel]. ring.
        - by eapply lookup_lt_Some.
        - intros k Hk. apply Hstep; [apply lookup_lt_Some in Hd; lia|].
          apply (take_box _ _ (S k)) in Hb. rewrite !take_take in Hb.
          by replace (S k `min` j)%nat with (S k) in Hb by lia.
        - rewrite Z.add_0_l.
          erewrite bind_done by (by apply aget_nat).
          erewrite bind_done.
          2:{ apply aget_Z; [lia|]. replace (Z.to_nat (Z.of_nat j + 2)) with (S (S j)) by lia. exact Hd. }
          replace ((0 <=? y) && (y <? d)) with false by lia. done. }
    done.
Qed.
