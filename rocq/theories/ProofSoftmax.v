(** * ProofSoftmax: src/nn/softmax.c *)
From stdpp Require Import gmap list.
From Coq Require Import ZArith Lia Floats.SpecFloat.
From Coq Require Import ZifyBool ZifyNat.
From Verif Require Import Base Mem Spec SpecReal SpecNN ModelCore ModelBasic ModelMath ModelNN Logic
  ProofCore ProofCore2 ProofCore3 ProofIndex ProofKernel ProofKernel2 ProofBasic ProofSlice ProofFrame ProofMatmul.
Open Scope Z_scope.

Ltac Zify.zify_post_hook ::= Z.div_mod_to_equations.

(** ** Linear indices *)
Lemma lin_index_ok dims idx offs n E s :
  in_box dims idx -> offs = suffs dims -> n = Z.of_nat (length dims) ->
  prodZ dims <= INT64_MAX ->
  lin_index n idx offs E s = Done (ravel dims idx) s.
Proof.
  intros Hb -> -> Hp. pose proof (in_box_length _ _ Hb) as Hl. unfold lin_index.
  rewrite (for64_pure (fun k => ravel dims idx - ravel (drop k dims) (drop k idx)) _ _ _ (length dims)).
  - rewrite !drop_ge by lia. cbn. f_equal. lia.
  - rewrite !drop_0. lia.
  - lia.
  - intros k Hk. rewrite Z.add_0_l.
    destruct (lookup_lt_is_Some_2 dims k Hk) as [d Hd].
    destruct (lookup_lt_is_Some_2 idx k) as [x Hx]; [lia|].
    pose proof (ravel_drop _ _ _ _ _ Hd Hx) as Hr.
    pose proof (ravel_bound _ _ Hb) as H1.
    pose proof (ravel_bound _ _ (drop_box _ _ (S k) Hb)) as H2.
    pose proof (ravel_bound _ _ (drop_box _ _ k Hb)) as H3.
    assert (0 <= x) as Hx0.
    { pose proof (Forall2_lookup_lr _ _ _ _ _ _ Hb Hd Hx) as H. cbn in H. lia. }
    assert (ravel (drop k dims) (drop k idx) <= ravel dims idx) as Hle.
    { rewrite <-(take_drop k dims) at 2. rewrite <-(take_drop k idx) at 2.
      rewrite ravel_app by (rewrite !take_length; lia).
      pose proof (ravel_bound _ _ (take_box _ _ k Hb)).
      pose proof (in_box_pos _ _ (drop_box _ _ k Hb)) as Hpos. apply prodZ_pos in Hpos. nia. }
    assert (0 <= x * prodZ (drop (S k) dims)) as Hxp.
    { pose proof (in_box_pos _ _ (drop_box _ _ (S k) Hb)) as Hpos. apply prodZ_pos in Hpos. nia. }
    erewrite bind_done by (by apply aget_nat).
    erewrite bind_done by (apply aget_nat; by apply suffs_lookup).
    erewrite bind_done by (apply ck64_ok; llia).
    rewrite ck64_ok by llia. f_equal. lia.
Qed.

Lemma row_offsets_ok dims n E s : n = Z.of_nat (length dims) -> (0 < length dims)%nat ->
  (forall k, 0 <= prodZ (drop k dims) <= INT64_MAX) ->
  row_offsets n dims E s = Done (suffs dims) s.
Proof.
  intros -> Hpos Hfit. unfold row_offsets. rewrite Nat2Z.id.
  set (f := fun k => (replicate k 0%Z) ++ drop k (suffs dims)).
  erewrite bind_done by (apply aset_Z; rewrite replicate_length; lia).
  change (suffs dims) with (f 0%nat).
  apply (iter_down_pure f).
  - unfold f. replace (Z.to_nat (Z.of_nat (length dims) - 1)) with (length dims - 1)%nat by lia.
    assert (replicate (length dims) 0 = replicate (length dims - 1) 0 ++ [0]) as ->.
    { rewrite <-replicate_S_end. f_equal. lia. }
    rewrite insert_app_r_alt by (rewrite replicate_length; lia).
    rewrite replicate_length, Nat.sub_diag. f_equal. cbn.
    rewrite (drop_S _ 1).
    2:{ rewrite suffs_lookup by lia. f_equal. by rewrite drop_ge by lia. }
    rewrite drop_ge by (rewrite suffs_length; lia). done.
  - intros k Hk. unfold f.
    assert (suffs dims !! S k = Some (prodZ (drop (S (S k)) dims))) as H1 by (apply suffs_lookup; lia).
    destruct (lookup_lt_is_Some_2 dims (S k)) as [d Hd]; [lia|].
    erewrite bind_done.
    2:{ apply aget_Z; [lia|]. by replace (Z.to_nat (Z.of_nat k + 1)) with (S k) by lia. }
    erewrite bind_done.
    2:{ apply aget_Z; [lia|]. replace (Z.to_nat (Z.of_nat k + 1)) with (S k) by lia.
        rewrite lookup_app_r by (rewrite replicate_length; lia).
        rewrite replicate_length, Nat.sub_diag, lookup_drop, Nat.add_0_r, H1.
        done. }
    assert (d * prodZ (drop (S (S k)) dims) = prodZ (drop (S k) dims)) as Hp.
    { rewrite (drop_lookup dims (S k) d Hd), prodZ_cons. lia. }
    rewrite Hp. erewrite bind_done by (apply ck64_ok; specialize (Hfit (S k)); llia).
    rewrite aset_nat.
    2:{ rewrite app_length, replicate_length, drop_length, suffs_length. lia. }
    f_equal. rewrite replicate_S_end, <-app_assoc.
    rewrite insert_app_r_alt by (rewrite replicate_length; lia).
    rewrite replicate_length, Nat.sub_diag. cbn. f_equal.
    rewrite (drop_S (suffs dims) (prodZ (drop (S k) dims)) k) by (apply suffs_lookup; lia). done.
Qed.

(** ** Writing along a lane *)
Fixpoint putl (a st : nat) (es vs : list val) : list val :=
  match es with [] => vs | e :: es => putl (a + st) st es (<[a := e]> vs) end.
Lemma putl_length a st es vs : length (putl a st es vs) = length vs.
Proof. revert a vs. induction es as [|e es IH]; intros; [done|]. cbn. by rewrite IH, insert_length. Qed.
Lemma putl_snoc a st es e vs :
  putl a st (es ++ [e]) vs = <[(a + length es * st)%nat := e]> (putl a st es vs).
Proof.
  revert a vs. induction es as [|x es IH]; intros; cbn.
  - by rewrite Nat.add_0_r.
  - rewrite IH. f_equal. lia.
Qed.
Lemma putl_in a st es vs j : (0 < st)%nat -> (j < length es)%nat -> (a + j * st < length vs)%nat ->
  putl a st es vs !! (a + j * st)%nat = es !! j.
Proof.
  intros Hst. revert j. induction es as [|e es IH] using rev_ind; intros j Hj Hl; [cbn in Hj; lia|].
  rewrite putl_snoc. rewrite app_length in Hj. cbn in Hj.
  destruct (decide (j = length es)) as [->|Hne].
  - rewrite list_lookup_insert by (by rewrite putl_length). by rewrite list_lookup_middle.
  - rewrite list_lookup_insert_ne by nia. rewrite IH by lia. by rewrite lookup_app_l by lia.
Qed.
Lemma putl_out a st es vs i : (forall j, (j < length es)%nat -> i <> a + j * st)%nat ->
  putl a st es vs !! i = vs !! i.
Proof.
  induction es as [|e es IH] using rev_ind; intros H; [done|].
  rewrite putl_snoc. rewrite app_length in H. cbn in H.
  rewrite list_lookup_insert_ne by (specialize (H (length es)); lia).
  apply IH. intros j Hj. apply H. lia.
Qed.

Lemma on_lane a st n i : (0 < st)%nat ->
  (exists j, (j < n)%nat /\ i = (a + j * st)%nat) \/ (forall j, (j < n)%nat -> i <> (a + j * st)%nat).
Proof.
  intros Hst. induction n as [|n IH]; [right; lia|].
  destruct IH as [(j & Hj & ->)|H]; [left; exists j; lia|].
  destruct (decide (i = a + n * st)%nat) as [->|Hne]; [left; exists n; lia|].
  right. intros j Hj. destruct (decide (j = n)) as [->|]; [done|]. apply H. lia.
Qed.

Section lane.
Context {E : env} {tag lo : nat} {base : gmap nat block} {p pd pm ps px : nat}
  {t : tcode} {dev : device} {dims : list Z}.
Let TN s' vs := tnew tag lo base s' p pd pm ps px (dtype_of t) dev dims (cells t vs).
Context {bA tgA : nat} {vA : list val} {exA : list mv}.
Context (HA : base !! bA = Some (Blk tgA (CData (cells t vA ++ exA)))).

Lemma softmax_exps_ok s vs (a st : nat) xs es ds n :
  TN s vs -> n = Z.of_nat (length xs) -> (0 < st)%nat ->
  (forall j, (j < length xs)%nat -> (a + j * st < length vs)%nat) ->
  Z.of_nat (a + length xs * st) <= INT64_MAX ->
  (forall j x, xs !! j = Some x -> vA !! (a + j * st)%nat = Some x) ->
  Forall2 (fun v e => exists d, to_double t v = Some d /\ of_double t (e_exp E d) = Some e) xs es ->
  Forall2 (fun e d => to_double t e = Some d) es ds ->
  wp (softmax_exps t (HPtr bA) (HPtr px) (Z.of_nat a) (Z.of_nat st) n) E s
     (fun r s' => r = foldl dadd fzero ds /\ TN s' (putl a st es vs) /\ rpos s' = rpos s).
Proof using HA.
  intros HT -> Hst Hin Hmax Hxs Hes Hds. unfold softmax_exps.
  pose proof (Forall2_length _ _ _ Hes) as L1. pose proof (Forall2_length _ _ _ Hds) as L2.
  apply wp_bind. eapply wp_mono.
  - apply (for64_rule (fun j r s' => r = (foldl dadd fzero (take j ds), Z.of_nat (a + j * st)) /\
      TN s' (putl a st (take j es) vs) /\ rpos s' = rpos s) _ _ _ (length xs)); [lia| |].
    { rewrite !take_0. split_and!; [f_equal; lia|done|done]. }
    intros j r s1 Hj (-> & HT1 & Hr1). cbv beta match.
    destruct (lookup_lt_is_Some_2 xs j Hj) as [x Hx].
    destruct (Forall2_lookup_l _ _ _ _ _ Hes Hx) as (e & He & d & Hd & Hed).
    destruct (Forall2_lookup_l _ _ _ _ _ Hds He) as (d' & Hd' & Hde).
    assert (length (take j es) = j) as Ltake by (rewrite take_length; lia).
    pose proof (putl_snoc a st (take j es) e vs) as Hsn. rewrite <-(take_S_r _ _ _ He), Ltake in Hsn.
    specialize (Hin j Hj).
    eapply wp_step.
    { eapply loadi_cells; [eapply tnew_lookup; [exact HT1|exact HA]|by apply Hxs]. }
    eapply wp_step.
    { unfold exp_of. erewrite bind_done by (by apply opt_ok). done. }
    eapply wp_step; [by apply opt_ok|].
    eapply wp_step.
    { eapply tnew_storei; [exact HT1|]. by rewrite putl_length. }
    rewrite <-Hsn. eapply (tnew_upd) in HT1 as HT2. 
    eapply wp_step.
    { eapply tnew_loadi; [exact HT2|]. rewrite Hsn. apply list_lookup_insert. by rewrite putl_length. }
    eapply wp_step; [by apply opt_ok|].
    eapply wp_step; [apply ck64_ok; llia || (split; [llia|]; nia)|].
    apply wp_ret. split_and!; [|exact HT2|done].
    rewrite (take_S_r _ _ _ Hd'), foldl_app. cbn [foldl]. f_equal. lia.
  - intros r s1 (-> & HT1 & Hr1). apply wp_ret.
    rewrite !take_ge in * by lia. done.
Qed.

Lemma softmax_norm_ok s vs (a st : nat) es ds ys n total :
  TN s (putl a st es vs) -> n = Z.of_nat (length es) -> (0 < st)%nat ->
  (forall j, (j < length es)%nat -> (a + j * st < length vs)%nat) ->
  Z.of_nat (a + length es * st) <= INT64_MAX ->
  Forall2 (fun e d => to_double t e = Some d) es ds ->
  Forall2 (fun d y => of_double t (ddiv d total) = Some y) ds ys ->
  wp (softmax_norm t (HPtr px) (Z.of_nat a) (Z.of_nat st) n total) E s
     (fun _ s' => TN s' (putl a st ys vs) /\ rpos s' = rpos s).
Proof using Type.
  intros HT -> Hst Hin Hmax Hds Hys. unfold softmax_norm.
  pose proof (Forall2_length _ _ _ Hys) as L1. pose proof (Forall2_length _ _ _ Hds) as L2.
  set (F := fun j => putl a st (take j ys ++ drop j es) vs).
  apply wp_bind. eapply wp_mono.
  - apply (for64_rule (fun j r s' => r = Z.of_nat (a + j * st) /\
      TN s' (F j) /\ rpos s' = rpos s) _ _ _ (length es)); [lia| |].
    { unfold F. rewrite take_0, drop_0. split_and!; [lia|done|done]. }
    intros j r s1 Hj (-> & HT1 & Hr1). cbv beta match.
    destruct (lookup_lt_is_Some_2 es j Hj) as [e He].
    destruct (Forall2_lookup_l _ _ _ _ _ Hds He) as (d & Hd & Hed).
    destruct (Forall2_lookup_l _ _ _ _ _ Hys Hd) as (y & Hy & Hdy).
    assert (length (take j ys) = j) as Ltake by (rewrite take_length; lia).
    specialize (Hin j Hj) as Hinj.
    assert (length (take j ys ++ drop j es) = length es) as Lapp
      by (rewrite app_length, drop_length; lia).
    assert (F j !! (a + j * st)%nat = Some e) as HFj.
    { unfold F. rewrite putl_in by lia. rewrite lookup_app_r by lia. rewrite lookup_drop, Ltake.
      by replace (j + (j - j))%nat with j by lia. }
    assert (<[(a + j * st)%nat := y]> (F j) = F (S j)) as HFS.
    { apply list_eq. intros i. unfold F.
      destruct (decide (i = a + j * st)%nat) as [->|Hne].
      - rewrite list_lookup_insert by (by rewrite putl_length).
        rewrite putl_in by (rewrite ?app_length, ?take_length, ?drop_length; lia).
        rewrite (take_S_r _ _ _ Hy), <-app_assoc. cbn [app]. by rewrite list_lookup_middle.
      - rewrite list_lookup_insert_ne by done.
        destruct (on_lane a st (length es) i Hst) as [(q & Hq & ->)|Hno].
        2:{ rewrite !putl_out; [done| |]; intros q Hq ->; apply (Hno q); try done;
            rewrite ?app_length, ?take_length, ?drop_length in Hq; lia. }
        rewrite !putl_in by (rewrite ?app_length, ?take_length, ?drop_length; (lia || by apply Hin)).
        destruct (decide (q < j)%nat).
        + rewrite !lookup_app_l by (rewrite take_length; lia). rewrite !lookup_take by lia. done.
        + assert (q <> j) by (intros ->; done).
          rewrite !lookup_app_r by (rewrite take_length; lia). rewrite !lookup_drop, !take_length.
          f_equal. lia. }
    eapply wp_step.
    { eapply tnew_loadi; [exact HT1|exact HFj]. }
    eapply wp_step; [by apply opt_ok|].
    eapply wp_step; [by apply opt_ok|].
    eapply wp_step.
    { eapply tnew_storei; [exact HT1|]. by eapply lookup_lt_Some. }
    rewrite HFS. eapply tnew_upd in HT1 as HT2.
    eapply wp_intro; [apply ck64_ok; split; [llia|]; nia|]. split_and!; [lia|exact HT2|done].
  - intros r s1 (-> & HT1 & Hr1). apply wp_ret. unfold F in HT1.
    rewrite take_ge, drop_ge, app_nil_r in HT1 by lia. done.
Qed.

(** Both passes *)
Lemma softmax_both_ok s vs (a st : nat) xs ys n {B} (k : M B) Q :
  TN s vs -> n = Z.of_nat (length xs) -> (0 < st)%nat ->
  (forall j, (j < length xs)%nat -> (a + j * st < length vs)%nat) ->
  Z.of_nat (a + length xs * st) <= INT64_MAX ->
  (forall j x, xs !! j = Some x -> vA !! (a + j * st)%nat = Some x) ->
  softmax_lane (e_exp E) t xs = Some ys ->
  (forall s', TN s' (putl a st ys vs) -> rpos s' = rpos s -> length ys = length xs -> wp k E s' Q) ->
  wp (let* total := softmax_exps t (HPtr bA) (HPtr px) (Z.of_nat a) (Z.of_nat st) n in
      softmax_norm t (HPtr px) (Z.of_nat a) (Z.of_nat st) n total ;;; k) E s Q.
Proof using HA.
  intros HT -> Hst Hin Hmax Hxs Hlane Hk. unfold softmax_lane in Hlane.
  destruct (mapM _ xs) as [es|] eqn:Hes; [|done]. cbn in Hlane.
  destruct (mapM _ es) as [ds|] eqn:Hds; [|done]. cbn in Hlane.
  apply mapM_Some in Hes. apply mapM_Some in Hds. apply mapM_Some in Hlane.
  pose proof (Forall2_length _ _ _ Hes). pose proof (Forall2_length _ _ _ Hds).
  pose proof (Forall2_length _ _ _ Hlane).
  apply wp_bind. eapply wp_mono.
  { eapply (softmax_exps_ok _ _ _ _ xs es ds); try done.
    eapply Forall2_impl; [exact Hes|]. intros v e Hv. cbv beta in Hv.
    destruct (to_double t v) as [d|]; [|done]. exists d. done. }
  intros total s1 (-> & HT1 & Hr1). apply wp_bind. eapply wp_mono.
  { eapply (softmax_norm_ok s1 vs a st es ds ys); try done; [congruence|intros j Hj; apply Hin; lia|lia]. }
  intros [] s2 [HT2 Hr2]. apply Hk; [done|congruence|lia].
Qed.
End lane.

(** ** All elements as one lane *)
Lemma softmax_all_rule p T ws o E s :
  wf s -> alloc_all E -> holds (heap s) p T ->
  softmax_lane (e_exp E) (a_type T) (a_vals T) = Some ws ->
  makes (aitisa_softmax (HPtr p) (-1) o) E s (AT (a_type T) (a_dev T) (a_dims T) ws).
Proof.
  intros Hwf HAl HT Hws. apply (makes_or_nomem_alloc _ _ _ o); [done|]. apply Qmakes_elim.
  unfold aitisa_softmax, softmax_create_output.
  pose proof HT as (HvT & bx & tg & ex & Hv & Hx).
  pose proof (valid_len _ HvT) as Hlen. pose proof (valid_fits _ HvT) as Hfit.
  pose proof (fits_bytes _ _ Hfit) as Hby. pose proof (tsz_pos (a_type T)) as Hsz.
  eapply wp_step; [by eapply tensor_ndim_ok|].
  replace ((-1 <? -1) || (Z.of_nat (length (a_dims T)) - 1 <? -1)) with false by lia.
  apply wp_bind.
  eapply wp_step; [by eapply tensor_dims_ok|].
  eapply wp_step; [by eapply tensor_ndim_ok|].
  eapply wp_step; [by eapply tensor_dtype_ok|].
  eapply wp_step; [by eapply tensor_device_ok|].
  apply create_t_rule; [done|done| |done].
  intros s1 q pd pm ps px Ht Hr. cbv beta match. rewrite bool_decide_eq_true_2 by done. cbn [negb].
  change (-1 =? -1) with true. cbv match.
  pose proof (view_mono _ _ _ _ _ _ _ _ (tnew_base _ _ Ht) Hv) as Hv1.
  unfold softmax_with_all. apply wp_bind.
  eapply wp_step; [by eapply tensor_dtype_ok|]. rewrite dispatch_all_t.
  eapply wp_step; [by eapply tensor_data_ok|].
  eapply wp_step; [by eapply tensor_data_ok, tnew_view|].
  eapply wp_step; [by eapply tensor_size_ok|].
  eapply (softmax_both_ok Hx s1 _ 0 1 (a_vals T) ws); [exact Ht|lia|lia| | | |exact Hws|].
  - intros j Hj. rewrite replicate_length. lia.
  - llia || nia.
  - intros j x Hj. by replace (0 + j * 1)%nat with j by lia.
  - intros s2 Ht2 Hr2 Hl. apply wp_ret. apply wp_ret. left. exists q. split; [done|].
    replace (putl 0 1 ws _) with ws in Ht2.
    2:{ apply list_eq. intros i. destruct (decide (i < length ws)%nat).
        - rewrite <-(putl_in 0 1 ws (replicate (Z.to_nat (prodZ (a_dims T))) VU) i)
            by (rewrite ?replicate_length; lia). f_equal. lia.
        - rewrite !lookup_ge_None_2; [done|rewrite putl_length, replicate_length; lia|lia]. }
    eapply tnew_makes; [done| |exact Ht2|congruence].
    split; [done|]. cbn. lia.
Qed.

Lemma softmax_refused p T axis o E s :
  holds (heap s) p T -> (axis < -1 \/ Z.of_nat (length (a_dims T)) <= axis) ->
  refuses (aitisa_softmax (HPtr p) axis o) E s o NOT_SUPPORTED.
Proof.
  intros HT Hax. unfold refuses, aitisa_softmax.
  pose proof HT as (HvT & bx & tg & ex & Hv & Hx).
  erewrite bind_done by (by eapply tensor_ndim_ok).
  replace ((axis <? -1) || (Z.of_nat (length (a_dims T)) - 1 <? axis)) with true by lia. done.
Qed.

(** ** Along an axis *)
Lemma elem_prodZ l x : Forall (fun d => 0 < d) l -> x ∈ l -> x <= prodZ l.
Proof.
  induction 1 as [|d l Hd Hl IH]; intros Hx; [by apply elem_of_nil in Hx|].
  rewrite prodZ_cons. apply prodZ_pos in Hl. apply elem_of_cons in Hx as [->|Hx]; [nia|].
  specialize (IH Hx). nia.
Qed.

Lemma unravel_0 es : unravel es 0 = replicate (length es) 0.
Proof.
  induction es as [|e es IH]; [done|]. cbn [length replicate unravel]. rewrite IH.
  rewrite Zdiv_0_l, Zmod_0_l. done.
Qed.

(** The lane of position [i]; lanes are numbered in row-major order of the
    remaining axes. *)
Definition lane_of (d m i : Z) : Z := i / (d * m) * m + i mod m.
Lemma lane_of_pos d m h j l : 0 < d -> 0 < m -> 0 <= h -> 0 <= j < d -> 0 <= l < m ->
  lane_of d m ((h * d + j) * m + l) = h * m + l.
Proof.
  intros Hd Hm Hh Hj Hl. unfold lane_of.
  assert (((h * d + j) * m + l) / (d * m) = h) as ->.
  { symmetry. apply Z.div_unique with (j * m + l); [left; nia|ring]. }
  assert (((h * d + j) * m + l) mod m = l) as ->.
  { symmetry. apply Z.mod_unique with (h * d + j); [lia|ring]. }
  done.
Qed.
Lemma lane_of_inv d m i : 0 < d -> 0 < m -> 0 <= i ->
  exists h j l, 0 <= h /\ 0 <= j < d /\ 0 <= l < m /\ i = (h * d + j) * m + l.
Proof.
  intros Hd Hm Hi. exists (i / (d * m)), ((i / m) mod d), (i mod m).
  split_and!; [apply Z.div_pos; nia|apply Z.mod_pos_bound; lia|apply Z.mod_pos_bound; lia|..].
  - apply Z.mod_pos_bound. lia.
  - apply Z.mod_pos_bound. lia.
  - rewrite (Z.mul_comm d m), <-Z.div_div by lia.
    pose proof (Z.div_mod i m ltac:(lia)). pose proof (Z.div_mod (i / m) d ltac:(lia)). nia.
Qed.

Lemma softmax_advance_ok b1 d b2 k E s :
  Forall (fun d => 0 < d <= INT64_MAX) (b1 ++ b2) ->
  softmax_advance (length (b1 ++ d :: b2)) (Z.of_nat (length b1)) (b1 ++ d :: b2)
    (unravel (b1 ++ 1 :: b2) k) E s = Done (unravel (b1 ++ 1 :: b2) (k + 1)) s.
Proof.
  intros Hb. apply Forall_app in Hb as [Hb1 Hb2]. unfold softmax_advance.
  replace (length (b1 ++ d :: b2)) with (length (b1 ++ 1 :: b2)) by (by rewrite !app_length).
  apply (odometer (fun c => c)).
  { apply Forall_app. split; [|constructor; [lia|]];
      (eapply Forall_impl; [first [exact Hb1|exact Hb2]|cbv beta; lia]). }
  intros i e c x He Hc Hx.
  pose proof (Forall2_lookup_lr _ _ _ _ _ _ Hc He Hx) as Hx'. cbv beta in Hx'.
  pose proof (in_box_length _ _ Hc) as Hl. pose proof (lookup_lt_Some _ _ _ He) as Hi.
  destruct (decide (i = length b1)) as [->|Hne].
  - rewrite Z.eqb_refl. rewrite list_lookup_middle in He by done. injection He as <-.
    assert (x = 0) as -> by lia. change (0 + 1 <? 1) with false.
    cbv beta match. rewrite (list_insert_id c (length b1) 0 Hx). reflexivity.
  - replace (Z.of_nat i =? Z.of_nat (length b1)) with false by lia.
    assert ((b1 ++ d :: b2) !! i = Some e /\ 0 < e <= INT64_MAX) as [He2 He'].
    { destruct (decide (i < length b1)%nat).
      - rewrite lookup_app_l in He |- * by done. split; [done|]. by apply (Forall_lookup_1 _ _ _ _ Hb1 He).
      - rewrite lookup_app_r in He |- * by lia.
        replace (i - length b1)%nat with (S (i - length b1 - 1)) in * by lia. cbn in He |- *.
        split; [done|]. by apply (Forall_lookup_1 _ _ _ _ Hb2 He). }
    erewrite bind_done by (by apply aget_nat).
    erewrite bind_done by (apply ck64_ok; llia).
    erewrite bind_done by (by apply aget_nat).
    replace (x + 1 =? e) with (negb (x + 1 <? e)) by lia.
    destruct (x + 1 <? e); cbn [negb]; (erewrite bind_done by (apply aset_nat; lia)); done.
Qed.

Section axis.
Context {E : env} {tag lo : nat} {base : gmap nat block} {p pd pm ps px : nat}
  {t : tcode} {dev : device}.
Context (b1 : list Z) (d : Z) (b2 : list Z).
Let dims := b1 ++ d :: b2.
Let m := prodZ b2.
Let TN s' vs := tnew tag lo base s' p pd pm ps px (dtype_of t) dev dims (cells t vs).
Context {bA tgA : nat} {vA ws : list val} {exA : list mv}.
Context (HA : base !! bA = Some (Blk tgA (CData (cells t vA ++ exA)))).
Context (Hd : 0 < d) (Hb1 : Forall (fun d => 0 < d) b1) (Hb2 : Forall (fun d => 0 < d) b2)
  (Hmax : 2 * prodZ dims <= INT64_MAX)
  (LW : Z.of_nat (length ws) = prodZ dims).
Context (Hws : forall h l, 0 <= h < prodZ b1 -> 0 <= l < m ->
  exists xs ys, softmax_lane (e_exp E) t xs = Some ys /\
    Z.of_nat (length xs) = d /\
    forall j, 0 <= j < d ->
      vA !! Z.to_nat ((h * d + j) * m + l) = xs !! Z.to_nat j /\
      ws !! Z.to_nat ((h * d + j) * m + l) = ys !! Z.to_nat j).

Let F (k : nat) : list val :=
  imap (fun i w => if lane_of d m (Z.of_nat i) <? Z.of_nat k then w else VU) ws.

Lemma dims_prod : prodZ dims = prodZ b1 * (d * m).
Proof using Type. unfold dims. by rewrite prodZ_app, prodZ_cons. Qed.
Lemma m_pos : 0 < m. Proof using Hb2. by apply prodZ_pos. Qed.
Lemma p1_pos : 0 < prodZ b1. Proof using Hb1. by apply prodZ_pos. Qed.

Lemma softmax_lanes_ok s n st :
  TN s (F 0) -> n = prodZ b1 * m -> st = m ->
  wp (for64 0 n (fun _ idx =>
      let* start := lin_index (Z.of_nat (length dims)) idx (suffs dims) in
      let* n := aget dims (Z.of_nat (length b1)) in
      let* total := softmax_exps t (HPtr bA) (HPtr px) start st n in
      softmax_norm t (HPtr px) start st n total ;;;
      softmax_advance (Z.to_nat (Z.of_nat (length dims))) (Z.of_nat (length b1)) dims idx)
    (replicate (Z.to_nat (Z.of_nat (length dims))) 0)) E s
    (fun _ s' => TN s' ws /\ rpos s' = rpos s).
Proof using HA Hd Hb1 Hb2 Hmax LW Hws.
  intros HT -> ->. pose proof m_pos as Hm. pose proof p1_pos as Hp1. pose proof dims_prod as Hdp.
  assert (Forall (fun d => 0 < d) (b1 ++ 1 :: b2)) as He.
  { apply Forall_app. split; [done|]. constructor; [lia|done]. }
  assert (0 < d * m) as Hdm by nia.
  eapply wp_mono.
  - apply (for64_rule (fun k idx s' => idx = unravel (b1 ++ 1 :: b2) (Z.of_nat k) /\
      TN s' (F k) /\ rpos s' = rpos s) _ _ _ (Z.to_nat (prodZ b1 * m))); [lia| |].
    { split_and!; [|done|done]. rewrite Nat2Z.id. unfold dims.
      replace (length (b1 ++ d :: b2)) with (length (b1 ++ 1 :: b2)) by (by rewrite !app_length).
      change (Z.of_nat 0) with 0. by rewrite unravel_0. }
    intros k idx s1 Hk (-> & HT1 & Hr1). rewrite Nat2Z.id.
    set (K := Z.of_nat k). set (h := K / m). set (l := K mod m).
    assert (0 <= l < m) as Hl by (apply Z.mod_pos_bound; lia).
    assert (K = h * m + l) as HK by (pose proof (Z.div_mod K m ltac:(lia)); unfold h, l; lia).
    assert (0 <= h < prodZ b1) as Hh by nia.
    assert (unravel (b1 ++ 1 :: b2) K = unravel b1 h ++ 0 :: unravel b2 K) as Hu.
    { rewrite unravel_app by (done || by constructor; [lia|]). rewrite prodZ_cons.
      fold m. rewrite Z.mul_1_l. cbn [unravel]. fold m. by rewrite Z.mod_1_r. }
    assert (in_box dims (unravel (b1 ++ 1 :: b2) K)) as Hbox.
    { rewrite Hu. unfold dims. apply Forall2_app; [by apply unravel_in_box|].
      constructor; [lia|]. by apply unravel_in_box. }
    assert (unravel b2 K = unravel b2 l) as Hu2.
    { rewrite HK. unfold m. by rewrite unravel_add. }
    assert (ravel dims (unravel (b1 ++ 1 :: b2) K) = (h * d + 0) * m + l) as Hrav.
    { rewrite Hu, Hu2. unfold dims. rewrite ravel_app by (by rewrite unravel_length).
      rewrite ravel_unravel by (done || lia). cbn [ravel]. rewrite ravel_unravel by (done || lia).
      rewrite prodZ_cons. fold m. ring. }
    eapply wp_step.
    { apply lin_index_ok; [exact Hbox|done|done|]. llia. }
    rewrite Hrav. eapply wp_step.
    { apply aget_nat. unfold dims. by rewrite list_lookup_middle. }
    destruct (Hws h l Hh Hl) as (xs & ys & Hlane & Lx & Hpos).
    set (a := Z.to_nat ((h * d + 0) * m + l)). set (st := Z.to_nat m).
    assert (0 <= h * d) as Hhd by nia.
    assert (0 <= (h * d + 0) * m) as Hhdm by nia.
    assert ((h * d + 0) * m + l = Z.of_nat a) as Ha by (unfold a; lia).
    assert (m = Z.of_nat st) as Hst by (unfold st; lia).
    assert (forall j, Z.of_nat (a + j * st) = (h * d + Z.of_nat j) * m + l) as Hpj.
    { intros j. rewrite Nat2Z.inj_add, Nat2Z.inj_mul, <-Ha, <-Hst. ring. }
    assert (forall j, 0 <= j < d -> (h * d + j) * m + l < prodZ dims) as Hbnd.
    { intros j Hj. rewrite Hdp. assert (h * d + j + 1 <= prodZ b1 * d) by nia. nia. }
    assert (length (F k) = length ws) as LF by (apply imap_length).
    rewrite Ha. replace (d) with (Z.of_nat (length xs)) by lia. rewrite Hst.
    eapply (softmax_both_ok HA s1 (F k) a st xs ys); [exact HT1|done|lia| | | |exact Hlane|].
    + intros j Hj. specialize (Hbnd (Z.of_nat j) ltac:(lia)). rewrite <-Hpj in Hbnd. lia.
    + rewrite Hpj, Lx. specialize (Hbnd (d - 1) ltac:(lia)). nia.
    + intros j x Hj. apply lookup_lt_Some in Hj as Hjl.
      destruct (Hpos (Z.of_nat j) ltac:(lia)) as [Hv _]. rewrite <-Hpj, !Nat2Z.id in Hv. by rewrite Hv.
    + intros s2 HT2 Hr2 Ly. eapply wp_intro.
      { apply softmax_advance_ok. apply Forall_app. 
        assert (forall x, x ∈ b1 ++ d :: b2 -> x <= INT64_MAX) as Hle.
        { intros x Hx. assert (x <= prodZ dims); [|llia]. apply elem_prodZ; [|done].
          apply Forall_app. split; [done|by constructor]. }
        split; apply Forall_forall; intros x Hx; (split; [|apply Hle; set_solver]).
        - by eapply (Forall_forall (fun d => 0 < d) b1).
        - by eapply (Forall_forall (fun d => 0 < d) b2). }
      split_and!; [f_equal; lia| |congruence].
      replace (F (S k)) with (putl a st ys (F k)); [exact HT2|].
      apply list_eq. intros i.
      destruct (decide (i < length ws)%nat) as [Hi|Hi].
      2:{ rewrite !lookup_ge_None_2; [done| |rewrite putl_length, LF; lia].
          unfold F. rewrite imap_length. lia. }
      destruct (lane_of_inv d m (Z.of_nat i) Hd Hm ltac:(lia)) as (h' & j' & l' & Hh' & Hj' & Hl' & Hi').
      assert (lane_of d m (Z.of_nat i) = h' * m + l') as Hlo by (rewrite Hi'; by apply lane_of_pos).
      unfold F at 2. rewrite list_lookup_imap. destruct (lookup_lt_is_Some_2 ws i Hi) as [w Hw].
      rewrite Hw. cbn [fmap option_fmap option_map]. rewrite Hlo.
      destruct (decide (h' * m + l' = K)) as [HeqK|HneK].
      * assert (h' = h /\ l' = l) as [-> ->].
        { unfold h, l. rewrite <-HeqK. split.
          - apply (Z.div_unique _ _ _ l'); [lia|ring].
          - apply (Z.mod_unique _ _ h'); [lia|ring]. }
        assert (i = a + Z.to_nat j' * st)%nat as -> by (apply Nat2Z.inj; rewrite Hpj, Hi'; lia).
        rewrite putl_in by lia. replace (_ <? _) with true by lia.
        destruct (Hpos j' Hj') as [_ Hy]. rewrite <-Hy, <-Hi', Nat2Z.id. done.
      * rewrite putl_out.
        2:{ intros j Hj ->. rewrite Hpj in Hi'. apply HneK. rewrite HK.
            rewrite Hpj in Hlo. rewrite lane_of_pos in Hlo by lia. lia. }
        unfold F. rewrite list_lookup_imap, Hw. cbn [fmap option_fmap option_map]. rewrite Hlo.
        f_equal. replace (h' * m + l' <? Z.of_nat (S k)) with (h' * m + l' <? Z.of_nat k) by lia. done.
  - intros idx s' (_ & HT' & Hr'). split; [|done].
    replace ws with (F (Z.to_nat (prodZ b1 * m))); [exact HT'|].
    unfold F. rewrite <-(list_fmap_id ws) at 2. rewrite <-imap_const. apply imap_ext.
    intros i w Hw. apply lookup_lt_Some in Hw as Hi.
    destruct (lane_of_inv d m (Z.of_nat i) Hd Hm ltac:(lia)) as (h' & j' & l' & Hh' & Hj' & Hl' & Hi').
    rewrite Hi', lane_of_pos by done.
    assert (h' < prodZ b1) by nia. replace (_ <? _) with true by nia. done.
Qed.
End axis.

Lemma batch_loop b1 d b2 E s : Forall (fun d => 0 < d) (b1 ++ d :: b2) ->
  prodZ (b1 ++ d :: b2) <= INT64_MAX ->
  for64 0 (Z.of_nat (length (b1 ++ d :: b2))) (fun i r =>
      if i =? Z.of_nat (length b1) then ret r
      else let* d := aget (b1 ++ d :: b2) i in ck64 (r * d)) 1 E s = Done (prodZ b1 * prodZ b2) s.
Proof.
  intros Hp Hmax.
  apply Forall_app in Hp as [H1 H2]. apply Forall_cons in H2 as [Hd H2].
  set (es := b1 ++ 1 :: b2).
  assert (Forall (fun d => 0 < d) es) as He.
  { apply Forall_app. split; [done|constructor; [lia|done]]. }
  replace (prodZ b1 * prodZ b2) with (prodZ (take (length es) es)).
  2:{ rewrite take_ge by lia. unfold es. rewrite prodZ_app, prodZ_cons. ring. }
  assert (prodZ es <= INT64_MAX) as Hle.
  { unfold es. rewrite prodZ_app, prodZ_cons in Hmax |- *. apply prodZ_pos in H1, H2.
    assert (1 * prodZ b2 <= d * prodZ b2) by nia. nia. }
  apply (for64_pure (fun k => prodZ (take k es))); [done| |].
  { unfold es. rewrite !app_length. cbn [length]. lia. }
  intros k Hk. rewrite Z.add_0_l.
  destruct (lookup_lt_is_Some_2 es k Hk) as [e Hek].
  rewrite (take_S_r _ _ _ Hek), prodZ_app, prodZ_cons, prodZ_nil, Z.mul_1_r.
  destruct (decide (k = length b1)) as [->|Hne].
  - rewrite Z.eqb_refl. unfold es in Hek at 1. rewrite list_lookup_middle in Hek by done. injection Hek as <-.
    by rewrite Z.mul_1_r.
  - replace (_ =? _) with false by lia.
    assert ((b1 ++ d :: b2) !! k = Some e) as He2.
    { unfold es in Hek. destruct (decide (k < length b1)%nat).
      - rewrite lookup_app_l in Hek |- * by done. done.
      - rewrite lookup_app_r in Hek |- * by lia.
        by replace (k - length b1)%nat with (S (k - length b1 - 1)) in * by lia. }
    erewrite bind_done by (by apply aget_nat). rewrite ck64_ok; [done|].
    pose proof (Forall_take _ k _ He) as Ht. apply prodZ_pos in Ht.
    pose proof (Forall_drop _ (S k) _ He) as Hdr. apply prodZ_pos in Hdr.
    rewrite <-(take_drop_middle es k e Hek), prodZ_app, prodZ_cons in Hle.
    pose proof (Forall_lookup_1 _ _ _ _ He Hek) as He0. cbv beta in He0.
    assert (prodZ (take k es) * e * 1 <= prodZ (take k es) * e * prodZ (drop (S k) es)) by nia.
    split; [assert (0 < prodZ (take k es) * e) by nia; llia|lia].
Qed.

Lemma softmax_axis_rule p T T3 a d o E s :
  wf s -> alloc_all E -> hooks_ok E -> holds (heap s) p T ->
  Forall (fun d => 0 < d) (a_dims T) -> 2 * prodZ (a_dims T) <= INT64_MAX ->
  a_dims T !! a = Some d ->
  a_type T3 = a_type T -> a_dev T3 = a_dev T -> a_dims T3 = a_dims T -> valid T3 ->
  (forall c j, in_box (a_dims T) c -> c !! a = Some j ->
     exists ys, softmax_lane (e_exp E) (a_type T) (lane T a c) = Some ys /\
       ys !! Z.to_nat j = Some (at_ T3 c)) ->
  makes (aitisa_softmax (HPtr p) (Z.of_nat a) o) E s T3.
Proof.
  intros Hwf HAl HE HT Hpos Hmax Ha Ht3 Hd3 D3 HvT3 Hlane.
  destruct T3 as [t3 dev3 dims3 ws]. cbn [a_type a_dev a_dims] in Ht3, Hd3, D3. subst t3 dev3 dims3.
  apply (makes_or_nomem_alloc _ _ _ o); [done|]. apply Qmakes_elim.
  unfold aitisa_softmax, softmax_create_output.
  pose proof HT as (HvT & bx & tg & ex & Hv & Hx).
  pose proof (valid_len _ HvT) as Hlen. pose proof (valid_fits _ HvT) as Hfit.
  pose proof (fits_len _ _ Hfit) as Hndim.
  apply lookup_lt_Some in Ha as Hal.
  assert (a_dims T = take a (a_dims T) ++ d :: drop (S a) (a_dims T)) as D.
  { by rewrite take_drop_middle. }
  set (b1 := take a (a_dims T)) in *. set (b2 := drop (S a) (a_dims T)) in *.
  assert (length b1 = a) as Lb1 by (unfold b1; rewrite take_length; lia).
  assert (drop (S a) (a_dims T) = b2) as Eb2 by done. clearbody b1 b2.
  eapply wp_step; [by eapply tensor_ndim_ok|].
  replace ((Z.of_nat a <? -1) || (Z.of_nat (length (a_dims T)) - 1 <? Z.of_nat a)) with false by lia.
  apply wp_bind.
  eapply wp_step; [by eapply tensor_dims_ok|].
  eapply wp_step; [by eapply tensor_ndim_ok|].
  eapply wp_step; [by eapply tensor_dtype_ok|].
  eapply wp_step; [by eapply tensor_device_ok|].
  apply create_t_rule; [done|done| |done].
  intros s1 q pd pm ps px Ht Hr. cbv beta match. rewrite bool_decide_eq_true_2 by done. cbn [negb].
  replace (Z.of_nat a =? -1) with false by lia. cbv match.
  pose proof (view_mono _ _ _ _ _ _ _ _ (tnew_base _ _ Ht) Hv) as Hv1.
  unfold softmax_along_axis. apply wp_bind.
  eapply wp_step; [by eapply tensor_dims_ok|].
  eapply wp_step; [by eapply tensor_ndim_ok|].
  eapply wp_step.
  { rewrite D, <-Lb1. apply batch_loop; rewrite <-D; [done|llia]. }
  eapply wp_scr; [done|llia|exact Ht|apply frame_nil|]. intros c1 h1 s2 Ht2 HF2 Hr2 Hs2.
  eapply wp_scr; [done|llia|exact Ht2|exact HF2|]. intros c2 h2 s3 Ht3 HF3 Hr3 Hs3.
  cbn [is_null orb].
  pose proof Hpos as Hp. rewrite D in Hp. apply Forall_app in Hp as [Hp1 Hp2].
  apply Forall_cons in Hp2 as [Hd0 Hp2].
  eapply wp_step.
  { apply row_offsets_ok; [done|lia|]. intros k. by eapply (fits_drop (tsz_pos (a_type T))). }
  eapply wp_step.
  { apply aget_nat. by apply suffs_lookup. }
  rewrite Eb2.
  pose proof (frame_sub _ _ HF3) as Hsub3.
  assert (heap s ⊆ heap s3) as Hss by (etrans; [exact Hsub3|by eapply tnew_base]).
  pose proof (view_mono _ _ _ _ _ _ _ _ Hss Hv) as Hv3.
  eapply wp_step; [by eapply tensor_dtype_ok|]. rewrite dispatch_all_t.
  unfold softmax_axis_kernel.
  pose proof (lookup_weaken _ _ _ _ Hx Hsub3) as Hx3.
  pose proof (valid_len _ HvT3) as Hlen3. cbn in Hlen3.
  apply wp_bind. apply wp_bind.
  eapply wp_step; [by eapply tensor_data_ok|].
  eapply wp_step; [by eapply tensor_data_ok, tnew_view|].
  apply wp_bind. eapply wp_mono.
  { rewrite <-Lb1. rewrite D. rewrite D in Ht3.
    eapply (softmax_lanes_ok b1 d b2 (ws := ws) Hx3 Hd0 Hp1 Hp2);
      [by rewrite <-D|by rewrite <-D| | |done|done].
    - intros h l Hh Hl. 
      set (c1' := unravel b1 h). set (c2' := unravel b2 l).
      assert (in_box b1 c1') as HB1 by (by apply unravel_in_box).
      assert (in_box b2 c2') as HB2 by (by apply unravel_in_box).
      assert (length c1' = a) as Lc1 by (unfold c1'; rewrite unravel_length; lia).
      assert (forall j, 0 <= j < d -> in_box (a_dims T) (c1' ++ j :: c2')) as HB.
      { intros j Hj. rewrite D. apply Forall2_app; [done|by constructor]. }
      assert (forall j, ravel (a_dims T) (c1' ++ j :: c2') = (h * d + j) * prodZ b2 + l) as HR.
      { intros j. rewrite D, ravel_app by lia. cbn [ravel]. unfold c1', c2'.
        rewrite !ravel_unravel by done. rewrite prodZ_cons. ring. }
      assert (forall j, lane T a (c1' ++ j :: c2') =
        (fun i => at_ T (c1' ++ Z.of_nat i :: c2')) <$> seq 0 (Z.to_nat d)) as HL.
      { intros j. unfold lane. rewrite Ha. cbn [default]. apply list_fmap_ext. intros i x Hi.
        f_equal. rewrite insert_app_r_alt by lia. rewrite Lc1, Nat.sub_diag. done. }
      destruct (Hlane (c1' ++ 0 :: c2') 0) as (ys & Hys & _); [apply HB; lia|by rewrite list_lookup_middle|].
      rewrite HL in Hys. eexists _, ys. split; [exact Hys|].
      split; [rewrite fmap_length, seq_length; lia|].
      intros j Hj. rewrite <-HR.
      pose proof (ravel_bound _ _ (HB j Hj)) as Hrb. split.
      + rewrite list_lookup_fmap, lookup_seq_lt by lia. cbn [fmap option_fmap option_map].
        rewrite Nat.add_0_l, Z2Nat.id by lia. unfold at_.
        destruct (lookup_lt_is_Some_2 (a_vals T) (Z.to_nat (ravel (a_dims T) (c1' ++ j :: c2')))) as [v ->]; [lia|].
        done.
      + destruct (Hlane (c1' ++ j :: c2') j) as (ys' & Hys' & Hat); [by apply HB|by rewrite list_lookup_middle|].
        rewrite HL in Hys'. rewrite Hys in Hys'. injection Hys' as <-. rewrite Hat.
        unfold at_. cbn [a_vals a_dims].
        destruct (lookup_lt_is_Some_2 ws (Z.to_nat (ravel (a_dims T) (c1' ++ j :: c2')))) as [v ->]; [lia|].
        done.
    - replace (imap _ ws) with (replicate (Z.to_nat (prodZ (b1 ++ d :: b2))) VU); [exact Ht3|].
      rewrite <-D. replace (Z.to_nat (prodZ (a_dims T))) with (length ws) by lia.
      rewrite <-(const_fmap (fun _ => VU)) by done. rewrite <-imap_const. apply imap_ext.
      intros i w Hw. cbv beta. replace (_ <? _) with false; [done|].
      symmetry. apply Z.ltb_ge. unfold lane_of.
      pose proof (prodZ_pos _ Hp2). 
      pose proof (Z.mod_pos_bound (Z.of_nat i) (prodZ b2) ltac:(lia)).
      assert (0 <= Z.of_nat i / (d * prodZ b2)) by (apply Z.div_pos; nia). nia. }
  intros idx s4 [Ht4 Hr4]. rewrite <-D in Ht4. apply wp_ret. apply wp_ret. cbv beta match.
  rewrite bool_decide_eq_true_2 by done. cbn [negb].
  eapply (wp_scr_free [c2] c1 []); [done|exact Ht4|exact HF3|]. intros h5 s5 Ht5 HF5 Hr5.
  eapply (wp_scr_free [] c2 []); [done|exact Ht5|exact HF5|]. intros h6 s6 Ht6 HF6 Hr6.
  apply frame_nil_inv in HF6 as ->.
  apply wp_ret. apply wp_ret. left. exists q. split; [done|].
  eapply tnew_makes; [done|done|exact Ht6|]. congruence.
Qed.

(** On floating-point types nothing can go wrong. *)
Lemma mapM_cons_some {A B} (f : A -> option B) x xs y ys :
  f x = Some y -> mapM f xs = Some ys -> mapM f (x :: xs) = Some (y :: ys).
Proof. intros H1 H2. cbn. by rewrite H1; cbn; rewrite H2. Qed.
Lemma mapM_total {A B} (f : A -> option B) (P : B -> Prop) xs :
  Forall (fun x => exists y, f x = Some y /\ P y) xs ->
  exists ys, mapM f xs = Some ys /\ length ys = length xs /\ Forall P ys.
Proof.
  induction 1 as [|x xs (y & Hy & HP) _ (ys & IH & L & H)]; [exists []; repeat constructor|].
  exists (y :: ys). split; [by apply mapM_cons_some|]. split; [cbn; by f_equal|by constructor].
Qed.
Lemma softmax_lane_float ex t xs : is_float t = true -> Forall (val_ok t) xs ->
  exists ys, softmax_lane ex t xs = Some ys /\ length ys = length xs /\ Forall (fun y => exists f, y = VF f) ys.
Proof.
  intros Hf Hxs. unfold softmax_lane.
  destruct (mapM_total (fun v => d ← to_double t v; of_double t (ex d)) (fun e => exists f, e = VF f) xs)
    as (es & -> & L1 & Hes).
  { eapply Forall_impl; [exact Hxs|]. intros [z|f|] Hx; [destruct Hx; congruence| |done].
    eexists. cbn. unfold to_double, of_double. rewrite Hf. cbn. eauto. }
  cbn.
  destruct (mapM_total (to_double t) (fun _ => True) es) as (ds & -> & L2 & _).
  { eapply Forall_impl; [exact Hes|]. intros ? (f & ->). unfold to_double. rewrite Hf. eauto. }
  cbn. match goal with |- context [mapM ?f ds] => destruct (mapM_total f (fun e => exists g, e = VF g) ds) as (ys & -> & L3 & Hys) end.
  { apply Forall_forall. intros d _. unfold of_double. rewrite Hf. eauto. }
  exists ys. split; [done|]. split; [congruence|done].
Qed.
Lemma lane_length T a c d : a_dims T !! a = Some d -> length (lane T a c) = Z.to_nat d.
Proof. intros H. unfold lane. by rewrite fmap_length, seq_length, H. Qed.
Lemma lane_init T a c d : valid T -> init T -> a_dims T !! a = Some d -> in_box (a_dims T) c ->
  Forall (val_ok (a_type T)) (lane T a c).
Proof.
  intros HvT Hin Ha Hc. apply Forall_forall. intros x Hx. unfold lane in Hx. rewrite Ha in Hx. cbn [default] in Hx.
  apply elem_of_list_fmap in Hx as (j & -> & Hj). apply elem_of_seq in Hj. unfold id in Hj.
  pose proof (valid_len _ HvT) as Hlen.
  assert (in_box (a_dims T) (<[a := Z.of_nat j]> c)) as Hb.
  { rewrite <-(list_insert_id (a_dims T) a d Ha). apply Forall2_insert; [done|lia]. }
  pose proof (ravel_bound _ _ Hb). unfold at_.
  destruct (lookup_lt_is_Some_2 (a_vals T) (Z.to_nat (ravel (a_dims T) (<[a:=Z.of_nat j]> c)))) as [v Hv]; [lia|].
  rewrite Hv. by apply (Forall_lookup_1 _ _ _ _ Hin Hv).
Qed.
Lemma softmax_axis_float p T a d o E s :
  wf s -> alloc_all E -> hooks_ok E -> holds (heap s) p T -> init T -> is_float (a_type T) = true ->
  Forall (fun d => 0 < d) (a_dims T) -> 2 * prodZ (a_dims T) <= INT64_MAX ->
  a_dims T !! a = Some d ->
  exists T3,
    a_type T3 = a_type T /\ a_dev T3 = a_dev T /\ a_dims T3 = a_dims T /\
    (forall c j, in_box (a_dims T) c -> c !! a = Some j ->
     exists ys, softmax_lane (e_exp E) (a_type T) (lane T a c) = Some ys /\
       ys !! Z.to_nat j = Some (at_ T3 c)) /\
  makes (aitisa_softmax (HPtr p) (Z.of_nat a) o) E s T3.
Proof.
  intros Hwf HA HE HT Hin Hf Hpos Hmax Ha. pose proof HT as [HvT _].
  set (f := fun c => default VU (default [] (softmax_lane (e_exp E) (a_type T) (lane T a c)) !! Z.to_nat (default 0 (c !! a)))).
  exists (AT (a_type T) (a_dev T) (a_dims T) (tab (a_dims T) f)).
  assert (forall c j, in_box (a_dims T) c -> c !! a = Some j ->
     exists ys, softmax_lane (e_exp E) (a_type T) (lane T a c) = Some ys /\
       ys !! Z.to_nat j = Some (at_ (AT (a_type T) (a_dev T) (a_dims T) (tab (a_dims T) f)) c)) as Hspec.
  { intros c j Hc Hj.
    destruct (softmax_lane_float (e_exp E) _ _ Hf (lane_init T a c d HvT Hin Ha Hc)) as (ys & Hys & Ly & _).
    exists ys. split; [done|]. rewrite at_tab by done. unfold f. rewrite Hys, Hj. cbn [default].
    rewrite (lane_length T a c d Ha) in Ly.
    pose proof (Forall2_lookup_lr _ _ _ _ _ _ Hc Ha Hj) as Hjd. cbv beta in Hjd.
    destruct (lookup_lt_is_Some_2 ys (Z.to_nat j)) as [y Hy]; [lia|]. unfold default, from_option, id. by rewrite Hy. }
  split_and!; [done..|]. eapply softmax_axis_rule; try done. apply tab_valid. apply HvT.
Qed.
Lemma softmax_all_float p T o E s :
  wf s -> alloc_all E -> holds (heap s) p T -> init T -> is_float (a_type T) = true ->
  exists ws, softmax_lane (e_exp E) (a_type T) (a_vals T) = Some ws /\
  makes (aitisa_softmax (HPtr p) (-1) o) E s (AT (a_type T) (a_dev T) (a_dims T) ws).
Proof.
  intros Hwf HA HT Hin Hf. destruct (softmax_lane_float (e_exp E) _ _ Hf Hin) as (ys & Hys & _).
  exists ys. split; [done|]. by apply softmax_all_rule.
Qed.
