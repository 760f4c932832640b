(** * ProofSoftmax2: softmax on integer tensors, every outcome *)
From stdpp Require Import gmap list.
From Coq Require Import ZArith Lia Floats.SpecFloat.
From Coq Require Import ZifyBool ZifyNat.
From Verif Require Import Base Mem Spec SpecReal SpecNN ModelCore ModelBasic ModelMath ModelNN Logic
  ProofCore ProofCore2 ProofCore3 ProofIndex ProofKernel ProofKernel2 ProofBasic ProofSlice ProofFrame ProofMatmul
  ProofExact ProofBatch ProofDot7 ProofSoftmax.
Open Scope Z_scope.

Ltac Zify.zify_post_hook ::= Z.div_mod_to_equations.

(** ** The first element at which a partial map is undefined *)
Lemma mapM_first {A B} (f : A -> option B) xs : mapM f xs = None ->
  exists j x ys, xs !! j = Some x /\ f x = None /\ mapM f (take j xs) = Some ys.
Proof.
  induction xs as [|x xs IH]; [done|]. cbn [mapM]. intros H.
  destruct (f x) as [y|] eqn:Hx.
  - destruct (mapM f xs) as [ys|] eqn:Hxs; [done|]. destruct (IH eq_refl) as (j & z & zs & H1 & H2 & H3).
    exists (S j), z, (y :: zs). split_and!; [done|done|]. cbn [take]. by apply mapM_cons_some.
  - by exists O, x, [].
Qed.

Section lane.
Context {E : env} {tag lo : nat} {base : gmap nat block} {p pd pm ps px : nat}
  {t : tcode} {dev : device} {dims : list Z}.
Let TN s' vs := tnew tag lo base s' p pd pm ps px (dtype_of t) dev dims (cells t vs).
Context {bA tgA : nat} {vA : list val} {exA : list mv}.
Context (HA : base !! bA = Some (Blk tgA (CData (cells t vA ++ exA)))).

(** ** The first pass, up to an exponential outside the element type *)
Lemma softmax_exps_stuck s vs (a st : nat) xs es ds n i x d :
  TN s vs -> n = Z.of_nat (length xs) -> (0 < st)%nat ->
  (forall j, (j < length xs)%nat -> (a + j * st < length vs)%nat) ->
  Z.of_nat (a + length xs * st) <= INT64_MAX ->
  (forall j x, xs !! j = Some x -> vA !! (a + j * st)%nat = Some x) ->
  xs !! i = Some x -> to_double t x = Some d -> of_double t (e_exp E d) = None ->
  Forall2 (fun v e => exists d, to_double t v = Some d /\ of_double t (e_exp E d) = Some e) (take i xs) es ->
  Forall2 (fun e d => to_double t e = Some d) es ds ->
  softmax_exps t (HPtr bA) (HPtr px) (Z.of_nat a) (Z.of_nat st) n E s = UB UB_fconv.
Proof using HA.
  intros HT -> Hst Hin Hmax Hxs Hi Hxd Hbad Hes Hds. unfold softmax_exps.
  pose proof (lookup_lt_Some _ _ _ Hi) as Hil.
  pose proof (Forall2_length _ _ _ Hes) as L1. pose proof (Forall2_length _ _ _ Hds) as L2.
  rewrite take_length in L1.
  apply bind_UB. unfold for64.
  apply (iter_ub (fun j r s' => r = (foldl dadd fzero (take j ds), Z.of_nat (a + j * st)) /\
      TN s' (putl a st (take j es) vs) /\ rpos s' = rpos s) _ _ _ _ _ _ i); [lia| | |].
  { rewrite !take_0. split_and!; [f_equal; lia|done|done]. }
  - intros j r s1 Hj (-> & HT1 & Hr1). cbv beta match.
    destruct (lookup_lt_is_Some_2 xs j ltac:(lia)) as [y Hx].
    assert (take i xs !! j = Some y) as Hx' by (by rewrite lookup_take by lia).
    destruct (Forall2_lookup_l _ _ _ _ _ Hes Hx') as (e & He & d0 & Hd & Hed).
    destruct (Forall2_lookup_l _ _ _ _ _ Hds He) as (d' & Hd' & Hde).
    assert (length (take j es) = j) as Ltake by (rewrite take_length; lia).
    pose proof (putl_snoc a st (take j es) e vs) as Hsn. rewrite <-(take_S_r _ _ _ He), Ltake in Hsn.
    specialize (Hin j ltac:(lia)).
    eapply wp_step.
    { eapply loadi_cells; [eapply tnew_lookup; [exact HT1|exact HA]|by apply Hxs]. }
    eapply wp_step.
    { unfold exp_of. erewrite bind_done by (by apply opt_ok). done. }
    eapply wp_step; [by apply opt_ok|].
    eapply wp_step.
    { eapply tnew_storei; [exact HT1|]. by rewrite putl_length. }
    rewrite <-Hsn. eapply (tnew_upd) in HT1 as HT2.
    eapply wp_step.
    { eapply tnew_loadi; [exact HT2|]. rewrite Hsn. apply list_lookup_insert. by rewrite putl_length. }
    eapply wp_step; [by apply opt_ok|].
    eapply wp_step; [apply ck64_ok; llia || (split; [llia|]; nia)|].
    apply wp_ret. split_and!; [|exact HT2|done].
    rewrite (take_S_r _ _ _ Hd'), foldl_app. cbn [foldl]. f_equal. lia.
  - intros r s1 (-> & HT1 & Hr1). cbv beta match.
    eapply ub_step.
    { eapply loadi_cells; [eapply tnew_lookup; [exact HT1|exact HA]|by apply Hxs]. }
    eapply ub_step.
    { unfold exp_of. erewrite bind_done by (by apply opt_ok). done. }
    apply bind_UB. by rewrite Hbad.
Qed.

(** ** The second pass, up to a quotient outside the element type *)
Lemma softmax_norm_stuck s vs (a st : nat) es ds ys n total i d :
  TN s (putl a st es vs) -> n = Z.of_nat (length es) -> (0 < st)%nat ->
  (forall j, (j < length es)%nat -> (a + j * st < length vs)%nat) ->
  Z.of_nat (a + length es * st) <= INT64_MAX ->
  Forall2 (fun e d => to_double t e = Some d) es ds ->
  ds !! i = Some d -> of_double t (ddiv d total) = None ->
  Forall2 (fun d y => of_double t (ddiv d total) = Some y) (take i ds) ys ->
  softmax_norm t (HPtr px) (Z.of_nat a) (Z.of_nat st) n total E s = UB UB_fconv.
Proof using Type.
  intros HT -> Hst Hin Hmax Hds Hi Hbad Hys. unfold softmax_norm.
  pose proof (lookup_lt_Some _ _ _ Hi) as Hil.
  pose proof (Forall2_length _ _ _ Hys) as L1. pose proof (Forall2_length _ _ _ Hds) as L2.
  rewrite take_length in L1.
  set (F := fun j => putl a st (take j ys ++ drop j es) vs).
  assert (forall j e, es !! j = Some e -> (j <= length ys)%nat -> F j !! (a + j * st)%nat = Some e) as HF0.
  { intros j e He Hj. pose proof (lookup_lt_Some _ _ _ He).
    unfold F. rewrite putl_in by (rewrite ?app_length, ?take_length, ?drop_length; try lia; apply Hin; lia).
    rewrite lookup_app_r by (rewrite take_length; lia). rewrite lookup_drop, take_length.
    by replace (j + (j - j `min` length ys))%nat with j by lia. }
  apply bind_UB. unfold for64.
  apply (iter_ub (fun j r s' => r = Z.of_nat (a + j * st) /\
      TN s' (F j) /\ rpos s' = rpos s) _ _ _ _ _ _ i); [lia| | |].
  { unfold F. rewrite take_0, drop_0. split_and!; [lia|done|done]. }
  - intros j r s1 Hj (-> & HT1 & Hr1). cbv beta match.
    destruct (lookup_lt_is_Some_2 es j ltac:(lia)) as [e He].
    destruct (Forall2_lookup_l _ _ _ _ _ Hds He) as (d0 & Hd & Hed).
    assert (take i ds !! j = Some d0) as Hd0 by (by rewrite lookup_take by lia).
    destruct (Forall2_lookup_l _ _ _ _ _ Hys Hd0) as (y & Hy & Hdy).
    assert (length (take j ys) = j) as Ltake by (rewrite take_length; lia).
    specialize (Hin j ltac:(lia)) as Hinj.
    assert (length (take j ys ++ drop j es) = length es) as Lapp
      by (rewrite app_length, drop_length; lia).
    pose proof (HF0 j e He ltac:(lia)) as HFj.
    assert (<[(a + j * st)%nat := y]> (F j) = F (S j)) as HFS.
    { apply list_eq. intros k. unfold F.
      destruct (decide (k = a + j * st)%nat) as [->|Hne].
      - rewrite list_lookup_insert by (by rewrite putl_length).
        rewrite putl_in by (rewrite ?app_length, ?take_length, ?drop_length; lia).
        rewrite (take_S_r _ _ _ Hy), <-app_assoc. cbn [app]. by rewrite list_lookup_middle.
      - rewrite list_lookup_insert_ne by done.
        destruct (on_lane a st (length es) k Hst) as [(q & Hq & ->)|Hno].
        2:{ rewrite !putl_out; [done| |]; intros q Hq ->; apply (Hno q); try done;
            rewrite ?app_length, ?take_length, ?drop_length in Hq; lia. }
        rewrite !putl_in by (rewrite ?app_length, ?take_length, ?drop_length; (lia || by apply Hin)).
        destruct (decide (q < j)%nat).
        + rewrite !lookup_app_l by (rewrite take_length; lia). rewrite !lookup_take by lia. done.
        + assert (q <> j) by (intros ->; done).
          rewrite !lookup_app_r by (rewrite take_length; lia). rewrite !lookup_drop, !take_length.
          f_equal. lia. }
    eapply wp_step.
    { eapply tnew_loadi; [exact HT1|exact HFj]. }
    eapply wp_step; [by apply opt_ok|].
    eapply wp_step; [by apply opt_ok|].
    eapply wp_step.
    { eapply tnew_storei; [exact HT1|]. by eapply lookup_lt_Some. }
    rewrite HFS. eapply tnew_upd in HT1 as HT2.
    eapply wp_intro; [apply ck64_ok; split; [llia|]; nia|]. split_and!; [lia|exact HT2|done].
  - intros r s1 (-> & HT1 & Hr1). cbv beta match.
    destruct (Forall2_lookup_r _ _ _ _ _ Hds Hi) as (e & He & Hed).
    eapply ub_step.
    { eapply tnew_loadi; [exact HT1|]. apply HF0; [exact He|lia]. }
    eapply ub_step; [by apply opt_ok|].
    apply bind_UB. by rewrite Hbad.
Qed.

(** ** Both passes over a lane without a result *)
Lemma softmax_both_stuck s vs (a st : nat) xs n {B} (k : M B) :
  TN s vs -> n = Z.of_nat (length xs) -> (0 < st)%nat ->
  (forall j, (j < length xs)%nat -> (a + j * st < length vs)%nat) ->
  Z.of_nat (a + length xs * st) <= INT64_MAX ->
  (forall j x, xs !! j = Some x -> vA !! (a + j * st)%nat = Some x) ->
  Forall (val_ok t) xs -> softmax_lane (e_exp E) t xs = None ->
  (let* total := softmax_exps t (HPtr bA) (HPtr px) (Z.of_nat a) (Z.of_nat st) n in
      softmax_norm t (HPtr px) (Z.of_nat a) (Z.of_nat st) n total ;;; k) E s = UB UB_fconv.
Proof using HA.
  intros HT -> Hst Hin Hmax Hxs Hok Hlane. unfold softmax_lane in Hlane.
  assert (forall v, val_ok t v -> exists d, to_double t v = Some d) as Htd.
  { intros [z|f|] Hv; unfold to_double; [| |done]; destruct Hv as [Hf Hv]; rewrite Hf; eauto. }
  assert (forall d e, of_double t d = Some e -> exists d', to_double t e = Some d') as Hod.
  { intros d e Hde. unfold of_double in Hde. unfold to_double. destruct (is_float t) eqn:Hf.
    - injection Hde as <-. eauto.
    - destruct (flt_trunc d) as [z|]; [|done]. destruct (in_range t z); [|done]. injection Hde as <-. eauto. }
  assert (forall xs es, mapM (fun v => d ← to_double t v; of_double t (e_exp E d)) xs = Some es ->
    Forall2 (fun v e => exists d, to_double t v = Some d /\ of_double t (e_exp E d) = Some e) xs es) as Hconv.
  { intros ys es Hes. apply mapM_Some in Hes. eapply Forall2_impl; [exact Hes|]. intros v e Hv. cbv beta in Hv.
    destruct (to_double t v) as [d|]; [|done]. exists d. done. }
  assert (forall xs es, mapM (fun v => d ← to_double t v; of_double t (e_exp E d)) xs = Some es ->
    exists ds, Forall2 (fun e d => to_double t e = Some d) es ds /\ mapM (to_double t) es = Some ds) as Hds.
  { intros ys es Hes. apply Hconv in Hes.
    destruct (mapM_total (to_double t) (fun _ => True) es) as (ds & Hds & _ & _).
    { apply Forall_forall. intros e He. apply elem_of_list_lookup in He as [j He].
      destruct (Forall2_lookup_r _ _ _ _ _ Hes He) as (v & _ & d & _ & Hd).
      destruct (Hod _ _ Hd) as [d' Hd']. eauto. }
    exists ds. split; [|done]. by apply mapM_Some in Hds. }
  destruct (mapM _ xs) as [es|] eqn:Hes.
  - destruct (Hds _ _ Hes) as (ds & F2 & Hmap). cbn in Hlane. rewrite Hmap in Hlane. cbn in Hlane.
    apply mapM_first in Hlane as (i & d & ys & Hi & Hbad & Hys). apply mapM_Some in Hys.
    apply Hconv in Hes. pose proof (Forall2_length _ _ _ Hes) as L1.
    pose proof (softmax_exps_ok HA s vs a st xs es ds _ HT eq_refl Hst Hin Hmax Hxs Hes F2) as Hw.
    apply wp_elim in Hw as (total & s1 & Hdone & -> & HT1 & Hr1).
    eapply ub_step; [exact Hdone|]. apply bind_UB.
    eapply (softmax_norm_stuck s1 vs a st es ds ys); try done; [congruence|intros j Hj; apply Hin; lia|lia].
  - apply mapM_first in Hes as (i & x & es & Hi & Hbad & Hes).
    destruct (Htd x) as [d Hd]; [by apply (Forall_lookup_1 _ _ _ _ Hok Hi)|].
    rewrite Hd in Hbad. cbn in Hbad. destruct (Hds _ _ Hes) as (ds & F2 & _). apply Hconv in Hes.
    apply bind_UB. by eapply (softmax_exps_stuck s vs a st xs es ds _ i x d).
Qed.
End lane.

(** ** All lanes along an axis, up to the first one without a result *)
Section axis.
Context {E : env} {tag lo : nat} {base : gmap nat block} {p pd pm ps px : nat}
  {t : tcode} {dev : device}.
Context (b1 : list Z) (d : Z) (b2 : list Z).
Let dims := b1 ++ d :: b2.
Let m := prodZ b2.
Let TN s' vs := tnew tag lo base s' p pd pm ps px (dtype_of t) dev dims (cells t vs).
Context {bA tgA : nat} {vA ws : list val} {exA : list mv}.
Context (HA : base !! bA = Some (Blk tgA (CData (cells t vA ++ exA)))).
Context (Hd : 0 < d) (Hb1 : Forall (fun d => 0 < d) b1) (Hb2 : Forall (fun d => 0 < d) b2)
  (Hmax : 2 * prodZ dims <= INT64_MAX)
  (LW : Z.of_nat (length ws) = prodZ dims).
Context (K0 : nat) (HK0 : (K0 < Z.to_nat (prodZ b1 * m))%nat).
Context (Hws : forall h l, 0 <= h < prodZ b1 -> 0 <= l < m ->
  h * m + l < Z.of_nat K0 ->
  exists xs ys, softmax_lane (e_exp E) t xs = Some ys /\
    Z.of_nat (length xs) = d /\
    forall j, 0 <= j < d ->
      vA !! Z.to_nat ((h * d + j) * m + l) = xs !! Z.to_nat j /\
      ws !! Z.to_nat ((h * d + j) * m + l) = ys !! Z.to_nat j).
Context (Hbad : forall h l, 0 <= h < prodZ b1 -> 0 <= l < m -> h * m + l = Z.of_nat K0 ->
  exists xs, softmax_lane (e_exp E) t xs = None /\ Forall (val_ok t) xs /\
    Z.of_nat (length xs) = d /\
    forall j, 0 <= j < d -> vA !! Z.to_nat ((h * d + j) * m + l) = xs !! Z.to_nat j).

Let F (k : nat) : list val :=
  imap (fun i w => if lane_of d m (Z.of_nat i) <? Z.of_nat k then w else VU) ws.

Lemma softmax_lanes_stuck s n st :
  TN s (F 0) -> n = prodZ b1 * m -> st = m ->
  for64 0 n (fun _ idx =>
      let* start := lin_index (Z.of_nat (length dims)) idx (suffs dims) in
      let* n := aget dims (Z.of_nat (length b1)) in
      let* total := softmax_exps t (HPtr bA) (HPtr px) start st n in
      softmax_norm t (HPtr px) start st n total ;;;
      softmax_advance (Z.to_nat (Z.of_nat (length dims))) (Z.of_nat (length b1)) dims idx)
    (replicate (Z.to_nat (Z.of_nat (length dims))) 0) E s = UB UB_fconv.
Proof using HA Hd Hb1 Hb2 Hmax LW Hws HK0 Hbad.
  intros HT -> ->. pose proof (m_pos b2 Hb2) as Hm. pose proof (p1_pos b1 Hb1) as Hp1. pose proof (dims_prod b1 d b2) as Hdp.
  fold m in Hm. change (prodZ dims = prodZ b1 * (d * m)) in Hdp.
  assert (Forall (fun d => 0 < d) (b1 ++ 1 :: b2)) as He.
  { apply Forall_app. split; [done|]. constructor; [lia|done]. }
  assert (0 < d * m) as Hdm by nia.
  unfold for64.
  apply (iter_ub (fun k idx s' => idx = unravel (b1 ++ 1 :: b2) (Z.of_nat k) /\
      TN s' (F k) /\ rpos s' = rpos s) _ _ _ _ _ _ K0); [lia| | |].
    { split_and!; [|done|done]. rewrite Nat2Z.id. unfold dims.
      replace (length (b1 ++ d :: b2)) with (length (b1 ++ 1 :: b2)) by (by rewrite !app_length).
      change (Z.of_nat 0) with 0. by rewrite unravel_0. }
  - intros k idx s1 Hk (-> & HT1 & Hr1). rewrite Nat2Z.id.
    set (K := Z.of_nat k). set (h := K / m). set (l := K mod m).
    assert (0 <= l < m) as Hl by (apply Z.mod_pos_bound; lia).
    assert (K = h * m + l) as HK by (pose proof (Z.div_mod K m ltac:(lia)); unfold h, l; lia).
    assert (0 <= h < prodZ b1) as Hh by nia.
    assert (unravel (b1 ++ 1 :: b2) K = unravel b1 h ++ 0 :: unravel b2 K) as Hu.
    { rewrite unravel_app by (done || by constructor; [lia|]). rewrite prodZ_cons.
      fold m. rewrite Z.mul_1_l. cbn [unravel]. fold m. by rewrite Z.mod_1_r. }
    assert (in_box dims (unravel (b1 ++ 1 :: b2) K)) as Hbox.
    { rewrite Hu. unfold dims. apply Forall2_app; [by apply unravel_in_box|].
      constructor; [lia|]. by apply unravel_in_box. }
    assert (unravel b2 K = unravel b2 l) as Hu2.
    { rewrite HK. unfold m. by rewrite unravel_add. }
    assert (ravel dims (unravel (b1 ++ 1 :: b2) K) = (h * d + 0) * m + l) as Hrav.
    { rewrite Hu, Hu2. unfold dims. rewrite ravel_app by (by rewrite unravel_length).
      rewrite ravel_unravel by (done || lia). cbn [ravel]. rewrite ravel_unravel by (done || lia).
      rewrite prodZ_cons. fold m. ring. }
    eapply wp_step.
    { apply lin_index_ok; [exact Hbox|done|done|]. llia. }
    rewrite Hrav. eapply wp_step.
    { apply aget_nat. unfold dims. by rewrite list_lookup_middle. }
    destruct (Hws h l Hh Hl ltac:(lia)) as (xs & ys & Hlane & Lx & Hpos).
    set (a := Z.to_nat ((h * d + 0) * m + l)). set (st := Z.to_nat m).
    assert (0 <= h * d) as Hhd by nia.
    assert (0 <= (h * d + 0) * m) as Hhdm by nia.
    assert ((h * d + 0) * m + l = Z.of_nat a) as Ha by (unfold a; lia).
    assert (m = Z.of_nat st) as Hst by (unfold st; lia).
    assert (forall j, Z.of_nat (a + j * st) = (h * d + Z.of_nat j) * m + l) as Hpj.
    { intros j. rewrite Nat2Z.inj_add, Nat2Z.inj_mul, <-Ha, <-Hst. ring. }
    assert (forall j, 0 <= j < d -> (h * d + j) * m + l < prodZ dims) as Hbnd.
    { intros j Hj. rewrite Hdp. assert (h * d + j + 1 <= prodZ b1 * d) by nia. nia. }
    assert (length (F k) = length ws) as LF by (apply imap_length).
    rewrite Ha. replace (d) with (Z.of_nat (length xs)) by lia. rewrite Hst.
    eapply (softmax_both_ok HA s1 (F k) a st xs ys); [exact HT1|done|lia| | | |exact Hlane|].
    + intros j Hj. specialize (Hbnd (Z.of_nat j) ltac:(lia)). rewrite <-Hpj in Hbnd. lia.
    + rewrite Hpj, Lx. specialize (Hbnd (d - 1) ltac:(lia)). nia.
    + intros j x Hj. apply lookup_lt_Some in Hj as Hjl.
      destruct (Hpos (Z.of_nat j) ltac:(lia)) as [Hv _]. rewrite <-Hpj, !Nat2Z.id in Hv. by rewrite Hv.
    + intros s2 HT2 Hr2 Ly. eapply wp_intro.
      { apply softmax_advance_ok. apply Forall_app. 
        assert (forall x, x ∈ b1 ++ d :: b2 -> x <= INT64_MAX) as Hle.
        { intros x Hx. assert (x <= prodZ dims); [|llia]. apply elem_prodZ; [|done].
          apply Forall_app. split; [done|by constructor]. }
        split; apply Forall_forall; intros x Hx; (split; [|apply Hle; set_solver]).
        - by eapply (Forall_forall (fun d => 0 < d) b1).
        - by eapply (Forall_forall (fun d => 0 < d) b2). }
      split_and!; [f_equal; lia| |congruence].
      replace (F (S k)) with (putl a st ys (F k)); [exact HT2|].
      apply list_eq. intros i.
      destruct (decide (i < length ws)%nat) as [Hi|Hi].
      2:{ rewrite !lookup_ge_None_2; [done| |rewrite putl_length, LF; lia].
          unfold F. rewrite imap_length. lia. }
      destruct (lane_of_inv d m (Z.of_nat i) Hd Hm ltac:(lia)) as (h' & j' & l' & Hh' & Hj' & Hl' & Hi').
      assert (lane_of d m (Z.of_nat i) = h' * m + l') as Hlo by (rewrite Hi'; by apply lane_of_pos).
      unfold F at 2. rewrite list_lookup_imap. destruct (lookup_lt_is_Some_2 ws i Hi) as [w Hw].
      rewrite Hw. cbn [fmap option_fmap option_map]. rewrite Hlo.
      destruct (decide (h' * m + l' = K)) as [HeqK|HneK].
      * assert (h' = h /\ l' = l) as [-> ->].
        { unfold h, l. rewrite <-HeqK. split.
          - apply (Z.div_unique _ _ _ l'); [lia|ring].
          - apply (Z.mod_unique _ _ h'); [lia|ring]. }
        assert (i = a + Z.to_nat j' * st)%nat as -> by (apply Nat2Z.inj; rewrite Hpj, Hi'; lia).
        rewrite putl_in by lia. replace (_ <? _) with true by lia.
        destruct (Hpos j' Hj') as [_ Hy]. rewrite <-Hy, <-Hi', Nat2Z.id. done.
      * rewrite putl_out.
        2:{ intros j Hj ->. rewrite Hpj in Hi'. apply HneK. rewrite HK.
            rewrite Hpj in Hlo. rewrite lane_of_pos in Hlo by lia. lia. }
        unfold F. rewrite list_lookup_imap, Hw. cbn [fmap option_fmap option_map]. rewrite Hlo.
        f_equal. replace (h' * m + l' <? Z.of_nat (S k)) with (h' * m + l' <? Z.of_nat k) by lia. done.
  - intros idx s1 (-> & HT1 & Hr1). rewrite Nat2Z.id.
    set (K := Z.of_nat K0). set (h := K / m). set (l := K mod m).
    assert (0 <= l < m) as Hl by (apply Z.mod_pos_bound; lia).
    assert (K = h * m + l) as HK by (pose proof (Z.div_mod K m ltac:(lia)); unfold h, l; lia).
    assert (0 <= h < prodZ b1) as Hh by nia.
    assert (unravel (b1 ++ 1 :: b2) K = unravel b1 h ++ 0 :: unravel b2 K) as Hu.
    { rewrite unravel_app by (done || by constructor; [lia|]). rewrite prodZ_cons.
      fold m. rewrite Z.mul_1_l. cbn [unravel]. fold m. by rewrite Z.mod_1_r. }
    assert (in_box dims (unravel (b1 ++ 1 :: b2) K)) as Hbox.
    { rewrite Hu. unfold dims. apply Forall2_app; [by apply unravel_in_box|].
      constructor; [lia|]. by apply unravel_in_box. }
    assert (unravel b2 K = unravel b2 l) as Hu2.
    { rewrite HK. unfold m. by rewrite unravel_add. }
    assert (ravel dims (unravel (b1 ++ 1 :: b2) K) = (h * d + 0) * m + l) as Hrav.
    { rewrite Hu, Hu2. unfold dims. rewrite ravel_app by (by rewrite unravel_length).
      rewrite ravel_unravel by (done || lia). cbn [ravel]. rewrite ravel_unravel by (done || lia).
      rewrite prodZ_cons. fold m. ring. }
    eapply ub_step.
    { apply lin_index_ok; [exact Hbox|done|done|]. llia. }
    rewrite Hrav. eapply ub_step.
    { apply aget_nat. unfold dims. by rewrite list_lookup_middle. }
    destruct (Hbad h l Hh Hl ltac:(lia)) as (xs & Hlane & Hxok & Lx & Hpos).
    set (a := Z.to_nat ((h * d + 0) * m + l)). set (st := Z.to_nat m).
    assert (0 <= h * d) as Hhd by nia.
    assert (0 <= (h * d + 0) * m) as Hhdm by nia.
    assert ((h * d + 0) * m + l = Z.of_nat a) as Ha by (unfold a; lia).
    assert (m = Z.of_nat st) as Hst by (unfold st; lia).
    assert (forall j, Z.of_nat (a + j * st) = (h * d + Z.of_nat j) * m + l) as Hpj.
    { intros j. rewrite Nat2Z.inj_add, Nat2Z.inj_mul, <-Ha, <-Hst. ring. }
    assert (forall j, 0 <= j < d -> (h * d + j) * m + l < prodZ dims) as Hbnd.
    { intros j Hj. rewrite Hdp. assert (h * d + j + 1 <= prodZ b1 * d) by nia. nia. }
    assert (length (F K0) = length ws) as LF by (apply imap_length).
    rewrite Ha. replace (d) with (Z.of_nat (length xs)) by lia. rewrite Hst.
    eapply (softmax_both_stuck HA s1 (F K0) a st xs); [exact HT1|done|lia| | | |exact Hxok|exact Hlane].
    + intros j Hj. specialize (Hbnd (Z.of_nat j) ltac:(lia)). rewrite <-Hpj in Hbnd. lia.
    + rewrite Hpj, Lx. specialize (Hbnd (d - 1) ltac:(lia)). nia.
    + intros j x Hj. apply lookup_lt_Some in Hj as Hjl.
      pose proof (Hpos (Z.of_nat j) ltac:(lia)) as Hv. rewrite <-Hpj, !Nat2Z.id in Hv. by rewrite Hv.
Qed.
End axis.
