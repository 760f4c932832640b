(** * ProofSample5: histories; what goes wrong outside the discipline *)
From stdpp Require Import gmap list.
From Coq Require Import ZArith Lia ZifyBool ZifyNat.
From Verif Require Import Base Mem Spec ModelSample SpecSample ProofSample ProofSample2 ProofSample3 ProofSample4.
Open Scope Z_scope.

(** ** Histories under the discipline *)
Lemma run_good E h V s : inv V s -> legal_run E h V s ->
  match steps h V E s with
  | Done V' s' => inv V' s' /\ (ctr s <= ctr s')%nat /\
      (forall b, owned V b -> (owned V' b /\ heap s' !! b = heap s !! b) \/ (~ owned V' b /\ heap s' !! b = None)) /\
      (forall b, (b < ctr s)%nat -> heap s !! b = None -> heap s' !! b = None)
  | Abort => ~ (alloc_all E /\ Forall roomy h)
  | _ => False
  end.
Proof.
  revert V s. induction h as [|op h IH]; intros V s Hi Hl.
  { cbn. split_and!; try done. intros b Hb. by left. }
  destruct Hl as [Hop Hl]. pose proof (step_good op V E s Hi Hop) as Hg. unfold good in Hg.
  cbn [steps]. unfold bind. destruct (step op V E s) as [V1 s1| | |] eqn:Hs; [|done| |done].
  - destruct Hg as [Hi1 [R1 R2 R3 R4]]. specialize (IH V1 s1 Hi1 (Hl _ _ eq_refl)).
    destruct (steps h V1 E s1) as [V2 s2| | |] eqn:Hs2; [|done| |done].
    + destruct IH as (Hi2 & Hc2 & Ho2 & Hd2).
      assert (forall b, (b < ctr s)%nat -> heap s1 !! b = None -> heap s2 !! b = None) as Hdead.
      { intros b Hb Hn. apply Hd2; [lia|done]. }
      split_and!; [done|lia| |].
      * intros b Hb. destruct (owned_live V s b Hi Hb) as (c & Hc).
        assert (b < ctr s)%nat as Hlt by (apply (i_wf _ _ Hi); eauto).
        destruct (R1 b Hb) as [[Ho He]|[Ho He]].
        -- rewrite <- He. by apply Ho2.
        -- right. specialize (Hdead b Hlt He). split; [|done]. intros Ho'.
           destruct (owned_live V2 s2 b Hi2 Ho') as (c' & Hc'). congruence.
      * intros b Hb Hn. apply Hdead; [done|]. apply eq_None_not_Some. intros H. apply R3 in H as [H|H]; [|lia].
        rewrite Hn in H. by destruct H.
    + intros [Ha Hf]. inversion_clear Hf. by apply IH.
  - intros [Ha Hf]. inversion_clear Hf. by apply Hg.
Qed.

Lemma reach_inv E V s : reach E V s -> inv V s.
Proof.
  intros (h & s0 & Hw & Hl & Hr). pose proof (run_good E h ∅ s0 (inv_empty s0 Hw) Hl) as H.
  rewrite Hr in H. apply H.
Qed.

(** Never undefined; completes when there is memory. *)
Lemma history_safe E h s0 : wf s0 -> legal_run E h ∅ s0 ->
  (exists V s, steps h ∅ E s0 = Done V s) \/ (steps h ∅ E s0 = Abort /\ ~ (alloc_all E /\ Forall roomy h)).
Proof.
  intros Hw Hl. pose proof (run_good E h ∅ s0 (inv_empty s0 Hw) Hl) as H.
  destruct (steps h ∅ E s0); [left; eauto|done|by right|done].
Qed.
(** Every buffer of every live object is usable. *)
Lemma history_live E V s x b : reach E V s -> owner V x b -> exists c, heap s !! b = Some (Blk ARR c).
Proof. intros Hr Ho. eapply owned_live; [by eapply reach_inv|]. by exists x. Qed.
(** Each step releases exactly the buffers that lose their last owner. *)
Lemma history_step E op V s V' s' : reach E V s -> legal op V (heap s) -> step op V E s = Done V' s' ->
  releases op V s V' s'.
Proof.
  intros Hr Hl Hs. pose proof (step_good op V E s (reach_inv _ _ _ Hr) Hl) as H. unfold good in H.
  rewrite Hs in H. apply H.
Qed.
(** ... hence over any stretch of a history. *)
Lemma history_release E V s h V' s' b : reach E V s -> legal_run E h V s -> steps h V E s = Done V' s' ->
  owned V b -> (owned V' b /\ heap s' !! b = heap s !! b) \/ (~ owned V' b /\ heap s' !! b = None).
Proof.
  intros Hr Hl Hs Hb. pose proof (run_good E h V s (reach_inv _ _ _ Hr) Hl) as H. rewrite Hs in H.
  destruct H as (_ & _ & H & _). by apply H.
Qed.
Lemma history_end E V s h s' b : reach E V s -> legal_run E h V s -> steps h V E s = Done ∅ s' ->
  owned V b -> heap s' !! b = None.
Proof.
  intros Hr Hl Hs Hb. destruct (history_release E V s h ∅ s' b Hr Hl Hs Hb) as [[(x & o & Hx & _) _]|[_ H]]; [|done].
  by rewrite lookup_empty in Hx.
Qed.

(** ** Counter cells *)
Record cinv (V : objs) (s : st) : Prop := Cinv {
  c_inv : inv V s;
  c_cls : forall x o, V !! x = Some o -> o_class o <> Result;
  c_ref : forall b c, heap s !! b = Some (Blk CNT c) -> (1 <= refs V b)%nat
}.
Lemma c_ref_after V s t c b c' : t <> CNT -> (forall b c, heap s !! b = Some (Blk CNT c) -> (1 <= refs V b)%nat) ->
  heap (after_alloc t c s) !! b = Some (Blk CNT c') -> (1 <= refs V b)%nat.
Proof.
  intros Ht H Hb. cbn [after_alloc heap] in Hb. apply lookup_insert_Some in Hb as [[_ Hb]|[_ Hb]]; [congruence|eauto].
Qed.
Lemma c_ref_new V s x o c : V !! x = None -> o_count o = HPtr (ctr s) ->
  (forall b c, heap s !! b = Some (Blk CNT c) -> (1 <= refs V b)%nat) ->
  forall b c', heap (after_alloc CNT c s) !! b = Some (Blk CNT c') -> (1 <= refs (<[x := o]> V) b)%nat.
Proof.
  intros Hx Ho H b c' Hb. cbn [after_alloc heap] in Hb. rewrite refs_insert by done.
  apply lookup_insert_Some in Hb as [[<- Hb]|[_ Hb]].
  - rewrite ref1_same by done. lia.
  - apply H in Hb. lia.
Qed.
Lemma cls_insert (V : objs) x (o : obj) : (forall x o, V !! x = Some o -> o_class o <> Result) -> o_class o <> Result ->
  forall y o', <[x := o]> V !! y = Some o' -> o_class o' <> Result.
Proof. intros H Ho y o' Hy. apply lookup_insert_Some in Hy as [[_ <-]|[_ Hy]]; eauto. Qed.

Lemma step_cinv op V E s V' s' : cinv V s -> legal op V (heap s) -> no_assign op ->
  step op V E s = Done V' s' -> cinv V' s'.
Proof.
  intros [Hi Hk Hr] Hl Hna Hs. pose proof (step_good op V E s Hi Hl) as Hg. unfold good in Hg. rewrite Hs in Hg.
  destruct Hg as [Hi' Hrel]. pose proof (i_wf _ _ Hi) as Hw.
  split; [done| |].
  - destruct op; cbn [step] in Hs; unfold bind, the in Hs; cbn in Hna.
    + destruct (new_arr_run bytes c E s) as [Hr1|[_ Hr1]]; rewrite Hr1 in Hs; [|done]. by injection Hs as <- <-.
    + destruct (free_tag ARR p E s) as [[] s1| | |]; try done. by injection Hs as <- <-.
    + unfold ctor_default, bind in Hs. destruct (new_count E s) as [c s1| | |]; try done. injection Hs as <- <-.
      apply cls_insert; [done|]. cbn. by destruct k.
    + destruct Hl as (_ & Hk' & _). unfold ctor_ptrs, bind in Hs. destruct (new_count E s) as [c s1| | |]; try done.
      injection Hs as <- <-. by apply cls_insert.
    + unfold ctor_vec1, bind in Hs. destruct (new_dims ndim v E s) as [c s1| | |]; try done.
      destruct (new_count E s1) as [c1 s2| | |]; try done. injection Hs as <- <-. by apply cls_insert.
    + unfold ctor_vec2, bind in Hs. destruct (new_dims ndim1 v1 E s) as [c s1| | |]; try done.
      destruct (new_dims ndim2 v2 E s1) as [c1 s2| | |]; try done.
      destruct (new_count E s2) as [c2 s3| | |]; try done. injection Hs as <- <-. by apply cls_insert.
    + destruct (V !! y) as [o|] eqn:Hy; [|done]. cbn [opt ret] in Hs. unfold ctor_copy, bind in Hs.
      destruct (add_count (o_count o) 1 E s) as [[] s1| | |]; try done. injection Hs as <- <-.
      apply cls_insert; [done|eauto].
    + destruct (V !! y) as [o|] eqn:Hy; [|done]. cbn [opt ret ctor_move] in Hs. injection Hs as <- <-.
      apply cls_insert; [|eauto]. apply cls_insert; [done|]. cbn. eauto.
    + done.
    + destruct (V !! x) as [o|] eqn:Hy; [|done]. cbn [opt ret] in Hs. injection Hs as <- <-.
      apply cls_insert; [done|]. cbn. eauto.
    + done.
    + destruct (V !! x) as [o|] eqn:Hy; [|done]. cbn [opt ret] in Hs.
      destruct (o_bufs o !! i) as [p|]; [|done]. cbn [opt ret] in Hs. destruct (touch p E s); try done.
      by injection Hs as <- <-.
    + destruct (V !! x) as [o|] eqn:Hy; [|done]. cbn [opt ret] in Hs.
      destruct (dtor o E s) as [[] s1| | |]; try done. injection Hs as <- <-.
      intros y o' H. apply lookup_delete_Some in H as [_ H]. eauto.
  - destruct op; cbn [step] in Hs; unfold bind, the in Hs; cbn in Hna.
    + destruct (new_arr_run bytes c E s) as [Hr1|[_ Hr1]]; rewrite Hr1 in Hs; [|done]. injection Hs as <- <-.
      intros b c'. apply c_ref_after; [apply arr_cnt|done].
    + destruct p as [|b|].
      * cbn in Hs. by injection Hs as <- <-.
      * cbn [free_tag] in Hs. destruct (heap s !! b) as [[t c]|] eqn:Hb; [|done]. cbn [b_tag] in Hs.
        case_bool_decide; [|done]. injection Hs as <- <-. intros b' c'. cbn [heap]. intros H'.
        apply lookup_delete_Some in H' as [_ H']. eauto.
      * done.
    + unfold ctor_default, bind in Hs. destruct (new_count_run E s) as [Hc|[_ Hc]]; rewrite Hc in Hs; [|done].
      injection Hs as <- <-. by apply c_ref_new.
    + destruct Hl as (Hx & _). unfold ctor_ptrs, bind in Hs.
      destruct (new_count_run E s) as [Hc|[_ Hc]]; rewrite Hc in Hs; [|done].
      injection Hs as <- <-. by apply c_ref_new.
    + destruct Hl as (Hx & Hn & _). unfold ctor_vec1, bind in Hs.
      destruct (new_dims_run ndim v E s Hn) as [(c & Hc)|[_ Hc]]; rewrite Hc in Hs; [|done].
      destruct (new_count_run E (after_alloc ARR c s)) as [Hc1|[_ Hc1]]; rewrite Hc1 in Hs; [|done].
      injection Hs as <- <-. apply c_ref_new; [done|done|]. intros b c'. apply c_ref_after; [apply arr_cnt|done].
    + destruct Hl as (Hx & Hn1 & Hn2 & _). unfold ctor_vec2, bind in Hs.
      destruct (new_dims_run ndim1 v1 E s Hn1) as [(c & Hc)|[_ Hc]]; rewrite Hc in Hs; [|done].
      destruct (new_dims_run ndim2 v2 E (after_alloc ARR c s) Hn2) as [(c2 & Hc2)|[_ Hc2]]; rewrite Hc2 in Hs; [|done].
      destruct (new_count_run E (after_alloc ARR c2 (after_alloc ARR c s))) as [Hc1|[_ Hc1]]; rewrite Hc1 in Hs; [|done].
      injection Hs as <- <-. apply c_ref_new; [done|done|]. intros b c'. apply c_ref_after; [apply arr_cnt|].
      intros b' c''. apply c_ref_after; [apply arr_cnt|done].
    + destruct Hl as (Hx & (o & Hy & Hn) & Hlt). rewrite Hy in Hs. cbn [opt ret] in Hs. unfold ctor_copy, bind in Hs.
      destruct (i_cnt _ _ Hi y o Hy Hn) as (c & E1 & E2). pose proof (refs_le V c) as Hle.
      rewrite E1 in Hs. rewrite (add_count_run c _ 1 E s E2) in Hs by (unfold INT_MIN, INT_MAX in *; lia).
      injection Hs as <- <-. intros b c'. cbn [heap upd]. intros H. rewrite refs_insert by done.
      apply lookup_insert_Some in H as [[<- _]|[_ H]].
      * rewrite ref1_same by done. lia.
      * apply Hr in H. lia.
    + destruct Hl as (Hx & (o & Hy)). rewrite Hy in Hs. cbn [opt ret ctor_move] in Hs. injection Hs as <- <-.
      intros b c' H. apply Hr in H. assert (x <> y) as Hxy by congruence.
      rewrite insert_commute by done. rewrite <- insert_delete_insert, delete_insert_ne by congruence.
      rewrite refs_insert by (rewrite lookup_insert_ne by done; apply lookup_delete).
      rewrite refs_insert by (by rewrite lookup_delete_ne by done).
      rewrite (refs_delete V y o) in H by done. lia.
    + done.
    + destruct Hl as (_ & _ & _ & (o & Hx & _)). rewrite Hx in Hs. cbn [opt ret] in Hs. injection Hs as <- <-.
      intros b c' H. apply Hr in H. rewrite <- insert_delete_insert.
      rewrite refs_insert by apply lookup_delete. rewrite (refs_delete V x o) in H by done. done.
    + done.
    + destruct Hl as (_ & (o & b & Hx & Hb)). rewrite Hx in Hs. cbn [opt ret] in Hs. rewrite Hb in Hs. cbn [opt ret] in Hs.
      unfold touch, deref, bind in Hs. destruct (heap s !! b); [|done]. by injection Hs as <- <-.
    + destruct Hl as (o & Hx). rewrite Hx in Hs. cbn [opt ret] in Hs.
      destruct (dtor_run V s x o E Hi Hx) as (s1 & Hd & _ & _ & Hcnt). rewrite Hd in Hs. injection Hs as <- <-.
      intros b c' H. destruct (Hcnt b CNT c' H eq_refl) as [(c'' & H') Hlast]. apply Hr in H'.
      destruct (decide (o_count o = HPtr b)) as [He|He].
      * apply Hlast; [done|]. by eapply Hk.
      * rewrite (refs_delete V x o) in H' by done. rewrite ref1_other in H' by done. done.
Qed.
Lemma run_cinv E h V s V' s' : cinv V s -> legal_run E h V s -> Forall no_assign h ->
  steps h V E s = Done V' s' -> cinv V' s'.
Proof.
  revert V s. induction h as [|op h IH]; intros V s Hi Hl Hf Hs.
  { injection Hs as <- <-. done. }
  inversion_clear Hf as [|? ? Hop Hf']. destruct Hl as [Hl1 Hl]. cbn [steps] in Hs. unfold bind in Hs.
  destruct (step op V E s) as [V1 s1| | |] eqn:H1; try done.
  eapply IH; [|by apply Hl|done|done]. by eapply step_cinv.
Qed.
Lemma history_counters E h s0 V s : wf s0 -> no_count (heap s0) -> legal_run E h ∅ s0 -> Forall no_assign h ->
  steps h ∅ E s0 = Done V s ->
  forall c v, heap s !! c = Some (Blk CNT v) -> exists x o, V !! x = Some o /\ o_count o = HPtr c.
Proof.
  intros Hw Hn Hl Hf Hs c v Hc.
  assert (cinv ∅ s0) as Hi.
  { split; [by apply inv_empty| |].
    - intros x o Hx. by rewrite lookup_empty in Hx.
    - intros b c' Hb. by apply Hn in Hb. }
  pose proof (run_cinv E h ∅ s0 V s Hi Hl Hf Hs) as [_ _ Hr]. apply refs_nz. by eapply Hr.
Qed.
