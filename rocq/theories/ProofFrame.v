(** * ProofFrame: bookkeeping of scratch memory beside a fresh tensor *)
From stdpp Require Import gmap list.
From Coq Require Import ZArith Lia.
From Coq Require Import ZifyBool ZifyNat.
From Verif Require Import Base Mem Spec ModelCore ModelBasic Logic ProofCore ProofCore2 ProofCore3 ProofKernel
  ProofBasic ProofSqueeze ProofSlice.
Open Scope Z_scope.

(** [h] is [base] plus the scratch blocks [L], all from allocator [tag]. *)
Definition frame (tag : nat) (L : list nat) (base h : gmap nat block) : Prop :=
  exists m, h = m ∪ base /\ m ##ₘ base /\ NoDup L /\
    (forall b, is_Some (m !! b) <-> b ∈ L) /\ map_Forall (fun _ x => b_tag x = tag) m.

Section frame.
Context {tag : nat} {base : gmap nat block}.
Implicit Types (L : list nat) (h : gmap nat block).

Lemma frame_nil : frame tag [] base base.
Proof.
  exists ∅. split_and!; [by rewrite map_empty_union|apply map_disjoint_empty_l|constructor| |apply map_Forall_empty].
  intros b. rewrite lookup_empty, elem_of_nil. split; [by intros []|done].
Qed.
Lemma frame_nil_inv h : frame tag [] base h -> h = base.
Proof.
  intros (m & -> & _ & _ & Hd & _).
  replace m with (∅ : gmap nat block); [by rewrite map_empty_union|].
  symmetry. apply map_empty. intros b. apply eq_None_not_Some. rewrite Hd. apply not_elem_of_nil.
Qed.
Lemma frame_sub L h : frame tag L base h -> base ⊆ h.
Proof. intros (m & -> & Hd & _). by apply map_union_subseteq_r. Qed.
Lemma frame_lookup L h b : frame tag L base h -> b ∈ L ->
  exists x, h !! b = Some x /\ b_tag x = tag.
Proof.
  intros (m & -> & Hdj & _ & Hd & Ht) Hb. apply Hd in Hb as [x Hx]. exists x. split.
  - by apply lookup_union_Some_l.
  - by apply (Ht b x).
Qed.
Lemma frame_alloc L h b x : frame tag L base h -> h !! b = None -> b_tag x = tag ->
  frame tag (b :: L) base (<[b := x]> h).
Proof.
  intros (m & -> & Hdj & Hnd & Hd & Ht) Hb Hx.
  apply lookup_union_None in Hb as [Hb1 Hb2].
  exists (<[b := x]> m). split_and!.
  - by rewrite insert_union_l.
  - by apply map_disjoint_insert_l.
  - constructor; [|done]. intros Hin. apply Hd in Hin as [y Hy]. congruence.
  - intros c. rewrite lookup_insert_is_Some', elem_of_cons, Hd. naive_solver.
  - by apply map_Forall_insert_2.
Qed.
Lemma frame_free L1 b L2 h : frame tag (L1 ++ b :: L2) base h ->
  frame tag (L1 ++ L2) base (delete b h).
Proof.
  intros (m & -> & Hdj & Hnd & Hd & Ht).
  assert (is_Some (m !! b)) as [x Hx].
  { apply Hd. apply elem_of_app. right. left. }
  assert (base !! b = None) as Hbb by (by eapply map_disjoint_Some_l).
  assert (b ∉ L1 ++ L2 /\ NoDup (L1 ++ L2)) as [Hn1 Hn2].
  { apply NoDup_cons. revert Hnd. by rewrite Permutation_middle. }
  exists (delete b m). split_and!.
  - rewrite delete_union. f_equal. by apply delete_notin.
  - by apply map_disjoint_delete_l.
  - done.
  - intros c. rewrite lookup_delete_is_Some, Hd, !elem_of_app, elem_of_cons.
    rewrite elem_of_app in Hn1. split; [naive_solver|].
    intros Hc. split; [intros ->; tauto|tauto].
  - by apply map_Forall_delete.
Qed.
End frame.

Lemma tnew_fresh {tag lo base s p pd pm ps px dt dev dims bytes} :
  tnew tag lo base s p pd pm ps px dt dev dims bytes -> base !! ctr s = None.
Proof.
  intros (_ & _ & _ & _ & H). apply eq_None_not_Some. intros Hb. apply H in Hb. lia.
Qed.
Lemma tnew_ctr_mono tag lo base s s' p pd pm ps px dt dev dims bytes :
  tnew tag lo base s p pd pm ps px dt dev dims bytes -> heap s' = heap s -> (ctr s <= ctr s')%nat ->
  tnew tag lo base s' p pd pm ps px dt dev dims bytes.
Proof.
  intros (H1 & H2 & H3 & H4 & H5) Hh Hc. split_and!; [done|by rewrite Hh|done| |].
  - intros b Hb. specialize (H4 b Hb). lia.
  - intros b Hb. specialize (H5 b Hb). lia.
Qed.

Lemma touch_ok b x E s : heap s !! b = Some x -> touch (HPtr b) E s = Done tt s.
Proof. intros H. unfold touch, deref. unfold bind. rewrite H. done. Qed.

(** ** Scratch memory beside a fresh tensor *)
Section wp_frame.
Context {E : env} {tg tag lo : nat} {base h : gmap nat block} {s : st} {p pd pm ps px : nat}
  {dt : dtype} {dev : device} {dims : list Z} {bytes : list mv}
  {B : Type} {Q : B -> st -> Prop}.
Let T h s := tnew tg lo h s p pd pm ps px dt dev dims bytes.

Lemma wp_scr L n (k : hval -> M B) :
  alloc_all E -> 0 <= n <= PTRDIFF_MAX -> T h s -> frame (e_alloc E) L base h ->
  (forall b h' s', T h' s' -> frame (e_alloc E) (b :: L) base h' -> rpos s' = rpos s ->
     h ⊆ h' -> wp (k (HPtr b)) E s' Q) ->
  wp (bind (scratch n) k) E s Q.
Proof using Type.
  intros HA Hn HT HF Hk. apply wp_scratch; [done| |done].
  apply (Hk (ctr s) (<[ctr s := Blk (e_alloc E) (CRaw n)]> h)).
  - by apply tnew_alloc.
  - apply frame_alloc; [done| |done]. by eapply tnew_fresh.
  - done.
  - apply insert_subseteq. by eapply tnew_fresh.
Qed.
Lemma wp_scr_free L1 b L2 (k : unit -> M B) :
  hooks_ok E -> T h s -> frame (e_alloc E) (L1 ++ b :: L2) base h ->
  (forall h' s', T h' s' -> frame (e_alloc E) (L1 ++ L2) base h' -> rpos s' = rpos s ->
     wp (k tt) E s' Q) ->
  wp (bind (raw_dealloc (HPtr b)) k) E s Q.
Proof using Type.
  intros HE HT HF Hk.
  destruct (frame_lookup _ _ b HF) as (x & Hx & Hxt); [apply elem_of_app; right; left|].
  eapply wp_free; [done|eapply tnew_lookup; [exact HT|exact Hx]|done|].
  apply (Hk (delete b h)); [apply tnew_free; [done|eauto]|by apply frame_free|done].
Qed.
Lemma wp_libc L n (k : hval -> M B) :
  alloc_all E -> 0 <= n <= PTRDIFF_MAX -> T h s -> frame 0 L base h ->
  (forall b h' s', T h' s' -> frame 0 (b :: L) base h' -> rpos s' = rpos s ->
     h ⊆ h' -> wp (k (HPtr b)) E s' Q) ->
  wp (bind (libc_malloc n CRaw) k) E s Q.
Proof using Type.
  intros HA Hn HT HF Hk. eapply wp_step.
  { unfold libc_malloc, alloc_tag. rewrite to_size_id by done. rewrite HA.
    replace (n <=? PTRDIFF_MAX) with true by lia. reflexivity. }
  apply (Hk (ctr s) (<[ctr s := Blk 0 (CRaw n)]> h)).
  - apply tnew_alloc with (x := Blk 0 (CRaw n)) in HT. exact HT.
  - apply frame_alloc; [done| |done]. by eapply tnew_fresh.
  - done.
  - apply insert_subseteq. by eapply tnew_fresh.
Qed.
Lemma wp_libc_free L1 b L2 (k : unit -> M B) :
  T h s -> frame 0 (L1 ++ b :: L2) base h ->
  (forall h' s', T h' s' -> frame 0 (L1 ++ L2) base h' -> rpos s' = rpos s ->
     wp (k tt) E s' Q) ->
  wp (bind (libc_free (HPtr b)) k) E s Q.
Proof using Type.
  intros HT HF Hk.
  destruct (frame_lookup _ _ b HF) as (x & Hx & Hxt); [apply elem_of_app; right; left|].
  eapply wp_step.
  { eapply libc_free_ok; [eapply tnew_lookup; [exact HT|exact Hx]|done]. }
  apply (Hk (delete b h)); [apply tnew_free; [done|eauto]|by apply frame_free|done].
Qed.
Lemma touch_frame L b : T h s -> frame tag L base h -> b ∈ L -> touch (HPtr b) E s = Done tt s.
Proof using Type.
  intros HT HF Hb. destruct (frame_lookup _ _ b HF Hb) as (x & Hx & _).
  eapply touch_ok. eapply tnew_lookup; [exact HT|exact Hx].
Qed.
End wp_frame.

(** ** Scratch memory before there is a tensor *)
Section wp_pre.
Context {E : env} {base : gmap nat block} {s : st} {B : Type} {Q : B -> st -> Prop}.
Lemma wp_scr0 L n (k : hval -> M B) :
  alloc_all E -> 0 <= n <= PTRDIFF_MAX -> wf s -> frame (e_alloc E) L base (heap s) ->
  (forall b s', wf s' -> frame (e_alloc E) (b :: L) base (heap s') -> rpos s' = rpos s ->
     (ctr s <= ctr s')%nat -> heap s ⊆ heap s' -> wp (k (HPtr b)) E s' Q) ->
  wp (bind (scratch n) k) E s Q.
Proof using Type.
  intros HA Hn Hwf HF Hk. apply wp_scratch; [done| |done]. apply Hk.
  - by apply wf_alloc.
  - cbn. apply frame_alloc; [done| |done]. by apply wf_fresh.
  - done.
  - cbn. lia.
  - by apply st_alloc_sub.
Qed.
Lemma wp_scr0_free L1 b L2 (k : unit -> M B) :
  hooks_ok E -> wf s -> frame (e_alloc E) (L1 ++ b :: L2) base (heap s) ->
  (forall s', wf s' -> frame (e_alloc E) (L1 ++ L2) base (heap s') -> rpos s' = rpos s ->
     ctr s' = ctr s -> wp (k tt) E s' Q) ->
  wp (bind (raw_dealloc (HPtr b)) k) E s Q.
Proof using Type.
  intros HE Hwf HF Hk.
  destruct (frame_lookup _ _ b HF) as (x & Hx & Hxt); [apply elem_of_app; right; left|].
  eapply wp_free; [done|exact Hx|done|].
  apply Hk; [by apply wf_free|by apply frame_free|done|done].
Qed.
Lemma touch_frame0 L b : frame (e_alloc E) L base (heap s) -> b ∈ L -> touch (HPtr b) E s = Done tt s.
Proof using Type.
  intros HF Hb. destruct (frame_lookup _ _ b HF Hb) as (x & Hx & _). by eapply touch_ok.
Qed.
End wp_pre.
