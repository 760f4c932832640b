(** * ProofOwn: memory as a list of owned objects over what was there before *)
From stdpp Require Import gmap list.
From Coq Require Import ZArith Lia.
From Coq Require Import ZifyBool ZifyNat.
From Verif Require Import Base Mem Spec ModelCore ModelNN Logic ProofCore ProofCore2 ProofCore3 ProofBasic
  ProofSqueeze.
Open Scope Z_scope.

(** A tensor, or a raw block. *)
Inductive item := IT (p : nat) (T : atensor) | IB (b : nat).
Definition item_owns (tag : nat) (x : item) (n : gmap nat block) : Prop :=
  match x with
  | IT p T => valid T /\ owns tag p T n
  | IB b => exists k, n = {[ b := k ]} /\ b_tag k = tag
  end.

Inductive pool (tag lo : nat) (base : gmap nat block) : list item -> gmap nat block -> Prop :=
| pool_nil : pool tag lo base [] base
| pool_cons x L n h : item_owns tag x n -> n ##ₘ h ->
    (forall b, is_Some (n !! b) -> (lo <= b)%nat) ->
    pool tag lo base L h -> pool tag lo base (x :: L) (n ∪ h).

Section pool.
Context {tag lo : nat} {base : gmap nat block}.
Implicit Types (h : gmap nat block) (L : list item).

Lemma pool_perm L L' h : L ≡ₚ L' -> pool tag lo base L h -> pool tag lo base L' h.
Proof using Type.
  intros HP. revert h. induction HP as [|x L L' HP IH|x y L|L1 L2 L3 H1 IH1 H2 IH2]; intros h H.
  - done.
  - inversion H as [|? ? n h' Hx Hd Hb Hp]; subst. constructor; auto.
  - inversion H as [|? ? n h' Hx Hd Hb Hp]; subst. inversion Hp as [|? ? n2 h2 Hx2 Hd2 Hb2 Hp2]; subst.
    apply map_disjoint_union_r in Hd as [Hd1 Hd3].
    replace (n ∪ (n2 ∪ h2)) with (n2 ∪ (n ∪ h2)).
    2:{ rewrite !map_union_assoc. f_equal. by apply map_union_comm. }
    constructor; [done|by apply map_disjoint_union_r|done|]. by constructor.
  - auto.
Qed.

Lemma pool_cons_inv x L h : pool tag lo base (x :: L) h ->
  exists n h', h = n ∪ h' /\ item_owns tag x n /\ n ##ₘ h' /\
    (forall b, is_Some (n !! b) -> (lo <= b)%nat) /\ pool tag lo base L h'.
Proof using Type. intros H. inversion H; subst. eauto 10. Qed.

Lemma pool_sub L h : pool tag lo base L h -> base ⊆ h.
Proof using Type.
  induction 1 as [|x L n h Hx Hd Hb Hp IH]; [done|].
  etrans; [exact IH|]. by apply map_union_subseteq_r.
Qed.
Lemma pool_in x L h : pool tag lo base L h -> x ∈ L -> exists n, item_owns tag x n /\ n ⊆ h.
Proof using Type.
  induction 1 as [|y L n h Hx Hd Hb Hp IH]; [by intros ?%elem_of_nil|].
  intros [->|Hin]%elem_of_cons.
  - exists n. split; [done|]. apply map_union_subseteq_l.
  - destruct (IH Hin) as (m & Hm & Hs). exists m. split; [done|].
    etrans; [exact Hs|]. by apply map_union_subseteq_r.
Qed.
Lemma pool_holds p T L h : pool tag lo base L h -> IT p T ∈ L -> holds h p T.
Proof using Type.
  intros H Hin. destruct (pool_in _ _ _ H Hin) as (n & [HT Hn] & Hs). by eapply owns_holds.
Qed.
Lemma pool_block b L h : pool tag lo base L h -> IB b ∈ L -> exists k, h !! b = Some k /\ b_tag k = tag.
Proof using Type.
  intros H Hin. destruct (pool_in _ _ _ H Hin) as (n & (k & -> & Hk) & Hs). exists k. split; [|done].
  eapply lookup_weaken; [|exact Hs]. apply lookup_singleton.
Qed.
End pool.

(** Since [s0], exactly the objects [L] have been added. *)
Definition own (E : env) (s0 : st) (L : list item) (s : st) : Prop :=
  wf s /\ (ctr s0 <= ctr s)%nat /\ rpos s = rpos s0 /\
  pool (e_alloc E) (ctr s0) (heap s0) L (heap s).

Section own.
Context {E : env} {s0 : st}.

Lemma own_nil : wf s0 -> own E s0 [] s0.
Proof using Type. intros H. split_and!; [done|lia|done|constructor]. Qed.
Lemma own_wf L s : own E s0 L s -> wf s. Proof using Type. by intros []. Qed.
Lemma own_perm L L' s : own E s0 L s -> L ≡ₚ L' -> own E s0 L' s.
Proof using Type. intros (H1 & H2 & H3 & H4) HP. split_and!; try done. by eapply pool_perm. Qed.
Lemma own_base L s p T : own E s0 L s -> holds (heap s0) p T -> holds (heap s) p T.
Proof using Type. intros (_ & _ & _ & H). apply holds_mono. by eapply pool_sub. Qed.
Lemma own_holds L s p T : own E s0 L s -> IT p T ∈ L -> holds (heap s) p T.
Proof using Type. intros (_ & _ & _ & H). by eapply pool_holds. Qed.
Lemma own_touch L s b : own E s0 L s -> IB b ∈ L -> touch (HPtr b) E s = Done tt s.
Proof using Type.
  intros (_ & _ & _ & H) Hb. destruct (pool_block _ _ _ H Hb) as (k & Hk & _).
  apply touch_ok. eauto.
Qed.

Lemma own_created L s s' p T : own E s0 L s -> created E s s' p T -> own E s0 (IT p T :: L) s'.
Proof using Type.
  intros (Hwf & Hc & Hr & Hp) HC. split_and!.
  - by eapply created_wf.
  - destruct HC as (_ & n & _ & _ & _ & _ & Hc' & _). lia.
  - destruct HC as (_ & n & _ & _ & _ & _ & _ & Hr'). lia.
  - destruct HC as (HT & n & Ho & Hh & Hd & Hb & _ & _). rewrite Hh. constructor; [done|done| |done].
    intros b Hb'. apply Hb in Hb'. lia.
Qed.
Lemma own_destroy L s p T : hooks_ok E -> own E s0 (IT p T :: L) s ->
  exists s', aitisa_destroy (HPtr p) E s = Done (SUCCESS, HNull) s' /\ own E s0 L s' /\ heap s' ⊆ heap s.
Proof using Type.
  intros HE (Hwf & Hc & Hr & Hp). apply pool_cons_inv in Hp as (n & h & E2 & [HT Ho] & Hd & Hb & Hp').
  exists (St h (ctr s) (rpos s)). split_and!.
  - by eapply destroy_owned.
  - split_and!; [|done|done|done]. intros b Hb'. apply Hwf. rewrite E2. cbn in Hb'.
    apply lookup_union_is_Some. auto.
  - cbn. rewrite E2. by apply map_union_subseteq_r.
Qed.
Lemma own_final s p T : own E s0 [IT p T] s -> created E s0 s p T.
Proof using Type.
  intros (Hwf & Hc & Hr & Hp). apply pool_cons_inv in Hp as (n & h & E2 & [HT Ho] & Hd & Hb & Hp').
  inversion Hp'; subst. split; [done|]. exists n.
  split_and!; [done|done|done| |done|lia].
  intros b Hb'. split; [by apply Hb|]. apply Hwf. rewrite E2. apply lookup_union_is_Some. auto.
Qed.
Lemma own_alloc L s n : own E s0 L s -> own E s0 (IB (ctr s) :: L) (st_alloc s (Blk (e_alloc E) (CRaw n))).
Proof using Type.
  intros (Hwf & Hc & Hr & Hp). split_and!; [by apply wf_alloc|cbn; lia|done|].
  cbn. rewrite insert_union_singleton_l. constructor; [by exists (Blk (e_alloc E) (CRaw n))| | |done].
  - apply map_disjoint_singleton_l_2. by apply wf_fresh.
  - intros b Hb. assert (b = ctr s) as ->; [|lia]. destruct (decide (b = ctr s)) as [|Hne]; [done|].
    rewrite lookup_singleton_ne in Hb by done. by destruct Hb.
Qed.
Lemma own_free L s b : hooks_ok E -> own E s0 (IB b :: L) s ->
  exists s', raw_dealloc (HPtr b) E s = Done tt s' /\ own E s0 L s'.
Proof using Type.
  intros HE (Hwf & Hc & Hr & Hp). apply pool_cons_inv in Hp as (n & h & E2 & (k & -> & Hk) & Hd & Hb & Hp').
  exists (st_free s b). split.
  - eapply raw_dealloc_ok; [rewrite E2; apply lookup_union_Some_l, lookup_singleton|].
    rewrite Hk. symmetry. exact HE.
  - split_and!; [by apply wf_free|done|done|]. cbn. rewrite E2.
    rewrite <-insert_union_singleton_l, delete_insert; [done|].
    by apply map_disjoint_singleton_l in Hd.
Qed.

(** Opening the first object for writing, and closing it again. *)
Lemma own_open L s p T : own E s0 (IT p T :: L) s ->
  exists pd pm ps px rest,
    tnew (e_alloc E) (ctr s0) rest s p pd pm ps px (dtype_of (a_type T)) (a_dev T) (a_dims T)
      (cells (a_type T) (a_vals T)) /\
    pool (e_alloc E) (ctr s0) (heap s0) L rest.
Proof using Type.
  intros (Hwf & Hc & Hr & Hp). apply pool_cons_inv in Hp as (n & h & E2 & [HT Ho] & Hd & Hb & Hp').
  destruct Ho as (pd & pm & ps & px & Hnd & ->).
  exists pd, pm, ps, px, h. split; [|done]. split_and!; [done|done|done| |].
  - intros b Hb'. split; [by apply Hb|]. apply Hwf. rewrite E2. apply lookup_union_is_Some. auto.
  - intros b Hb'. apply Hwf. rewrite E2. apply lookup_union_is_Some. auto.
Qed.
Lemma own_close L s p T pd pm ps px rest :
  tnew (e_alloc E) (ctr s0) rest s p pd pm ps px (dtype_of (a_type T)) (a_dev T) (a_dims T)
    (cells (a_type T) (a_vals T)) ->
  pool (e_alloc E) (ctr s0) (heap s0) L rest -> valid T -> rpos s = rpos s0 ->
  own E s0 (IT p T :: L) s.
Proof using Type.
  intros HT Hp Hv Hr. pose proof (tnew_wf _ _ HT) as Hwf. pose proof HT as (Hnd & Hh & Hd & Hlo & Hb).
  split_and!; [done| |done|].
  - assert (ctr s0 <= p < ctr s)%nat; [|lia]. apply Hlo. apply tensor_map_dom. auto.
  - rewrite Hh. constructor; [|done| |done].
    + split; [done|]. exists pd, pm, ps, px. done.
    + intros b Hb'. apply Hlo in Hb'. lia.
Qed.
End own.

(** ** Steps of programs *)
Section steps.
Context {E : env} {s0 : st} {B : Type} {Q : B -> st -> Prop}.

Lemma own_make {k : status * hval -> M B} m L s T : own E s0 L s -> makes m E s T ->
  (forall p s', own E s0 (IT p T :: L) s' -> wp (k (SUCCESS, HPtr p)) E s' Q) -> wp (bind m k) E s Q.
Proof using Type.
  intros HO (s' & p & Hm & Hc) Hk. eapply wp_step; [exact Hm|]. apply Hk. by eapply own_created.
Qed.
Lemma own_drop {k : status * hval -> M B} p T L1 L2 s : hooks_ok E -> own E s0 (L1 ++ IT p T :: L2) s ->
  (forall s', own E s0 (L1 ++ L2) s' -> wp (k (SUCCESS, HNull)) E s' Q) ->
  wp (bind (aitisa_destroy (HPtr p)) k) E s Q.
Proof using Type.
  intros HE HO Hk. destruct (own_destroy (s0 := s0) (L1 ++ L2) s p T HE) as (s' & Hd & HO' & _).
  { eapply own_perm; [exact HO|]. symmetry. apply Permutation_middle. }
  eapply wp_step; [exact Hd|]. by apply Hk.
Qed.
Lemma own_scr {k : hval -> M B} n L s : alloc_all E -> 0 <= n <= PTRDIFF_MAX -> own E s0 L s ->
  (forall b s', own E s0 (IB b :: L) s' -> wp (k (HPtr b)) E s' Q) -> wp (bind (scratch n) k) E s Q.
Proof using Type.
  intros HA Hn HO Hk. apply wp_scratch; [done| |done]. apply Hk. by apply own_alloc.
Qed.
Lemma own_dealloc {k : unit -> M B} b L1 L2 s : hooks_ok E -> own E s0 (L1 ++ IB b :: L2) s ->
  (forall s', own E s0 (L1 ++ L2) s' -> wp (k tt) E s' Q) -> wp (bind (raw_dealloc (HPtr b)) k) E s Q.
Proof using Type.
  intros HE HO Hk. destruct (own_free (s0 := s0) (L1 ++ L2) s b HE) as (s' & Hd & HO').
  { eapply own_perm; [exact HO|]. symmetry. apply Permutation_middle. }
  eapply wp_step; [exact Hd|]. by apply Hk.
Qed.
End steps.

Lemma own_try {E s0} {A : Type} {Q : ctl A status -> st -> Prop} m (k : hval -> M (ctl A status)) L s T :
  own E s0 L s -> makes m E s T ->
  (forall p s', own E s0 (IT p T :: L) s' -> wp (k (HPtr p)) E s' Q) -> wp (try_ m k) E s Q.
Proof.
  intros HO Hm Hk. unfold try_. eapply own_make; [exact HO|exact Hm|].
  intros p s' HO'. cbv beta match. rewrite bool_decide_eq_true_2 by done. by apply Hk.
Qed.
Lemma own_try_drop {E s0} {A : Type} {Q : ctl A status -> st -> Prop} p T (k : hval -> M (ctl A status)) L1 L2 s :
  hooks_ok E -> own E s0 (L1 ++ IT p T :: L2) s ->
  (forall s', own E s0 (L1 ++ L2) s' -> wp (k HNull) E s' Q) -> wp (try_ (aitisa_destroy (HPtr p)) k) E s Q.
Proof.
  intros HE HO Hk. unfold try_. eapply own_drop; [exact HE|exact HO|].
  intros s' HO'. cbv beta match. rewrite bool_decide_eq_true_2 by done. by apply Hk.
Qed.
