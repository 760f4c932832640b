(** * ProofTrace: who owns which block, for calls with arbitrary arguments

    [tr E F L m Q]: whenever the memory consists of the blocks [F] and, apart
    from them, exactly the blocks of the items [L], and [m] returns [a], then
    [F] is untouched and the rest of the memory consists exactly of the blocks
    of some items [L'] with [Q a L'].  Nothing is assumed about the arguments of
    [m] or about the allocator. *)
From stdpp Require Import gmap list.
From Coq Require Import ZArith Lia Floats.SpecFloat.
From Verif Require Import Base Mem Spec ModelCore ModelBasic ModelMath ModelNN.
Open Scope Z_scope.

(** One block (or NULL) from allocator [g], the blocks of a tensor or of its storage, or
    forgotten blocks. *)
Inductive item :=
  | IM (g : nat) (p : hval)
  | IT (p : nat) (pd pm : hval) (ps px : nat)
  | IS (ps px : nat)
  | IJ (l : list nat).

Definition ids1 (p : hval) : list nat := match p with HPtr b => [b] | _ => [] end.
Definition foot (i : item) : list nat :=
  match i with
  | IM _ p => ids1 p
  | IT p pd pm ps px => p :: ps :: px :: ids1 pd ++ ids1 pm
  | IS ps px => [ps; px]
  | IJ l => l
  end.
Definition ids (L : list item) : list nat := L ≫= foot.

Definition okit (tag : nat) (h : gmap nat block) (i : item) : Prop :=
  match i with
  | IT p pd pm ps px =>
      pd <> HUndef /\ pm <> HUndef /\
      (exists sz off nd lt, h !! p = Some (Blk tag (CTensor (TI sz off nd pd lt pm (HPtr ps))))) /\
      (exists dt dev n, h !! ps = Some (Blk tag (CStorage (SI dt dev n (HPtr px))))) /\
      forall b, b ∈ px :: ids1 pd ++ ids1 pm -> exists c, h !! b = Some (Blk tag c)
  | IM g p => forall b, b ∈ ids1 p -> exists c, h !! b = Some (Blk g c)
  | IS ps px =>
      (exists dt dev n, h !! ps = Some (Blk tag (CStorage (SI dt dev n (HPtr px))))) /\
      exists c, h !! px = Some (Blk tag c)
  | IJ _ => True
  end.

(** Only the blocks of an item matter, and of a header only its pointers. *)
Lemma okit_same tag h h' i :
  (forall b, b ∈ foot i -> h' !! b = h !! b) -> okit tag h i -> okit tag h' i.
Proof.
  intros H K. destruct i as [g p|p pd pm ps px|ps px|l]; [| | |done].
  - intros b Hb. rewrite H by done. by apply K.
  - cbn in H. destruct K as (K1 & K2 & K3 & K4 & K5). unfold okit. split_and!; [done|done| | |].
    + rewrite H by apply elem_of_list_here. done.
    + rewrite H by apply elem_of_list_further, elem_of_list_here. done.
    + intros b Hb. rewrite H by by do 2 apply elem_of_list_further. by apply K5.
  - cbn in H. unfold okit. rewrite !H; [done|apply elem_of_list_further, elem_of_list_here|apply elem_of_list_here].
Qed.

Record Inv (E : env) (F : gmap nat block) (L : list item) (s : st) : Prop := {
  inv_wf : wf s;
  inv_nd : NoDup (ids L);
  inv_out : forall b, b ∉ ids L -> heap s !! b = F !! b;
  inv_in : forall b, b ∈ ids L -> F !! b = None /\ is_Some (heap s !! b);
  inv_ok : forall i, i ∈ L -> okit (e_alloc E) (heap s) i
}.

Definition tr {A} (E : env) (F : gmap nat block) (L : list item) (m : M A)
    (Q : A -> list item -> Prop) : Prop :=
  forall s, Inv E F L s ->
  match m E s with
  | Done a s' => exists L', Inv E F L' s' /\ Q a L'
  | UB u => hooks_ok E -> u <> UB_free
  | _ => True
  end.
Lemma tr_done {A} E F L (m : M A) Q : tr E F L m Q ->
  forall s a s', Inv E F L s -> m E s = Done a s' -> exists L', Inv E F L' s' /\ Q a L'.
Proof. intros H s a s' I e. specialize (H s I). by rewrite e in H. Qed.
Lemma tr_free {A} E F L (m : M A) Q : tr E F L m Q ->
  forall s, Inv E F L s -> hooks_ok E -> m E s <> UB UB_free.
Proof. intros H s I Hk e. specialize (H s I). rewrite e in H. by apply H. Qed.
Lemma tr_intro {A} E F L (m : M A) Q :
  (forall s a s', Inv E F L s -> m E s = Done a s' -> exists L', Inv E F L' s' /\ Q a L') ->
  (forall s u, Inv E F L s -> m E s = UB u -> hooks_ok E -> u <> UB_free) -> tr E F L m Q.
Proof.
  intros H1 H2 s I. specialize (H1 s). specialize (H2 s). destruct (m E s); eauto.
Qed.

(** ** Footprints *)
Lemma ids_cons i L : ids (i :: L) = foot i ++ ids L. Proof. done. Qed.
Lemma ids_app L1 L2 : ids (L1 ++ L2) = ids L1 ++ ids L2. Proof. apply bind_app. Qed.
Lemma ids_elem b L : b ∈ ids L <-> exists i, i ∈ L /\ b ∈ foot i.
Proof. unfold ids. rewrite elem_of_list_bind. naive_solver. Qed.
Lemma ids_perm L1 L2 : L1 ≡ₚ L2 -> ids L1 ≡ₚ ids L2.
Proof. intros H. unfold ids. by rewrite H. Qed.

Lemma Inv_perm E F L1 L2 s : L1 ≡ₚ L2 -> Inv E F L1 s -> Inv E F L2 s.
Proof.
  intros P [W N O I K]. pose proof (ids_perm _ _ P) as P'. split; [done|by rewrite <-P'| | |].
  - intros b Hb. apply O. by rewrite P'.
  - intros b Hb. apply I. by rewrite P'.
  - intros i Hi. apply K. by rewrite P.
Qed.

Lemma foot_disj L i j b : NoDup (ids L) -> i ∈ L -> j ∈ L -> b ∈ foot i -> b ∈ foot j -> i = j.
Proof.
  intros N Hi Hj Bi Bj. apply elem_of_list_split in Hi as (L1 & L2 & ->).
  rewrite ids_app, ids_cons in N. apply NoDup_app in N as (N1 & D1 & N2).
  apply NoDup_app in N2 as (N2 & D2 & N3).
  apply elem_of_app in Hj as [Hj|Hj].
  - exfalso. eapply D1; [apply ids_elem; exists j; split; [exact Hj|exact Bj]|]. apply elem_of_app. by left.
  - apply elem_of_cons in Hj as [->|Hj]; [done|]. exfalso. eapply D2; [exact Bi|].
    apply ids_elem. eauto.
Qed.
Lemma foot_nodup L i : NoDup (ids L) -> i ∈ L -> NoDup (foot i).
Proof.
  intros N Hi. apply elem_of_list_split in Hi as (L1 & L2 & ->).
  rewrite ids_app, ids_cons in N. apply NoDup_app in N as (_ & _ & N). by apply NoDup_app in N as (N & _ & _).
Qed.

(** [b] is a block whose content carries no ownership. *)
Definition inside (L : list item) (p : hval) : Prop :=
  (exists g, IM g p ∈ L) \/ exists h pd pm ps px, p = HPtr px /\ IT h pd pm ps px ∈ L.

Lemma Inv_write E F L s b x c :
  inside L (HPtr b) -> Inv E F L s -> heap s !! b = Some x ->
  Inv E F L (St (<[b := Blk (b_tag x) c]> (heap s)) (ctr s) (rpos s)).
Proof.
  intros In [W N O I K] Hx.
  assert (Hj : exists j, j ∈ L /\ b ∈ foot j /\ ((exists g, j = IM g (HPtr b)) \/ (exists h pd' pm' ps', j = IT h pd' pm' ps' b))).
  { destruct In as [[g In]|(h & pd & pm & ps & px & e & In)].
    - exists (IM g (HPtr b)). split_and!; [done| |eauto]. cbn. apply elem_of_list_here.
    - injection e as ->. eexists. split_and!; [exact In| |right; eauto 10]. cbn. do 2 apply elem_of_list_further. apply elem_of_list_here. }
  destruct Hj as (j & Hj & Bj & Sh).
  assert (Hb : b ∈ ids L) by (apply ids_elem; eauto).
  split; cbn [heap ctr].
  - intros b' [y Hy]. cbn in *. apply W. destruct (decide (b' = b)) as [->|n]; [eauto|].
    rewrite lookup_insert_ne in Hy by done. eauto.
  - done.
  - intros b' Hb'. rewrite lookup_insert_ne; [by apply O|]. by intros ->.
  - intros b' Hb'. destruct (I b' Hb') as [H1 H2]. split; [done|].
    destruct (decide (b' = b)) as [->|n]; [rewrite lookup_insert; eauto|by rewrite lookup_insert_ne].
  - intros i Hi. specialize (K i Hi). destruct (decide (b ∈ foot i)) as [Bi|Bi].
    2:{ eapply okit_same; [|exact K]. intros b' Hb'. apply lookup_insert_ne. by intros ->. }
    pose proof (foot_disj _ _ _ _ N Hj Hi Bj Bi) as ->.
    destruct Sh as [[g ->]|(p & pd & pm & ps & ->)].
    + intros b' Hb'. destruct (K b' Hb') as [c' K']. cbn in Hb'. apply elem_of_list_singleton in Hb' as ->.
      rewrite lookup_insert. rewrite K' in Hx. injection Hx as <-. cbn. eauto.
    + pose proof (foot_nodup _ _ N Hi) as Nf. cbn in Nf.
      apply NoDup_cons in Nf as [n1 Nf]. apply NoDup_cons in Nf as [n2 _].
      assert (b <> p) by (intros ->; apply n1; apply elem_of_list_further, elem_of_list_here).
      assert (b <> ps) by (intros ->; apply n2; apply elem_of_list_here).
      destruct K as (K1 & K2 & K3 & K4 & K5). unfold okit. split_and!; [done|done| | |].
      * by rewrite lookup_insert_ne.
      * by rewrite lookup_insert_ne.
      * intros b' Hb'. destruct (K5 b' Hb') as [c' K']. destruct (decide (b' = b)) as [->|n]; [|rewrite lookup_insert_ne by done; eauto].
        rewrite lookup_insert. rewrite K' in Hx. injection Hx as <-. cbn. eauto.
Qed.

Lemma Inv_alloc E F L s b tag c :
  Inv E F L s -> b = ctr s ->
  Inv E F (IM tag (HPtr b) :: L) (St (<[b := Blk tag c]> (heap s)) (S b) (rpos s)).
Proof.
  intros [W N O I K] ->.
  assert (Hfr : heap s !! ctr s = None).
  { destruct (heap s !! ctr s) eqn:e; [|done]. exfalso.
    assert ((ctr s < ctr s)%nat) by (apply W; eauto). lia. }
  assert (Hn : ctr s ∉ ids L).
  { intros Hin. destruct (I _ Hin) as [_ [y Hy]]. congruence. }
  split; cbn [heap ctr].
  - intros b' [y Hy]. cbn in *. destruct (decide (b' = ctr s)) as [->|n]; [lia|].
    rewrite lookup_insert_ne in Hy by done. assert ((b' < ctr s)%nat) by (apply W; eauto). lia.
  - rewrite ids_cons. cbn. constructor; done.
  - intros b' Hb'. rewrite ids_cons in Hb'. cbn in Hb'. apply not_elem_of_cons in Hb' as [n Hb'].
    rewrite lookup_insert_ne by done. by apply O.
  - intros b' Hb'. rewrite ids_cons in Hb'. cbn in Hb'. apply elem_of_cons in Hb' as [->|Hb'].
    + rewrite lookup_insert. split; [|eauto]. rewrite <-(O _ Hn). done.
    + destruct (I b' Hb') as [H1 H2]. split; [done|]. rewrite lookup_insert_ne; [done|]. intros e. by rewrite e in Hn.
  - intros i Hi. apply elem_of_cons in Hi as [->|Hi].
    + intros b' Hb'. cbn in Hb'. apply elem_of_list_singleton in Hb' as ->. rewrite lookup_insert. eauto.
    + eapply okit_same; [|by apply K]. intros b' Hb'. apply lookup_insert_ne. intros <-. apply Hn. apply ids_elem. eauto.
Qed.

Lemma Inv_null E F L s s' g : Inv E F L s -> heap s' = heap s -> (ctr s <= ctr s')%nat -> Inv E F (IM g HNull :: L) s'.
Proof.
  intros [W N O I K] Hh Hc. split.
  - intros b Hb. rewrite Hh in Hb. apply W in Hb. lia.
  - done.
  - intros b Hb. rewrite Hh. by apply O.
  - intros b Hb. rewrite Hh. by apply I.
  - intros i Hi. rewrite Hh. apply elem_of_cons in Hi as [->|Hi]; [|by apply K]. intros b Hb. by apply elem_of_nil in Hb.
Qed.
Lemma Inv_same E F L s s' : Inv E F L s -> heap s' = heap s -> (ctr s <= ctr s')%nat -> Inv E F L s'.
Proof.
  intros H Hh Hc. destruct (Inv_null _ _ _ _ _ 0 H Hh Hc) as [W N O I K]. split; try done.
  intros i Hi. apply K. by apply elem_of_list_further.
Qed.

Lemma Inv_free E F L s b g :
  Inv E F (IM g (HPtr b) :: L) s ->
  Inv E F L (St (delete b (heap s)) (ctr s) (rpos s)).
Proof.
  intros [W N O I K]. rewrite ids_cons in *. cbn in N. apply NoDup_cons in N as [Hn N].
  split; cbn [heap ctr].
  - intros b' [y Hy]. cbn in *. apply W. apply lookup_delete_Some in Hy as [_ Hy]. eauto.
  - done.
  - intros b' Hb'. destruct (decide (b' = b)) as [->|n].
    + rewrite lookup_delete. symmetry. apply I. cbn. apply elem_of_list_here.
    + rewrite lookup_delete_ne by done. apply O. cbn. rewrite elem_of_cons. naive_solver.
  - intros b' Hb'. destruct (I b') as [H1 H2]; [cbn; by apply elem_of_list_further|].
    split; [done|]. rewrite lookup_delete_ne; [done|]. by intros ->.
  - intros i Hi. eapply okit_same; [|apply K; by apply elem_of_list_further].
    intros b' Hb'. apply lookup_delete_ne. intros <-. apply Hn. apply ids_elem. eauto.
Qed.

(** Forgetting what items are. *)
Lemma Inv_junk E F J L s : Inv E F (J ++ L) s -> Inv E F (IJ (ids J) :: L) s.
Proof.
  intros [W N O I K]. rewrite ids_app in *. split; try done.
  intros i Hi. apply elem_of_cons in Hi as [->|Hi]; [done|]. apply K. apply elem_of_app. by right.
Qed.

(** ** Structural rules *)
Section Rules.
  Context (E : env) (F : gmap nat block).

  Lemma tr_ret {A} L (a : A) (Q : A -> list item -> Prop) : Q a L -> tr E F L (ret a) Q.
  Proof. intros H s I. cbn. eauto. Qed.
  Lemma tr_undef {A} L u (Q : A -> list item -> Prop) : u <> UB_free -> tr E F L (undef u) Q. Proof. intros H s I _. exact H. Qed.
  Lemma tr_abort {A} L (Q : A -> list item -> Prop) : tr E F L abort Q. Proof. by intros s I. Qed.
  Lemma tr_diverge {A} L (Q : A -> list item -> Prop) : tr E F L diverge Q. Proof. by intros s I. Qed.
  Lemma tr_bind {A B} L (m : M A) (k : A -> M B) R Q :
    tr E F L m R -> (forall a L', R a L' -> tr E F L' (k a) Q) -> tr E F L (bind m k) Q.
  Proof.
    intros Hm Hk s I. unfold bind. specialize (Hm s I). destruct (m E s) as [a s1| | |]; try done.
    destruct Hm as (L1 & I1 & R1). exact (Hk a L1 R1 _ I1).
  Qed.
  Lemma tr_weaken {A} L (m : M A) (R Q : A -> list item -> Prop) :
    tr E F L m R -> (forall a L', R a L' -> Q a L') -> tr E F L m Q.
  Proof.
    intros Hm H s I. specialize (Hm s I). destruct (m E s) as [a s1| | |]; try done. destruct Hm as (L1 & I1 & R1). eauto.
  Qed.
  Lemma tr_assoc {A B C} L (m : M A) (k : A -> M B) (g : B -> M C) Q :
    tr E F L (bind m (fun a => bind (k a) g)) Q -> tr E F L (bind (bind m k) g) Q.
  Proof.
    intros H s I. specialize (H s I). unfold bind in *. by destruct (m E s).
  Qed.
  Lemma tr_perm {A} L L' (m : M A) Q : L ≡ₚ L' -> tr E F L' m Q -> tr E F L m Q.
  Proof. intros P H s I. apply H. by eapply Inv_perm. Qed.
  Lemma tr_junk {A} J L (m : M A) Q : tr E F (IJ (ids J) :: L) m Q -> tr E F (J ++ L) m Q.
  Proof. intros H s I. apply H. by apply Inv_junk. Qed.

  Lemma tr_bret {A B} L (a : A) (k : A -> M B) Q : tr E F L (k a) Q -> tr E F L (bind (ret a) k) Q.
  Proof. done. Qed.

  (** Computations that change no ownership. *)
  Definition kr {A} L (m : M A) : Prop := tr E F L m (fun _ L' => L' = L).

  Lemma tr_kr {A B} L (m : M A) (k : A -> M B) Q :
    kr L m -> (forall a, tr E F L (k a) Q) -> tr E F L (bind m k) Q.
  Proof. intros Hm Hk. eapply tr_bind; [exact Hm|]. intros a L' ->. apply Hk. Qed.
  Lemma kr_bind {A B} L (m : M A) (k : A -> M B) : kr L m -> (forall a, kr L (k a)) -> kr L (bind m k).
  Proof. intros Hm Hk. eapply tr_kr; [exact Hm|]. apply Hk. Qed.
  Lemma kr_state {A} L (m : M A) :
    (forall s a s', m E s = Done a s' -> heap s' = heap s /\ (ctr s <= ctr s')%nat) ->
    (forall s, m E s <> UB UB_free) -> kr L m.
  Proof.
    intros H H2. apply tr_intro.
    - intros s a s' I e. destruct (H _ _ _ e). exists L. split; [|done]. by eapply Inv_same.
    - intros s u I e _ ->. by apply (H2 s).
  Qed.
  Lemma kr_pure {A} L (m : M A) : (forall s a s', m E s = Done a s' -> s' = s) -> (forall s, m E s <> UB UB_free) -> kr L m.
  Proof. intros H. apply kr_state. intros s a s' e. by rewrite (H _ _ _ e). Qed.

  Lemma kr_ret {A} L (a : A) : kr L (ret a). Proof. by apply tr_ret. Qed.
  Lemma kr_undef {A} L u : u <> UB_free -> kr L (undef u : M A). Proof. apply tr_undef. Qed.
  Lemma kr_abort {A} L : kr L (abort : M A). Proof. apply tr_abort. Qed.
  Lemma kr_diverge {A} L : kr L (diverge : M A). Proof. apply tr_diverge. Qed.
  Lemma kr_check L b u : u <> UB_free -> kr L (check b u).
  Proof. intros Hu. destruct b; [apply kr_ret|by apply kr_undef]. Qed.
  Lemma kr_opt {A} L (o : option A) u : u <> UB_free -> kr L (opt o u).
  Proof. intros Hu. destruct o; [apply kr_ret|by apply kr_undef]. Qed.
  Lemma kr_assert L b : kr L (assert_ b).
  Proof. destruct b; [apply kr_ret|apply kr_abort]. Qed.
  Lemma kr_ask {A} L (f : env -> A) : kr L (ask f).
  Proof. apply kr_pure; [|done]. intros s a s' e. by injection e. Qed.
  Lemma kr_rand L : kr L rand_.
  Proof. apply kr_state; [|done]. intros s a s' e. injection e as <- <-. cbn. split; [done|lia]. Qed.
  Lemma kr_deref L p : kr L (deref p).
  Proof.
    apply kr_pure.
    - intros s a s' e. unfold deref in e. destruct p as [|b|]; try done. destruct (heap s !! b); [by injection e|done].
    - intros s e. unfold deref in e. destruct p as [|b|]; try done. by destruct (heap s !! b).
  Qed.
  Lemma kr_iter {S} L n i (body : Z -> S -> M S) s : (forall i s, kr L (body i s)) -> kr L (iter n i body s).
  Proof.
    intros H. revert i s. induction n as [|n IH]; intros i s; [apply kr_ret|]. cbn [iter].
    apply kr_bind; [apply H|]. intros. apply IH.
  Qed.
  Lemma kr_iter_ret {S R} L n i (body : Z -> S -> M (ctl S R)) s : (forall i s, kr L (body i s)) -> kr L (iter_ret n i body s).
  Proof.
    intros H. revert i s. induction n as [|n IH]; intros i s; [apply kr_ret|]. cbn [iter_ret].
    apply kr_bind; [apply H|]. intros [x|r]; [apply IH|apply kr_ret].
  Qed.
  Lemma kr_iter_down {S} L n (body : Z -> S -> M S) s : (forall i s, kr L (body i s)) -> kr L (iter_down n body s).
  Proof.
    intros H. revert s. induction n as [|n IH]; intros s; [apply kr_ret|]. cbn [iter_down].
    apply kr_bind; [apply H|]. intros. apply IH.
  Qed.
  Lemma kr_iter_down_break {S} L n (body : Z -> S -> M (S * bool)) s : (forall i s, kr L (body i s)) -> kr L (iter_down_break n body s).
  Proof.
    intros H. revert s. induction n as [|n IH]; intros s; [apply kr_ret|]. cbn [iter_down_break].
    apply kr_bind; [apply H|]. intros [x []]; [apply IH|apply kr_ret].
  Qed.
  Lemma kr_while_ret {S R} L (body : S -> M (ctl (S * bool) R)) s : (forall s, kr L (body s)) -> kr L (while_ret body s).
  Proof.
    intros H. intros x I. unfold while_ret. generalize (e_fuel E) as n. intros n.
    assert (K : kr L (while_ret_fuel n body s)).
    { revert s. induction n as [|n IH]; intros s; [apply kr_diverge|]. cbn [while_ret_fuel].
      apply kr_bind; [apply H|]. intros [[y []]|r]; [apply IH|apply kr_ret|apply kr_ret]. }
    exact (K _ I).
  Qed.
  Lemma kr_dispatch_all {A} L dt (f : tcode -> M A) d : (forall t, kr L (f t)) -> kr L d -> kr L (dispatch_all dt f d).
  Proof. intros H1 H2. unfold dispatch_all. repeat case_match; auto. Qed.
  Lemma kr_dispatch_float {A} L dt (f : tcode -> M A) d : (forall t, kr L (f t)) -> kr L d -> kr L (dispatch_float dt f d).
  Proof. intros H1 H2. unfold dispatch_float. repeat case_match; auto. Qed.

  (** ** Memory *)
  Lemma kr_set_content L p c : inside L p -> kr L (set_content p c).
  Proof.
    intros In s I. unfold set_content, bind, deref. destruct p as [|b|]; try done.
    destruct (heap s !! b) as [x|] eqn:Hx; [|done]. exists L. split; [|done].
    by eapply Inv_write.
  Qed.
  Lemma kr_get_bytes L p : kr L (get_bytes p).
  Proof. apply kr_bind; [apply kr_deref|]. intros x. destruct (b_content x); first [apply kr_ret|by apply kr_undef]. Qed.
  Lemma kr_store_bytes L p off bs : inside L p -> kr L (store_bytes p off bs).
  Proof.
    intros In. apply kr_bind; [apply kr_get_bytes|]. intros l. apply kr_bind; [by apply kr_check|]. intros _. by apply kr_set_content.
  Qed.
  Lemma kr_storei L p t i v : inside L p -> kr L (storei p t i v).
  Proof. apply kr_store_bytes. Qed.
  Lemma kr_store L p t i v : inside L p -> kr L (store p t i v).
  Proof. apply kr_store_bytes. Qed.
  Lemma kr_memcpy L d o1 x o2 n : inside L d -> kr L (memcpy d o1 x o2 n).
  Proof.
    intros In. unfold memcpy. destruct (_ =? _); [apply kr_ret|]. apply kr_bind; [apply kr_get_bytes|]. intros l.
    apply kr_bind; [by apply kr_check|]. intros _. by apply kr_store_bytes.
  Qed.

  Lemma tr_alloc_tag {B} L tag n c (k : hval -> M B) Q :
    (forall p, p <> HUndef -> tr E F (IM tag p :: L) (k p) Q) -> tr E F L (bind (alloc_tag tag n c) k) Q.
  Proof.
    intros H. eapply (tr_bind _ _ _ (fun p L' => p <> HUndef /\ L' = IM tag p :: L)).
    - intros s I. unfold alloc_tag. destruct (_ && _).
      + eexists. split; [by apply Inv_alloc|done].
      + eexists. split; [|done]. eapply Inv_null; [exact I|done|cbn; lia].
    - intros p L' [Hp ->]. by apply H.
  Qed.
  Lemma tr_raw_alloc {B} L n c (k : hval -> M B) Q :
    (forall p, p <> HUndef -> tr E F (IM (e_alloc E) p :: L) (k p) Q) -> tr E F L (bind (raw_alloc n c) k) Q.
  Proof. intros H s I. exact (tr_alloc_tag L (e_alloc E) (to_size n) c k Q H s I). Qed.
  Lemma tr_scratch {B} L n (k : hval -> M B) Q :
    (forall p, p <> HUndef -> tr E F (IM (e_alloc E) p :: L) (k p) Q) -> tr E F L (bind (scratch n) k) Q.
  Proof. apply tr_raw_alloc. Qed.
  Lemma tr_libc_malloc {B} L n c (k : hval -> M B) Q :
    (forall p, p <> HUndef -> tr E F (IM 0 p :: L) (k p) Q) -> tr E F L (bind (libc_malloc n c) k) Q.
  Proof. apply tr_alloc_tag. Qed.

  Lemma tr_free_tag {B} L L' g tag p (k : unit -> M B) Q :
    (hooks_ok E -> g = tag) -> L ≡ₚ IM g p :: L' -> tr E F L' (k tt) Q -> tr E F L (bind (free_tag tag p) k) Q.
  Proof.
    intros Hg P H. eapply tr_perm; [exact P|]. eapply (tr_bind _ _ _ (fun _ L1 => L1 = L')); [|by intros [] L1 ->].
    intros s I. unfold free_tag. destruct p as [|b|]; [|idtac|done].
    - exists L'. split; [|done]. destruct I as [W N O I K]. split; try done.
      intros i Hi. apply K. by apply elem_of_list_further.
    - destruct (inv_ok _ _ _ _ I _ (elem_of_list_here _ _) b (elem_of_list_here _ _)) as [c Hb]. rewrite Hb. cbn [b_tag].
      destruct (bool_decide (g = tag)) eqn:e.
      + exists L'. split; [|done]. by eapply Inv_free.
      + intros Hk. apply bool_decide_eq_false in e. by destruct e; apply Hg.
  Qed.
  Lemma tr_raw_dealloc {B} L L' p (k : unit -> M B) Q :
    L ≡ₚ IM (e_alloc E) p :: L' -> tr E F L' (k tt) Q -> tr E F L (bind (raw_dealloc p) k) Q.
  Proof. intros P H s I. exact (tr_free_tag L L' (e_alloc E) (e_dealloc E) p k Q (fun e => eq_sym e) P H s I). Qed.
  Lemma tr_libc_free {B} L L' p (k : unit -> M B) Q :
    L ≡ₚ IM 0 p :: L' -> tr E F L' (k tt) Q -> tr E F L (bind (libc_free p) k) Q.
  Proof. by apply tr_free_tag. Qed.

  (** The data pointer of an owned tensor. *)
  Lemma tr_data {B} L p pd pm ps px (k : hval -> M B) Q :
    IT p pd pm ps px ∈ L -> tr E F L (k (HPtr px)) Q -> tr E F L (bind (tensor_data (HPtr p)) k) Q.
  Proof.
    intros Hi H s I. unfold bind. pose proof (inv_ok _ _ _ _ I _ Hi) as (_ & _ & (sz & off & nd & lt & K3) & (dt & dev & n & K4) & _).
    assert (e1 : tensor_data (HPtr p) E s = Done (HPtr px) s).
    { unfold tensor_data, tensor_storage, get_timpl, get_simpl, bind, deref. rewrite K3. cbn. by rewrite K4. }
    rewrite e1. exact (H _ I).
  Qed.

  Lemma kr_data {B} L p pd pm ps px (k : hval -> M B) :
    IT p pd pm ps px ∈ L -> kr L (k (HPtr px)) -> kr L (bind (tensor_data (HPtr p)) k).
  Proof. apply tr_data. Qed.

  (** Taking an owned tensor to pieces and putting it together. *)
  Lemma Inv_parts L p pd pm ps px s :
    Inv E F (IT p pd pm ps px :: L) s ->
    Inv E F (IM (e_alloc E) pd :: IM (e_alloc E) pm :: IM (e_alloc E) (HPtr px) ::
             IM (e_alloc E) (HPtr ps) :: IM (e_alloc E) (HPtr p) :: L) s.
  Proof.
    intros [W N O I K]. rewrite ids_cons in *. cbn [foot] in *.
    set (g := e_alloc E) in *.
    assert (P : (p :: ps :: px :: ids1 pd ++ ids1 pm) ++ ids L ≡ₚ
                ids (IM g pd :: IM g pm :: IM g (HPtr px) :: IM g (HPtr ps) :: IM g (HPtr p) :: L)).
    { rewrite !ids_cons. cbn [foot ids1]. destruct pd, pm; cbn; solve_Permutation. }
    destruct (K _ (elem_of_list_here _ _)) as (_ & _ & (? & ? & ? & ? & K3) & (? & ? & ? & K4) & K5).
    split; [done|by rewrite <-P| | |].
    - intros b Hb. apply O. by rewrite P.
    - intros b Hb. apply I. by rewrite P.
    - intros i Hi. apply elem_of_cons in Hi as [->|Hi].
      { intros b Hb. apply K5. apply elem_of_list_further, elem_of_app. by left. }
      apply elem_of_cons in Hi as [->|Hi].
      { intros b Hb. apply K5. apply elem_of_list_further, elem_of_app. by right. }
      apply elem_of_cons in Hi as [->|Hi].
      { intros b Hb. apply K5. apply elem_of_list_singleton in Hb as ->. apply elem_of_list_here. }
      apply elem_of_cons in Hi as [->|Hi].
      { intros b Hb. apply elem_of_list_singleton in Hb as ->. eauto. }
      apply elem_of_cons in Hi as [->|Hi].
      { intros b Hb. apply elem_of_list_singleton in Hb as ->. eauto. }
      apply K. by apply elem_of_list_further.
  Qed.
  Lemma Inv_storage L ps px s dt dev n :
    heap s !! ps = Some (Blk (e_alloc E) (CStorage (SI dt dev n (HPtr px)))) ->
    Inv E F (IM (e_alloc E) (HPtr px) :: IM (e_alloc E) (HPtr ps) :: L) s ->
    Inv E F (IS ps px :: L) s.
  Proof.
    intros K4 [W N O I K].
    assert (P : ids (IS ps px :: L) ≡ₚ ids (IM (e_alloc E) (HPtr px) :: IM (e_alloc E) (HPtr ps) :: L)).
    { rewrite !ids_cons. cbn [foot ids1]. cbn. solve_Permutation. }
    split; [done|by rewrite P| | |].
    - intros b Hb. apply O. by rewrite <-P.
    - intros b Hb. apply I. by rewrite <-P.
    - intros i Hi. apply elem_of_cons in Hi as [->|Hi]; [|apply K; by do 2 apply elem_of_list_further].
      split; [eauto 10|]. apply (K (IM (e_alloc E) (HPtr px))); apply elem_of_list_here.
  Qed.
  Lemma Inv_whole L p pd pm ps px s sz off nd lt :
    pd <> HUndef -> pm <> HUndef ->
    heap s !! p = Some (Blk (e_alloc E) (CTensor (TI sz off nd pd lt pm (HPtr ps)))) ->
    Inv E F (IS ps px :: IM (e_alloc E) pm :: IM (e_alloc E) pd :: IM (e_alloc E) (HPtr p) :: L) s ->
    Inv E F (IT p pd pm ps px :: L) s.
  Proof.
    set (g := e_alloc E) in *. intros Hd Hm K3 [W N O I K].
    assert (P : ids (IT p pd pm ps px :: L) ≡ₚ
                ids (IS ps px :: IM g pm :: IM g pd :: IM g (HPtr p) :: L)).
    { rewrite !ids_cons. cbn [foot ids1]. destruct pd, pm; cbn; solve_Permutation. }
    destruct (K (IS ps px) (elem_of_list_here _ _)) as [(dt & dev & n & K4) K5].
    split; [done|by rewrite P| | |].
    - intros b Hb. apply O. by rewrite <-P.
    - intros b Hb. apply I. by rewrite <-P.
    - intros i Hi. apply elem_of_cons in Hi as [->|Hi]; [|apply K; by do 4 apply elem_of_list_further].
      unfold okit. split_and!; [done|done|eauto 10|eauto 10|].
      intros b Hb. apply elem_of_cons in Hb as [->|Hb]; [done|].
      apply elem_of_app in Hb as [Hb|Hb].
      { apply (K (IM g pd)); [do 2 apply elem_of_list_further; apply elem_of_list_here|done]. }
      { apply (K (IM g pm)); [apply elem_of_list_further, elem_of_list_here|done]. }
  Qed.
End Rules.
