(** * ProofTrace2: ownership rules for creating and destroying tensors *)
From stdpp Require Import gmap list.
From Coq Require Import ZArith Lia Floats.SpecFloat.
From Verif Require Import Base Mem Spec ModelCore ModelBasic ModelMath ModelNN.
From Verif Require Export ProofTrace.
Open Scope Z_scope.

Definition del1 (p : hval) (h : gmap nat block) : gmap nat block :=
  match p with HPtr b => delete b h | _ => h end.

Lemma Inv_free1 E F L s g p :
  p <> HUndef -> Inv E F (IM g p :: L) s -> Inv E F L (St (del1 p (heap s)) (ctr s) (rpos s)).
Proof.
  intros Hp I. destruct p as [|b|]; [|by eapply Inv_free|done]. cbn [del1].
  destruct I as [W N O I K]. split; try done. intros i Hi. apply K. by apply elem_of_list_further.
Qed.

Lemma destroy_eval E F L s p pd pm ps px :
  Inv E F (IT p pd pm ps px :: L) s ->
  (hooks_ok E -> exists s', aitisa_destroy (HPtr p) E s = Done (SUCCESS, HNull) s') /\
  (forall a s', aitisa_destroy (HPtr p) E s = Done a s' -> a = (SUCCESS, HNull) /\ Inv E F L s').
Proof.
  intros I. pose proof (inv_ok _ _ _ _ I _ (elem_of_list_here _ _)) as (Hd & Hm & (sz & off & nd & lt & K3) & (dt & dev & n & K4) & K5).
  pose proof (inv_nd _ _ _ _ I) as N. rewrite ids_cons in N. cbn [foot] in N. apply NoDup_app in N as (N & _ & _).
  assert (Hi : forall u s', bool_decide (e_alloc E = e_dealloc E) = true -> u = (SUCCESS, HNull) ->
             s' = St (delete p (delete ps (delete px (del1 pm (del1 pd (heap s)))))) (ctr s) (rpos s) ->
             aitisa_destroy (HPtr p) E s = Done u s').
  { intros u s' Hk -> ->. unfold aitisa_destroy. cbn [is_null]. unfold get_timpl, bind, deref. rewrite K3. cbn [b_content].
    unfold ret. unfold destroy_shape, destroy_layout, bind. cbn [t_dims t_min2maj t_storage].
    destruct s as [h c r]. cbn [heap ctr rpos] in *.
    assert (K5d : forall b, b ∈ ids1 pd -> exists c, h !! b = Some (Blk (e_alloc E) c)).
    { intros b Hb. apply K5. apply elem_of_list_further, elem_of_app. by left. }
    assert (K5m : forall b, b ∈ ids1 pm -> exists c, h !! b = Some (Blk (e_alloc E) c)).
    { intros b Hb. apply K5. apply elem_of_list_further, elem_of_app. by right. }
    destruct (K5 px (elem_of_list_here _ _)) as [cx K5x].
    assert (R1 : (if is_null pd then ret tt else raw_dealloc pd) E (St h c r) = Done tt (St (del1 pd h) c r)).
    { destruct pd as [|b|]; [done| |done]. cbn [is_null]. destruct (K5d b) as [cb Hb]; [apply elem_of_list_here|].
      unfold raw_dealloc, free_tag. cbn [heap]. rewrite Hb. cbn [b_tag]. by rewrite Hk. }
    rewrite R1.
    assert (D1 : forall b, b ∉ ids1 pd -> del1 pd h !! b = h !! b).
    { intros b Hb. destruct pd as [|b'|]; [done| |done]. cbn. apply lookup_delete_ne. intros ->. apply Hb. apply elem_of_list_here. }
    assert (N' := N). apply NoDup_cons in N as [n1 N]. apply NoDup_cons in N as [n2 N]. apply NoDup_cons in N as [n3 N].
    apply NoDup_app in N as (Nd & Ndm & Nm).
    rewrite !elem_of_cons, elem_of_app in n1. rewrite !elem_of_cons, elem_of_app in n2. rewrite elem_of_app in n3.
    assert (R2 : (if is_null pm then ret tt else raw_dealloc pm) E (St (del1 pd h) c r) = Done tt (St (del1 pm (del1 pd h)) c r)).
    { destruct pm as [|b|]; [done| |done]. cbn [is_null]. destruct (K5m b) as [cb Hb]; [apply elem_of_list_here|].
      unfold raw_dealloc, free_tag. cbn [heap]. rewrite D1; [|intros Hx; apply (Ndm b Hx), elem_of_list_here].
      rewrite Hb. cbn [b_tag]. by rewrite Hk. }
    rewrite R2.
    assert (D2 : forall b, b ∉ ids1 pd -> b ∉ ids1 pm -> del1 pm (del1 pd h) !! b = h !! b).
    { intros b Hb Hb'. rewrite <-(D1 b Hb). destruct pm as [|b'|]; [done| |done]. cbn. apply lookup_delete_ne. intros ->. apply Hb'. apply elem_of_list_here. }
    unfold destroy_storage. cbn [is_null]. unfold get_simpl, bind, deref. cbn [heap]. rewrite D2, K4 by tauto. cbn [b_content]. unfold ret.
    cbn [s_data is_null]. unfold raw_dealloc, free_tag. cbn [heap]. rewrite D2, K5x by tauto. cbn [b_tag]. rewrite Hk. cbn [heap ctr rpos].
    rewrite (lookup_delete_ne _ px ps) by (intros e; apply n2; by left). rewrite D2, K4 by tauto. cbn [b_tag]. rewrite Hk. cbn [heap ctr rpos].
    rewrite (lookup_delete_ne _ ps p) by (intros e; apply n1; by left).
    rewrite (lookup_delete_ne _ px p) by (intros e; apply n1; right; by left). rewrite D2, K3 by tauto. cbn [b_tag]. by rewrite Hk. }
  split.
  - intros Hk. eexists. apply Hi; [|done|done]. apply bool_decide_eq_true. symmetry. exact Hk.
  - intros a s' e. destruct (bool_decide (e_alloc E = e_dealloc E)) eqn:Hk.
    + rewrite (Hi _ _ eq_refl eq_refl eq_refl) in e. injection e as <- <-. split; [done|].
      apply Inv_parts in I. apply Inv_free1 in I; [|done]. apply Inv_free1 in I; [|done]. cbn [heap ctr rpos] in I.
      do 3 apply Inv_free in I. exact I.
    + exfalso. clear Hi I. unfold aitisa_destroy, bind in e. cbn [is_null] in e. unfold get_timpl, bind, deref in e. rewrite K3 in e. cbn [b_content] in e.
      unfold ret in e. cbn [t_dims t_min2maj t_storage] in e.
      destruct (destroy_shape pd pm E s) as [[] s1| | |] eqn:e1; try done.
      assert (Hs : s1 = s).
      { unfold destroy_shape, destroy_layout, bind in e1.
        assert (R : forall p, p <> HUndef -> (forall b, b ∈ ids1 p -> exists c, heap s !! b = Some (Blk (e_alloc E) c)) ->
                     forall u s2, (if is_null p then ret tt else raw_dealloc p) E s = Done u s2 -> s2 = s).
        { intros q Hq Hb u s2 e2. destruct q as [|b|]; cbn [is_null] in e2; [by injection e2| |done].
          destruct (Hb b) as [cb Hc]; [apply elem_of_list_here|].
          unfold raw_dealloc, free_tag in e2. rewrite Hc in e2. cbn [b_tag] in e2. by rewrite Hk in e2. }
        destruct ((if is_null pd then ret tt else raw_dealloc pd) E s) as [[] s2| | |] eqn:e2; try done.
        apply R in e2; [subst s2| done |intros b Hb; apply K5; apply elem_of_list_further, elem_of_app; by left].
        apply R in e1; [done|done|intros b Hb; apply K5; apply elem_of_list_further, elem_of_app; by right]. }
      subst s1. unfold destroy_storage, bind in e. cbn [is_null] in e. unfold get_simpl, bind, deref in e. rewrite K4 in e.
      cbn [b_content] in e. unfold ret in e. cbn [s_data is_null] in e. destruct (K5 px (elem_of_list_here _ _)) as [cx K5x].
      unfold raw_dealloc, free_tag in e. rewrite K5x in e. cbn [b_tag] in e. by rewrite Hk in e.
Qed.

(** What an operation does: on success exactly one new tensor, otherwise perhaps
    some leaked blocks. *)
Definition opQ (L : list item) (r : status * hval) (L' : list item) : Prop :=
  (r.1 = SUCCESS /\ exists p pd pm ps px, r.2 = HPtr p /\ L' = IT p pd pm ps px :: L) \/
  (r.1 <> SUCCESS /\ L `suffix_of` L').
(** The same for internal functions that return a status or a ctl. *)
Definition stQ (L : list item) (r : status) (L' : list item) : Prop :=
  (r = SUCCESS /\ L' = L) \/ (r <> SUCCESS /\ L `suffix_of` L').
Definition ctQ {A} (L : list item) (r : ctl A status) (L' : list item) : Prop :=
  match r with Next _ => L' = L | Return s => s <> SUCCESS /\ L `suffix_of` L' end.

Section Rules.
  Context (E : env) (F : gmap nat block).

  Lemma tr_destroy {B} L L' p pd pm ps px (k : status * hval -> M B) Q :
    L ≡ₚ IT p pd pm ps px :: L' -> tr E F L' (k (SUCCESS, HNull)) Q -> tr E F L (bind (aitisa_destroy (HPtr p)) k) Q.
  Proof.
    intros P H. eapply tr_perm; [exact P|]. eapply (tr_bind _ _ _ _ _ (fun a L1 => a = (SUCCESS, HNull) /\ L1 = L')).
    - apply tr_intro.
      + intros s a s' I e. apply destroy_eval in I as [_ I]. destruct (I _ _ e) as [-> I']. eauto.
      + intros s u I e Hk. apply destroy_eval in I as [I _]. destruct (I Hk) as [s' e']. congruence.
    - by intros a L1 [-> ->].
  Qed.

  Lemma tr_op {B} L (m : M (status * hval)) (k : status * hval -> M B) Q :
    tr E F L m (opQ L) ->
    (forall p pd pm ps px, tr E F (IT p pd pm ps px :: L) (k (SUCCESS, HPtr p)) Q) ->
    (forall s o l, s <> SUCCESS -> tr E F (IJ l :: L) (k (s, o)) Q) ->
    tr E F L (bind m k) Q.
  Proof.
    intros Hm H1 H2. eapply tr_bind; [exact Hm|]. intros [s o] L' [(e & p & pd & pm & ps & px & e2 & ->)|(n & J & ->)].
    - cbn in *. subst. apply H1.
    - cbn in *. apply tr_junk. by apply H2.
  Qed.
  Lemma tr_st {B} L (m : M status) (k : status -> M B) Q :
    tr E F L m (stQ L) -> tr E F L (k SUCCESS) Q ->
    (forall s l, s <> SUCCESS -> tr E F (IJ l :: L) (k s) Q) -> tr E F L (bind m k) Q.
  Proof.
    intros Hm H1 H2. eapply tr_bind; [exact Hm|]. intros s L' [(-> & ->)|(n & J & ->)]; [done|]. apply tr_junk. by apply H2.
  Qed.
  Lemma tr_ct {A B} L (m : M (ctl A status)) (k : ctl A status -> M B) Q :
    tr E F L m (ctQ L) -> (forall a, tr E F L (k (Next a)) Q) ->
    (forall s l, s <> SUCCESS -> tr E F (IJ l :: L) (k (Return s)) Q) -> tr E F L (bind m k) Q.
  Proof.
    intros Hm H1 H2. eapply tr_bind; [exact Hm|]. intros [a|s] L'; [by intros ->|]. intros (n & J & ->). apply tr_junk. by apply H2.
  Qed.
  Lemma tr_ct_iter {S} L n i (body : Z -> S -> M (ctl S status)) s :
    (forall i s, tr E F L (body i s) (ctQ L)) -> tr E F L (iter_ret n i body s) (ctQ L).
  Proof.
    intros H. revert i s. induction n as [|n IH]; intros i s; [by apply tr_ret|]. cbn [iter_ret].
    eapply tr_bind; [apply H|]. intros [x|r] L'; cbn; [intros ->; apply IH|]. intros Hr. by apply tr_ret.
  Qed.
  Lemma tr_kr_for {S B} L lo hi (body : Z -> S -> M S) s (k : S -> M B) Q :
    (forall i s, kr E F L (body i s)) -> (forall s, tr E F L (k s) Q) -> tr E F L (bind (for64 lo hi body s) k) Q.
  Proof. intros H1 H2. eapply tr_kr; [|exact H2]. by apply kr_iter. Qed.
End Rules.

(** ** Automation *)
Lemma perm_here {A} (x : A) l : x :: l ≡ₚ x :: l. Proof. done. Qed.
Lemma perm_further {A} (x y : A) l k : l ≡ₚ x :: k -> y :: l ≡ₚ x :: y :: k.
Proof. intros ->. apply Permutation_swap. Qed.
Lemma suf_here {A} (l : list A) : l `suffix_of` l. Proof. by exists []. Qed.

Ltac mem := first [eassumption | apply elem_of_list_here | apply elem_of_list_further; mem].
Ltac perm := first [apply perm_here | eapply perm_further; perm].
Ltac suf := first [assumption | apply suf_here | apply suffix_cons_r; suf].
Lemma inside_cons i L p : inside L p -> inside (i :: L) p.
Proof.
  intros [[g H]|(p1 & pd & pm & ps & px & -> & H)]; [left; eexists|right; do 5 eexists; split; [reflexivity|]];
    apply elem_of_list_further; exact H.
Qed.
Ltac ins := first [eassumption | left; eexists; mem | right; do 5 eexists; split; [reflexivity|mem] | apply inside_cons; ins].

Create HintDb tr discriminated.
#[export] Hint Constants Opaque : tr.
Create HintDb krd.
Ltac head_of t := match t with ?f _ => head_of f | _ => t end.
Ltac case_on x :=
  lazymatch x with
  | bool_decide ?P => let e := fresh "e" in destruct (bool_decide P) eqn:e;
      [apply bool_decide_eq_true in e|apply bool_decide_eq_false in e]; cbn [negb]; try congruence
  | negb ?y => case_on y
  | _ => destruct x; cbn [negb]
  end.
Ltac kr1 :=
  cbv beta match zeta;
  lazymatch goal with
  | |- forall _, _ => intros ?
  | |- kr _ _ _ (ret _) => apply kr_ret
  | |- kr _ _ _ (undef _) => apply kr_undef; discriminate
  | |- kr _ _ _ abort => apply kr_abort
  | |- kr _ _ _ diverge => apply kr_diverge
  | |- kr _ _ _ (check _ _) => apply kr_check; discriminate
  | |- kr _ _ _ (opt _ _) => apply kr_opt; discriminate
  | |- kr _ _ _ (assert_ _) => apply kr_assert
  | |- kr _ _ _ (ask _) => apply kr_ask
  | |- kr _ _ _ rand_ => apply kr_rand
  | |- kr _ _ _ (deref _) => apply kr_deref
  | |- kr _ _ _ (get_bytes _) => apply kr_get_bytes
  | |- kr _ _ _ (set_content _ _) => apply kr_set_content; ins
  | |- kr _ _ _ (storei _ _ _ _) => apply kr_storei; ins
  | |- kr _ _ _ (store _ _ _ _) => apply kr_store; ins
  | |- kr _ _ _ (store_bytes _ _ _) => apply kr_store_bytes; ins
  | |- kr _ _ _ (memcpy _ _ _ _ _) => apply kr_memcpy; ins
  | |- kr _ _ _ (bind (tensor_data (HPtr _)) _) => first [eapply tr_data; [mem|]| apply kr_bind]
  | |- kr _ _ _ (bind _ _) => apply kr_bind
  | |- tr ?E ?F ?L ?m (fun _ L' => L' = ?L) => change (kr E F L m)
  | |- kr _ _ _ (iter _ _ _ _) => apply kr_iter
  | |- kr _ _ _ (iter_ret _ _ _ _) => apply kr_iter_ret
  | |- kr _ _ _ (iter_down _ _ _) => apply kr_iter_down
  | |- kr _ _ _ (iter_down_break _ _ _) => apply kr_iter_down_break
  | |- kr _ _ _ (while_ret _ _) => apply kr_while_ret
  | |- kr _ _ _ (dispatch_all _ _ _) => apply kr_dispatch_all
  | |- kr _ _ _ (dispatch_float _ _ _) => apply kr_dispatch_float
  | |- kr _ _ _ (match ?x with _ => _ end) => case_on x
  | |- kr _ _ _ ?m => first [solve [auto with krd] | let h := head_of m in unfold h]
  end.
Ltac kr := intros; repeat kr1.
Ltac fin :=
  cbn [fst snd]; 
  lazymatch goal with
  | |- opQ _ _ _ => first [left; split; [done|]; repeat case_bool_decide; try congruence; do 5 eexists; split; reflexivity
                    | right; split; [done|suf]]
  | |- stQ _ _ _ => first [left; split; [done|reflexivity] | right; split; [done|suf]]
  | |- ctQ _ _ _ => first [reflexivity | split; [done|suf]]
  | |- _ => first [reflexivity | done]
  end.
Ltac ts1 :=
  cbv beta match zeta;
  lazymatch goal with
  | |- forall _, _ => intros ?
  | |- tr _ _ _ (ret _) _ => apply tr_ret; fin
  | |- tr _ _ _ (undef _) _ => apply tr_undef; discriminate
  | |- tr _ _ _ abort _ => apply tr_abort
  | |- tr _ _ _ diverge _ => apply tr_diverge
  | |- tr _ _ _ (match ?x with _ => _ end) _ => case_on x
  | |- tr _ _ _ (dispatch_all _ _ _) _ => unfold dispatch_all
  | |- tr _ _ _ (dispatch_float _ _ _) _ => unfold dispatch_float
  | |- tr _ _ _ (bind ?m _) _ =>
      lazymatch m with
      | match ?x with _ => _ end => case_on x
      | ret _ => apply tr_bret
      | bind _ _ =>
          lazymatch type of m with
          | M status => apply tr_assoc
          | M (status * hval) => apply tr_assoc
          | M (ctl _ status) => apply tr_assoc
          | _ => first [apply tr_kr; [solve [kr]|] | apply tr_assoc]
          end
      | dispatch_all _ _ _ => unfold dispatch_all at 1
      | dispatch_float _ _ _ => unfold dispatch_float at 1
      | scratch _ => apply tr_scratch
      | raw_alloc _ _ => apply tr_raw_alloc
      | libc_malloc _ _ => apply tr_libc_malloc
      | raw_dealloc _ => eapply tr_raw_dealloc; [perm|]
      | libc_free _ => eapply tr_libc_free; [perm|]
      | aitisa_destroy _ => eapply tr_destroy; [perm|]
      | tensor_data (HPtr _) => first [eapply tr_data; [mem|] | apply tr_kr; [solve [kr]|]]
      | @iter_ret _ status _ _ _ _ => eapply tr_ct; [apply tr_ct_iter| |]
      | _ =>
          first [lazymatch type of m with
                 | M (status * hval) => eapply tr_op; [solve [auto with tr]| |]
                 | M status => eapply tr_st; [solve [auto with tr]| |]
                 | M (ctl _ status) => eapply tr_ct; [solve [auto with tr]| |]
                 end
                | apply tr_kr; [solve [kr]|] | idtac "stuck at" m; fail ]
      end
  | |- tr _ _ _ ?m _ => first [solve [auto with tr] | idtac "unknown" m; fail]
  end.
Ltac ts := intros; repeat ts1.
Ltac un f := intros; unfold f; ts.

