(** * ProofTrace3: every operation, with arbitrary arguments *)
From stdpp Require Import gmap list.
From Coq Require Import ZArith Lia Floats.SpecFloat.
From Verif Require Import Base Mem Spec ModelCore ModelBasic ModelMath ModelNN.
From Verif Require Import ProofTrace ProofTrace2.
Open Scope Z_scope.

Section Create.
  Context (E : env) (F : gmap nat block).
  Notation g := (e_alloc E).
  Notation tr := (tr E F).

  Lemma tr_null {A} L (m : M A) Q : tr (IM g HNull :: L) m Q -> tr L m Q.
  Proof. intros H s I. apply H. eapply Inv_null; [exact I|done|lia]. Qed.

  (** dims and layout order *)
  Lemma tr_array {B} L (b : bool) n c (k : hval -> M B) Q :
    (forall p, p <> HUndef -> tr (IM g p :: L) (k p) Q) ->
    tr L (bind (if b then ret HNull else raw_alloc n c) k) Q.
  Proof.
    intros H. destruct b; [|by apply tr_raw_alloc]. apply tr_bret, tr_null. by apply H.
  Qed.
  Lemma kr_fill L p n l : inside L p -> kr E F L (fill_ints p n l).
  Proof. intros In. unfold fill_ints. kr. Qed.
  Lemma tr_layout L lt nd :
    tr L (create_default_layout lt nd) (fun r L' =>
      (r.1 = SUCCESS /\ r.2 <> HUndef /\ L' = IM g r.2 :: L) \/ (r.1 <> SUCCESS /\ L `suffix_of` L')).
  Proof.
    unfold create_default_layout. destruct (negb _); [apply tr_ret; right; split; [done|suf]|].
    apply tr_array. intros p Hp. destruct (negb (nd =? 0) && is_null p).
    - apply tr_ret. right. split; [done|suf].
    - apply tr_kr; [kr|]. intros l. apply tr_kr; [apply kr_fill; ins|]. intros _. apply tr_ret. by left.
  Qed.
  Lemma tr_shape L lt dims nd :
    tr L (create_shape lt dims nd) (fun r L' =>
      (r.1.1 = SUCCESS /\ r.1.2 <> HUndef /\ r.2 <> HUndef /\ L' = IM g r.2 :: IM g r.1.2 :: L) \/
      (r.1.1 <> SUCCESS /\ L `suffix_of` L')).
  Proof.
    unfold create_shape. apply tr_array. intros p Hp. destruct (negb (nd =? 0) && is_null p).
    - apply tr_ret. right. split; [done|suf].
    - apply tr_kr; [kr|]. intros l. apply tr_kr; [apply kr_fill; ins|]. intros _.
      eapply tr_bind; [apply tr_layout|]. intros [s m] L'. cbn. intros [(-> & Hm & ->)|(Hs & Hs')]; apply tr_ret; [by left|].
      right. split; [done|]. etrans; [|exact Hs']. suf.
  Qed.
  Lemma tr_storage L dt dev n :
    tr L (create_storage dt dev n HNull) (fun r L' =>
      (r.1 = SUCCESS /\ exists ps px, r.2 = HPtr ps /\ L' = IS ps px :: L) \/ (r.1 <> SUCCESS /\ L `suffix_of` L')).
  Proof.
    unfold create_storage. apply tr_raw_alloc. intros p Hp. destruct p as [|ps|]; [|cbn [is_null]|done].
    { cbn [is_null]. apply tr_ret. right. split; [done|suf]. }
    apply tr_assoc. apply tr_kr; [kr|]. intros z. apply tr_raw_alloc. intros d Hd. destruct d as [|px|]; [|cbn [is_null]|done].
    { cbn [is_null]. apply tr_ret. right. split; [done|suf]. }
    intros s I.
    pose proof (inv_ok _ _ _ _ I _ (elem_of_list_further _ _ _ (elem_of_list_here _ _)) ps (elem_of_list_here _ _)) as [c Hc].
    unfold bind. destruct (set_content (HPtr ps) (CStorage (SI dt dev n (HPtr px))) E s) as [[] s1| | |] eqn:e1;
      unfold set_content, bind, deref in e1; rewrite Hc in e1; try done.
    exists (IS ps px :: L). split; [|left; eauto].
    destruct (tr_done _ _ _ _ _ (kr_set_content E F _ _ _ (or_introl (ex_intro _ g (elem_of_list_further _ _ _ (elem_of_list_here _ _))))) _ _ _ I
      (ltac:(unfold set_content, bind, deref; rewrite Hc; exact e1) : set_content (HPtr ps) (CStorage (SI dt dev n (HPtr px))) E s = Done tt s1)) as (L1 & I1 & ->).
    injection e1 as <-.
    eapply Inv_storage; [|exact I1]. cbn. apply lookup_insert.
  Qed.
  Lemma tr_create L dt dev dims nd len o : tr L (aitisa_create dt dev dims nd HNull len o) (opQ L).
  Proof.
    unfold aitisa_create. apply tr_raw_alloc. intros t Ht. destruct t as [|p|]; [|cbn [is_null]|done].
    { cbn [is_null]. apply tr_ret. fin. }
    apply tr_kr; [kr|]. intros size. apply tr_bret. eapply tr_bind; [apply tr_shape|].
    intros [[s pd] pm] L'. cbn [fst snd]. intros [(-> & Hd & Hm & ->)|(Hs & Hs')].
    2:{ case_on (bool_decide (s = SUCCESS)). apply tr_ret. right. split; [done|]. etrans; [|exact Hs']. suf. }
    rewrite bool_decide_eq_true_2 by done. cbn [negb].
    eapply tr_bind; [apply tr_storage|].
    intros [s st] L'. cbn [fst snd]. intros [(-> & ps & px & -> & ->)|(Hs & Hs')].
    2:{ case_on (bool_decide (s = SUCCESS)). apply tr_ret. right. split; [done|]. etrans; [|exact Hs']. suf. }
    rewrite bool_decide_eq_true_2 by done. cbn [negb].
    intros s I. unfold bind. destruct (set_content (HPtr p) _ E s) as [[] s1|u| |] eqn:e1; try done; cycle 1.
    { intros _ ->. unfold set_content, bind, deref in e1. by destruct (heap s !! p). }
    exists (IT p pd pm ps px :: L). split; [|left; split; [done|by do 5 eexists]].
    set (L0 := IS ps px :: IM g pm :: IM g pd :: IM g (HPtr p) :: L) in *.
    assert (Hin : IM g (HPtr p) ∈ L0) by (unfold L0; mem).
    destruct (tr_done _ _ _ _ _ (kr_set_content E F _ _ _ (or_introl (ex_intro _ g Hin))) _ _ _ I e1) as (L1 & I1 & ->).
    pose proof (inv_ok _ _ _ _ I _ Hin p (elem_of_list_here _ _)) as [c Hc].
    unfold set_content, bind, deref in e1. rewrite Hc in e1. injection e1 as <-.
    eapply Inv_whole; [done|done| |exact I1]. cbn. apply lookup_insert.
  Qed.
End Create.
#[export] Hint Resolve tr_create : tr.

Section Basic.
  Context (E : env) (F : gmap nat block).
  Notation op m := (forall L, tr E F L m (opQ L)).

  Lemma tr_full dt dev dims nd v o : op (aitisa_full dt dev dims nd v o).
  Proof. un aitisa_full. Qed.
  Lemma tr_reshape t dims nd o : op (aitisa_reshape t dims nd o).
  Proof. un aitisa_reshape. Qed.
  Hint Resolve tr_reshape : tr.
  Lemma tr_squeeze t axis n o : op (aitisa_squeeze t axis n o).
  Proof. un aitisa_squeeze. Qed.
  Lemma tr_slice_create t b z st o : op (slice_create_output t b z st o).
  Proof. un slice_create_output. Qed.
  Lemma tr_slice_template t b z st p pd pm ps px L :
    IT p pd pm ps px ∈ L -> tr E F L (slice_template t b z st (HPtr p)) (stQ L).
  Proof. un slice_template. Qed.
  Hint Resolve tr_full tr_reshape tr_squeeze tr_slice_create : tr.
  Hint Extern 1 (tr _ _ _ (slice_template _ _ _ _ _) _) => eapply tr_slice_template; mem : tr.
  Lemma tr_slice t b z st o : op (aitisa_slice t b z st o).
  Proof. un aitisa_slice. Qed.
  Hint Resolve tr_slice : tr.
  Lemma tr_duplicate t o : op (aitisa_duplicate t o).
  Proof. un aitisa_duplicate. Qed.
  Hint Resolve tr_duplicate : tr.

  (** ** src/math *)
  Lemma tr_binary f t1 t2 o : op (aitisa_binary_op f t1 t2 o).
  Proof. un aitisa_binary_op. Qed.
  Lemma tr_add t1 t2 o : op (aitisa_add t1 t2 o). Proof. apply tr_binary. Qed.
  Lemma tr_sub t1 t2 o : op (aitisa_sub t1 t2 o). Proof. apply tr_binary. Qed.
  Lemma tr_mul t1 t2 o : op (aitisa_mul t1 t2 o). Proof. apply tr_binary. Qed.
  Lemma tr_div t1 t2 o : op (aitisa_div t1 t2 o). Proof. apply tr_binary. Qed.
  Lemma tr_sqrt_create t o : op (sqrt_create_output t o).
  Proof. un sqrt_create_output. Qed.
  Hint Resolve tr_sqrt_create tr_add tr_sub tr_mul tr_div : tr.
  Lemma tr_sqrt_kernel c t n p pd pm ps px L :
    IT p pd pm ps px ∈ L -> tr E F L (sqrt_kernel c t (HPtr p) n) (stQ L).
  Proof. un sqrt_kernel. Qed.
  Hint Extern 1 (tr _ _ _ (sqrt_kernel _ _ _ _) _) => eapply tr_sqrt_kernel; mem : tr.
  Lemma tr_sqrt t o : op (aitisa_sqrt t o).
  Proof. un aitisa_sqrt. Qed.
  Hint Resolve tr_sqrt : tr.
End Basic.
#[export] Hint Resolve tr_full tr_reshape tr_squeeze tr_slice tr_duplicate
  tr_binary tr_add tr_sub tr_mul tr_div tr_sqrt : tr.
