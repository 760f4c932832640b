(** * ProofHist2: destroying a tensor under hooks that did not allocate it *)
From stdpp Require Import gmap list.
From Coq Require Import ZArith.
From Verif Require Import Base Mem Spec SpecHeap SpecHist ModelCore ModelBasic ModelMath ModelNN ProofTrace ProofHist.
Open Scope Z_scope.

Lemma wrong_free g E s b c : heap s !! b = Some (Blk g c) -> e_dealloc E <> g -> raw_dealloc (HPtr b) E s = UB UB_free.
Proof.
  intros Hb Hg. unfold raw_dealloc, free_tag. rewrite Hb. cbn [b_tag]. rewrite bool_decide_eq_false_2 by congruence. done.
Qed.
Lemma wrong_destroy g E s p pd pm ps px : okit g (heap s) (IT p pd pm ps px) -> e_dealloc E <> g ->
  aitisa_destroy (HPtr p) E s = UB UB_free.
Proof.
  intros (H1 & H2 & (sz & off & nd & lt & K3) & (dt & dev & n & K4) & K5) Hg.
  unfold aitisa_destroy, get_timpl, get_simpl, deref, destroy_shape, destroy_layout, destroy_storage, bind. cbn [is_null].
  rewrite K3. cbn [b_content ret t_dims t_min2maj t_storage]. unfold ret. cbn [t_dims t_min2maj t_storage].
  destruct pd as [|d|]; [| |done]; cbn [is_null].
  - destruct pm as [|m|]; [| |done]; cbn [is_null].
    + cbv beta iota. cbn [is_null t_storage]. unfold get_simpl, deref, bind. rewrite K4. unfold ret. cbn [b_content s_data is_null]. cbv beta iota. cbn [s_data is_null]. cbv beta iota.
      destruct (K5 px (elem_of_list_here _ _)) as [c Hc]. by rewrite (wrong_free _ _ _ _ _ Hc).
    + destruct (K5 m) as [c Hc]; [apply elem_of_list_further; cbn; apply elem_of_list_here|]. by rewrite (wrong_free _ _ _ _ _ Hc).
  - destruct (K5 d) as [c Hc]; [apply elem_of_list_further; cbn; apply elem_of_list_here|]. by rewrite (wrong_free _ _ _ _ _ Hc).
Qed.
Lemma history_wrong c E : reachable c -> e_dealloc E <> e_alloc (c_env c) ->
  (forall p, p ∈ c_live c -> aitisa_destroy (HPtr p) E (c_mem c) = UB UB_free) /\
  (forall b, b ∈ c_bufs c -> raw_dealloc (HPtr b) E (c_mem c) = UB UB_free).
Proof.
  intros R HE. destruct (reachable_good c R) as (Hk & L & HL & I). destruct c as [E' V B X s]. cbn [c_env c_live c_bufs c_lost c_mem] in *.
  split.
  - intros p Hp. destruct (tensors_elem _ _ _ HL Hp) as (pd & pm & ps & px & Hi).
    assert (Hi' : IT p pd pm ps px ∈ IJ (elements X) :: L ++ bufs E' B) by (apply elem_of_list_further, elem_of_app; by left).
    eapply wrong_destroy; [exact (inv_ok _ _ _ _ I _ Hi')|done].
  - intros b Hb. assert (Hi : IM (e_alloc E') (HPtr b) ∈ IJ (elements X) :: L ++ bufs E' B).
    { apply elem_of_list_further, elem_of_app. right. by apply bufs_elem. }
    destruct (inv_ok _ _ _ _ I _ Hi b (elem_of_list_here _ _)) as [c Hc]. by eapply wrong_free.
Qed.
