(** * ProofHist: what memory looks like after any history *)
From stdpp Require Import gmap list.
From Coq Require Import ZArith Lia Floats.SpecFloat.
From Verif Require Import Base Mem Spec SpecHeap SpecHist ModelCore ModelBasic ModelMath ModelNN.
From Verif Require Import ProofTrace ProofTrace2 ProofTrace3 ProofTrace4 ProofTrace5 ProofTrace6 ProofHeap.
Open Scope Z_scope.

Lemma Inv_combine E F L L' s s' : Inv E F L s -> Inv E (heap s) L' s' -> Inv E F (L' ++ L) s'.
Proof.
  intros [W N O I K] [W' N' O' I' K'].
  assert (D : forall b, b ∈ ids L -> b ∉ ids L').
  { intros b Hb Hb'. destruct (I b Hb) as [_ [x Hx]]. destruct (I' b Hb') as [Hn _]. congruence. }
  split.
  - done.
  - rewrite ids_app. apply NoDup_app. split_and!; [done| |done]. intros b Hb Hb'. by apply (D b).
  - intros b Hb. rewrite ids_app, not_elem_of_app in Hb. destruct Hb. rewrite O' by done. by apply O.
  - intros b Hb. rewrite ids_app, elem_of_app in Hb. destruct Hb as [Hb|Hb].
    + destruct (I' b Hb) as [Hn Hs]. split; [|done]. destruct (decide (b ∈ ids L)) as [Hi|Hi]; [by destruct (I b Hi)|].
      by rewrite <-(O b Hi).
    + destruct (I b Hb) as [Hn Hs]. split; [done|]. rewrite O'; [done|by apply D].
  - intros i Hi. apply elem_of_app in Hi as [Hi|Hi]; [by apply K'|].
    eapply okit_same; [|by apply K]. intros b Hb. apply O'. apply D. apply ids_elem. eauto.
Qed.
Lemma Inv_lost E F l l' L s : l ≡ₚ l' -> Inv E F (IJ l :: L) s -> Inv E F (IJ l' :: L) s.
Proof.
  intros P [W N O I K].
  assert (P2 : ids (IJ l :: L) ≡ₚ ids (IJ l' :: L)) by (rewrite !ids_cons; cbn; by rewrite P).
  split.
  - done.
  - by rewrite <-P2.
  - intros b Hb. apply O. by rewrite P2.
  - intros b Hb. apply I. by rewrite P2.
  - intros i Hi. apply elem_of_cons in Hi as [->|Hi]; [done|]. apply K. by apply elem_of_list_further.
Qed.

(** The items of a client. *)
Definition tensors (V : list nat) (L : list item) : Prop :=
  Forall2 (fun p i => exists pd pm ps px, i = IT p pd pm ps px) V L.
Definition bufs (E : env) (B : list nat) : list item := (fun b => IM (e_alloc E) (HPtr b)) <$> B.
Definition good (c : client) : Prop :=
  hooks_ok (c_env c) /\ exists L, tensors (c_live c) L /\
  Inv (c_env c) ∅ (IJ (elements (c_lost c)) :: L ++ bufs (c_env c) (c_bufs c)) (c_mem c).

Lemma bufs_elem E B b : b ∈ B -> IM (e_alloc E) (HPtr b) ∈ bufs E B.
Proof. intros H. by apply (elem_of_list_fmap_1 (fun b => IM (e_alloc E) (HPtr b))). Qed.
Lemma tensors_elem V L p : tensors V L -> p ∈ V -> exists pd pm ps px, IT p pd pm ps px ∈ L.
Proof.
  intros H Hp. apply elem_of_list_lookup in Hp as [k Hk]. destruct (Forall2_lookup_l _ _ _ _ _ H Hk) as (i & Hi & pd & pm & ps & px & ->).
  exists pd, pm, ps, px. by eapply elem_of_list_lookup_2.
Qed.

Lemma Inv_dom E L s : Inv E ∅ L s -> dom (heap s) = list_to_set (ids L).
Proof.
  intros I. apply set_eq. intros b. rewrite elem_of_dom, elem_of_list_to_set. split.
  - intros Hb. destruct (decide (b ∈ ids L)) as [|n]; [done|]. rewrite (inv_out _ _ _ _ I b n), lookup_empty in Hb. by destruct Hb.
  - intros Hb. apply (inv_in _ _ _ _ I b Hb).
Qed.
Lemma Inv_new E F L s : Inv E F L s -> forall b, b ∈ dom (heap s) ∖ dom F <-> b ∈ ids L.
Proof.
  intros I b. rewrite elem_of_difference, !elem_of_dom. split.
  - intros [Hb Hn]. destruct (decide (b ∈ ids L)) as [|n]; [done|]. rewrite (inv_out _ _ _ _ I b n) in Hb. done.
  - intros Hb. destruct (inv_in _ _ _ _ I b Hb) as [H1 H2]. split; [done|]. rewrite H1. by intros [].
Qed.

Lemma lost_more E X L L' s s' :
  Inv E ∅ (IJ (elements X) :: L) s -> Inv E (heap s) L' s' ->
  Inv E ∅ (IJ (elements (X ∪ (dom (heap s') ∖ dom (heap s)))) :: L) s'.
Proof.
  intros I I'. pose proof (Inv_combine _ _ _ _ _ _ I I') as J.
  apply (Inv_lost _ _ (ids (L' ++ [IJ (elements X)]))).
  - rewrite ids_app. cbn [ids mbind list_bind foot]. rewrite app_nil_r.
    apply NoDup_Permutation.
    + pose proof (inv_nd _ _ _ _ J) as N. rewrite ids_app, ids_cons in N. cbn [foot] in N. rewrite app_assoc in N.
      by apply NoDup_app in N as (N & _ & _).
    + apply NoDup_elements.
    + intros b. rewrite elem_of_app, elem_of_elements, elem_of_elements, elem_of_union, (Inv_new _ _ _ _ I'). tauto.
  - apply Inv_junk. by rewrite <-app_assoc.
Qed.

Lemma tensors_cons V L p pd pm ps px : tensors V L -> tensors (p :: V) (IT p pd pm ps px :: L).
Proof. intros H. constructor; [eauto|done]. Qed.

#[local] Hint Extern 1 (tr _ _ _ (cast_template _ _ _) _) => eapply tr_cast_template; mem : tr.
Lemma run_success_inv E s x o p s' :
  wf s -> ~ self_cast x E s ->
  (forall dt dev dims n l b, x = OCreate dt dev dims n b l -> b = HNull) ->
  run_op x o E s = Done (SUCCESS, HPtr p) s' ->
  exists pd pm ps px, Inv E (heap s) [IT p pd pm ps px] s'.
Proof.
  intros W Hc Hx e.
  assert (G : forall m, tr E (heap s) [] m (opQ []) -> m E s = Done (SUCCESS, HPtr p) s' -> exists pd pm ps px, Inv E (heap s) [IT p pd pm ps px] s').
  { intros m H e'. destruct (tr_done _ _ _ _ _ H _ _ _ (Inv_start E s W) e') as (L' & I & [(_ & q & pd & pm & ps & px & e1 & ->)|[Hn _]]); [|done].
    cbn in e1. injection e1 as <-. eauto. }
  destruct x; cbn [run_op] in e.
  all: try (eapply G; [|exact e]; op_rule).
  - rewrite (Hx _ _ _ _ _ _ eq_refl) in e. eapply G; [|exact e]. apply tr_create.
  - unfold aitisa_cast, bind at 1 in e. destruct (tensor_dtype t E s) as [d s1| | |] eqn:ed; try done.
    apply dtype_pure in ed as e1. subst s1. destruct (Z.eqb_spec (d_code d) (d_code dt)) as [He|He].
    + destruct Hc. by exists t, dt, d.
    + eapply G; [|exact e]. clear -He. ts.
  - destruct (tr_done _ _ _ _ _ (tr_conv E (heap s) t filter stride padding dilation groups o []) _ _ _ (Inv_start E s W) e) as (L' & I & [(q & pd & pm & ps & px & e1 & ->)|[Hn _]]); [|done].
    injection e1 as <-. eauto.
  - destruct (tr_done _ _ _ _ _ (tr_conv2d E (heap s) t filter stride padding dilation groups o []) _ _ _ (Inv_start E s W) e) as (L' & I & [(q & pd & pm & ps & px & e1 & ->)|[Hn _]]); [|done].
    injection e1 as <-. eauto.
  - destruct (tr_done _ _ _ _ _ (tr_conv3d E (heap s) t filter stride padding dilation groups o []) _ _ _ (Inv_start E s W) e) as (L' & I & [(q & pd & pm & ps & px & e1 & ->)|[Hn _]]); [|done].
    injection e1 as <-. eauto.
Qed.

Lemma Inv_wf0 E F L s : Inv E F L s -> wf s. Proof. by intros []. Qed.

Lemma run_success_over E s dt dev dims nd b len o p s' L :
  aitisa_create dt dev dims nd (HPtr b) len o E s = Done (SUCCESS, HPtr p) s' ->
  Inv E ∅ (IM (e_alloc E) (HPtr b) :: L) s -> exists pd pm ps px, Inv E ∅ (IT p pd pm ps px :: L) s'.
Proof.
  intros e I. pose proof (Inv_wf0 _ _ _ _ I) as W.
  destruct (create_over_raw _ _ _ _ _ _ _ _ _ _ _ W e) as (p' & pd & pm & ps & sz & off & n & lt & dt' & dev' & m & e1 & Hd & Hm & J & K3 & K4).
  injection e1 as <-.
  destruct (inv_ok _ _ _ _ I _ (elem_of_list_here _ _) b (elem_of_list_here _ _)) as [c Hb].
  assert (Tb : b_tag <$> heap s !! b = Some (e_alloc E)) by by rewrite Hb.
  pose proof (create_over_inv _ _ _ _ _ _ _ _ _ _ _ _ _ _ _ Hd Hm J K3 K4 Tb) as J2.
  apply Inv_free in I. exists pd, pm, ps, b. exact (Inv_combine _ _ _ [_] _ _ I J2).
Qed.

Lemma filter_perm (b : nat) (B : list nat) : NoDup B -> b ∈ B -> B ≡ₚ b :: filter (fun x => x ∉ [b]) B.
Proof.
  intros N Hb. induction B as [|a B IH]; [by apply elem_of_nil in Hb|]. apply NoDup_cons in N as [Hn N]. rewrite filter_cons.
  apply elem_of_cons in Hb as [->|Hb].
  - rewrite decide_False by (rewrite elem_of_list_singleton; tauto).
    assert (filter (fun x => x ∉ [a]) B = B) as ->; [|done].
    clear -Hn. induction B as [|x B IH]; [done|]. rewrite not_elem_of_cons in Hn. rewrite filter_cons, decide_True, IH by (try rewrite elem_of_list_singleton; naive_solver). done.
  - rewrite decide_True by (rewrite elem_of_list_singleton; intros ->; done). rewrite (IH N Hb) at 1. apply Permutation_swap.
Qed.
Lemma filter_nil (B : list nat) : filter (fun x => x ∉ []) B = B.
Proof. induction B as [|x B IH]; [done|]. rewrite filter_cons, decide_True, IH; [done|apply not_elem_of_nil]. Qed.
Lemma ids_bufs E B : ids (bufs E B) = B.
Proof. induction B as [|b B IH]; [done|]. change (bufs E (b :: B)) with (IM (e_alloc E) (HPtr b) :: bufs E B). rewrite ids_cons, IH. done. Qed.
Lemma bufs_nodup E F i L B s : Inv E F (i :: L ++ bufs E B) s -> NoDup B.
Proof.
  intros I. pose proof (inv_nd _ _ _ _ I) as N. rewrite ids_cons, ids_app, ids_bufs in N.
  apply NoDup_app in N as (_ & _ & N). by apply NoDup_app in N as (_ & _ & N).
Qed.
#[export] Instance bufs_proper E : Proper ((≡ₚ) ==> (≡ₚ)) (bufs E).
Proof. intros B B' P. unfold bufs. by rewrite P. Qed.

Lemma parts_item tag h p pd pm ps px : okit tag h (IT p pd pm ps px) -> parts h p ≡ₚ foot (IT p pd pm ps px).
Proof.
  intros (_ & _ & (sz & off & nd & lt & K3) & (dt & dev & n & K4) & _). unfold parts. rewrite K3.
  cbn [fmap option_fmap option_map b_content t_storage t_dims t_min2maj]. rewrite K4. cbn [fmap option_fmap option_map b_content s_data ptr_id foot].
  change (ptr_id pd) with (ids1 pd). change (ptr_id pm) with (ids1 pm). solve_Permutation.
Qed.

Lemma step_good c c' : good c -> step c c' -> good c'.
Proof.
  intros (Hk & L & HL & I) Hs. destruct Hs; cbn [c_env c_live c_bufs c_lost c_mem] in *.
  - (* a new tensor *)
    split; [done|].
    assert (C : (forall dt dev dims n l b, x = OCreate dt dev dims n b l -> b = HNull) \/
                exists dt dev dims n l b, x = OCreate dt dev dims n (HPtr b) l /\ b ∈ B).
    { destruct x; try (left; intros; discriminate). destruct H as [->|(b & -> & Hb)].
      - left. by intros ?????? [= -> -> -> -> <- ->].
      - right. by exists dt, dev, dims, ndim, len, b. }
    destruct C as [C|(dt & dev & dims & n & l & b & -> & Hb)].
    + destruct (run_success_inv _ _ _ _ _ _ (Inv_wf0 _ _ _ _ I) H0 C H1) as (pd & pm & ps & px & J).
      assert (Eh : handed x = []). { destruct x; try done. cbn. by rewrite (C _ _ _ _ _ _ eq_refl). }
      rewrite Eh, filter_nil. exists (IT p pd pm ps px :: L). split; [by apply tensors_cons|].
      pose proof (Inv_combine _ _ _ _ _ _ I J) as K. eapply Inv_perm; [|exact K]. cbn. apply Permutation_swap.
    + cbn [handed ptr_id run_op] in *.
      assert (P : bufs E B ≡ₚ IM (e_alloc E) (HPtr b) :: bufs E (filter (fun x => x ∉ [b]) B)).
      { rewrite (filter_perm b B) at 1; [done| |done]. by eapply bufs_nodup. }
      destruct (run_success_over _ _ _ _ _ _ _ _ _ _ _ (IJ (elements X) :: L ++ bufs E (filter (fun x => x ∉ [b]) B)) H1) as (pd & pm & ps & px & J).
      { eapply Inv_perm; [|exact I]. rewrite P. solve_Permutation. }
      exists (IT p pd pm ps px :: L). split; [by apply tensors_cons|].
      eapply Inv_perm; [|exact J]. cbn. apply Permutation_swap.
  - (* cast to the same type *)
    destruct H as (t & dt & d & -> & e1 & e2). cbn [run_op] in H0. unfold aitisa_cast, bind at 1 in H0. rewrite e1 in H0.
    rewrite (proj2 (Z.eqb_eq _ _) e2) in H0. injection H0 as <- <-. split; [done|]. eauto.
  - (* failure *)
    split; [done|]. exists L. split; [done|].
    destruct (tr_done _ _ _ _ _ (run_frame x o E (heap s)) _ _ _ (Inv_start E s (Inv_wf0 _ _ _ _ I)) H0) as (L' & J & _).
    by eapply lost_more.
  - (* question *)
    rewrite (query_pure q E s a s' H). split; [done|]. eauto.
  - (* destroy *)
    split; [done|]. apply Forall2_app_inv_l in HL as (L1 & L2' & H1 & H2 & ->).
    apply Forall2_cons_inv_l in H2 as (i & L2 & (pd & pm & ps & px & ->) & H2 & ->).
    assert (J : Inv E ∅ (IT p pd pm ps px :: IJ (elements X) :: (L1 ++ L2) ++ bufs E B) s).
    { eapply Inv_perm; [|exact I]. solve_Permutation. }
    apply destroy_eval in J as [_ J]. destruct (J _ _ H) as [_ J2]. exists (L1 ++ L2). split; [by apply Forall2_app|done].
  - injection H as <- <-. split; [done|]. eauto.
  - (* writing elements *)
    split; [done|]. exists L. split; [done|].
    destruct (tensors_elem _ _ _ HL H) as (pd & pm & ps & px' & Hi).
    assert (Hi' : IT p pd pm ps px' ∈ IJ (elements X) :: L ++ bufs E B).
    { apply elem_of_list_further, elem_of_app. by left. }
    pose proof (inv_ok _ _ _ _ I _ Hi') as (_ & _ & (sz & off & nd & lt & K3) & (dt & dev & n & K4) & _).
    assert (px = px') as ->.
    { unfold tensor_data, tensor_storage, get_timpl, get_simpl, bind, deref in H0. rewrite K3 in H0. cbn in H0. rewrite K4 in H0. cbn in H0. unfold ret in H0. congruence. }
    destruct (tr_done _ _ _ _ _ (kr_set_content E ∅ (IJ (elements X) :: L ++ bufs E B) (HPtr px') (CData bytes)
      (ltac:(right; do 5 eexists; split; [reflexivity|exact Hi']))) _ _ _ I H1) as (L1 & I1 & ->). done.
  - (* a new buffer *)
    split; [done|]. exists L. split; [done|].
    assert (T : tr E (heap s) [] (let* p := raw_alloc n c in ret p) (fun p L' => L' = [IM (e_alloc E) p])).
    { apply tr_raw_alloc. intros p Hp. by apply tr_ret. }
    assert (e : (let* p := raw_alloc n c in ret p) E s = Done (HPtr b) s') by (unfold bind; by rewrite H).
    destruct (tr_done _ _ _ _ _ T _ _ _ (Inv_start E s (Inv_wf0 _ _ _ _ I)) e) as (L' & J & ->).
    pose proof (Inv_combine _ _ _ _ _ _ I J) as K. eapply Inv_perm; [|exact K].
    change (bufs E (b :: B)) with (IM (e_alloc E) (HPtr b) :: bufs E B). solve_Permutation.
  - (* writing to a buffer *)
    split; [done|]. exists L. split; [done|].
    assert (Hi : IM (e_alloc E) (HPtr b) ∈ IJ (elements X) :: L ++ bufs E B).
    { apply elem_of_list_further, elem_of_app. right. by apply bufs_elem. }
    destruct (tr_done _ _ _ _ _ (kr_set_content E ∅ (IJ (elements X) :: L ++ bufs E B) (HPtr b) (CData bytes)
      (ltac:(left; eexists; exact Hi))) _ _ _ I H0) as (L1 & I1 & ->). done.
  - (* releasing a buffer *)
    split; [done|]. exists L. split; [done|].
    assert (J : Inv E ∅ (IM (e_alloc E) (HPtr b) :: IJ (elements X) :: L ++ bufs E (B1 ++ B2)) s).
    { eapply Inv_perm; [|exact I]. unfold bufs. rewrite !fmap_app, fmap_cons. solve_Permutation. }
    destruct (inv_ok _ _ _ _ J _ (elem_of_list_here _ _) b (elem_of_list_here _ _)) as [c Hb].
    apply Inv_free in J. unfold raw_dealloc, free_tag in H. rewrite Hb in H. cbn [b_tag] in H.
    destruct (bool_decide _); [|done]. by injection H as <-.
  - (* a forgotten tensor *)
    split; [done|]. apply Forall2_app_inv_l in HL as (L1 & L2' & H1 & H2 & ->).
    apply Forall2_cons_inv_l in H2 as (i & L2 & (pd & pm & ps & px & ->) & H2 & ->).
    exists (L1 ++ L2). split; [by apply Forall2_app|].
    assert (J : Inv E ∅ ([IT p pd pm ps px; IJ (elements X)] ++ (L1 ++ L2) ++ bufs E B) s).
    { eapply Inv_perm; [|exact I]. solve_Permutation. }
    pose proof (parts_item _ _ _ _ _ _ _ (inv_ok _ _ _ _ J _ (elem_of_list_here _ _))) as P.
    pose proof (inv_nd _ _ _ _ J) as N. rewrite ids_app in N. apply NoDup_app in N as (N & _ & _).
    apply Inv_junk in J. eapply Inv_lost; [|exact J].
    apply NoDup_Permutation; [done|apply NoDup_elements|]. intros b.
    cbn [c_lost]. rewrite elem_of_elements, elem_of_union, elem_of_list_to_set, P, !ids_cons, !elem_of_app.
    change (ids []) with (@nil nat). cbn [foot]. rewrite elem_of_elements, elem_of_nil. tauto.
  - (* other hooks *)
    split; [done|]. apply Forall2_nil_inv_l in HL as ->. exists []. split; [constructor|]. cbn [app] in *.
    destruct I as [W N O I K]. split; [done|done|done|done|]. intros i Hi. apply elem_of_list_singleton in Hi as ->. done.
Qed.

Lemma reachable_good c : reachable c -> good c.
Proof.
  intros (E & Hk & H). assert (G : good (Client E [] [] ∅ (St ∅ 0 0))).
  { split; [done|]. exists []. split; [constructor|]. cbn [app bufs fmap list_fmap c_lost c_mem c_env]. rewrite elements_empty.
    split; cbn [heap ctr].
    - intros b [x Hx]. cbn in Hx. by rewrite lookup_empty in Hx.
    - constructor.
    - done.
    - intros b Hb. by apply elem_of_nil in Hb.
    - intros i Hi. by apply elem_of_list_singleton in Hi as ->. }
  revert G. induction H as [c|c c1 c2 S _ IH]; [done|]. intros G. apply IH. by eapply step_good.
Qed.

Lemma parts_items tag h V L : tensors V L -> (forall i, i ∈ L -> okit tag h i) -> V ≫= parts h ≡ₚ ids L.
Proof.
  intros H. induction H as [|p i V L (pd & pm & ps & px & ->) _ IH]; intros K; [done|].
  rewrite ids_cons. change ((p :: V) ≫= parts h) with (parts h p ++ (V ≫= parts h)). rewrite IH.
  - rewrite parts_item; [done|]. apply K. apply elem_of_list_here.
  - intros i Hi. apply K. by apply elem_of_list_further.
Qed.

Lemma item_tags E h i b : okit (e_alloc E) h i -> (forall g p, i = IM g p -> g = e_alloc E) -> (forall l, i <> IJ l) ->
  b ∈ foot i -> b_tag <$> h !! b = Some (e_alloc E).
Proof.
  intros K Hg Hj Hb. destruct i as [g p|p pd pm ps px|ps px|l].
  - destruct (K b Hb) as [c Hc]. rewrite Hc. cbn. by rewrite (Hg _ _ eq_refl).
  - destruct K as (_ & _ & (sz & off & nd & lt & K3) & (dt & dev & n & K4) & K5). cbn [foot] in Hb.
    apply elem_of_cons in Hb as [->|Hb]; [by rewrite K3|]. apply elem_of_cons in Hb as [->|Hb]; [by rewrite K4|].
    destruct (K5 b Hb) as [c Hc]. by rewrite Hc.
  - destruct K as ((dt & dev & n & K4) & c & K5). cbn [foot] in Hb.
    apply elem_of_cons in Hb as [->|Hb]; [by rewrite K4|]. apply elem_of_list_singleton in Hb as ->. by rewrite K5.
  - by destruct (Hj l).
Qed.

Lemma history_memory c : reachable c ->
  NoDup (owned c) /\
  (forall b, is_Some (heap (c_mem c) !! b) <-> b ∈ owned c \/ b ∈ c_lost c) /\
  (forall b, b ∈ owned c -> b ∉ c_lost c /\ b_tag <$> heap (c_mem c) !! b = Some (e_alloc (c_env c))).
Proof.
  intros R. destruct (reachable_good c R) as (Hk & L & HL & I). destruct c as [E V B X s]. unfold owned. cbn [c_env c_live c_bufs c_lost c_mem] in *.
  assert (P : (V ≫= parts (heap s)) ++ B ≡ₚ ids (L ++ bufs E B)).
  { rewrite ids_app, ids_bufs. rewrite (parts_items (e_alloc E) (heap s) V L); [done|done|]. intros i Hi. apply (inv_ok _ _ _ _ I).
    apply elem_of_list_further, elem_of_app. by left. }
  pose proof (inv_nd _ _ _ _ I) as N. rewrite ids_cons in N. cbn [foot] in N. apply NoDup_app in N as (_ & N1 & N2).
  split; [by rewrite P|]. split.
  - intros b. rewrite P. pose proof (Inv_dom _ _ _ I) as D. rewrite <-elem_of_dom, D, elem_of_list_to_set, ids_cons, elem_of_app. cbn [foot].
    rewrite elem_of_elements. tauto.
  - intros b Hb. rewrite P in Hb. split.
    + intros Hx. apply (N1 b); [by apply elem_of_elements|done].
    + apply ids_elem in Hb as (i & Hi & Hb). eapply item_tags; [| | |exact Hb].
      * apply (inv_ok _ _ _ _ I). by apply elem_of_list_further.
      * intros g p ->. apply elem_of_app in Hi as [Hi|Hi].
        -- apply elem_of_list_lookup in Hi as [k Hi]. by destruct (Forall2_lookup_r _ _ _ _ _ HL Hi) as (q & _ & pd & pm & ps & px & ?).
        -- unfold bufs in Hi. apply elem_of_list_fmap in Hi as (y & [= -> ->] & _). done.
      * intros l ->. apply elem_of_app in Hi as [Hi|Hi].
        -- apply elem_of_list_lookup in Hi as [k Hi]. by destruct (Forall2_lookup_r _ _ _ _ _ HL Hi) as (q & _ & pd & pm & ps & px & ?).
        -- unfold bufs in Hi. by apply elem_of_list_fmap in Hi as (y & ? & _).
Qed.

Lemma run_no_bad_free E s x o : wf s -> hooks_ok E -> run_op x o E s <> UB UB_free.
Proof. intros W Hk. exact (tr_free _ _ _ _ _ (run_frame x o E (heap s)) s (Inv_start E s W) Hk). Qed.

Definition rest (l : list nat) (h : gmap nat block) : gmap nat block := filter (fun kv => kv.1 ∉ l) h.
Lemma Inv_only E F i L s : Inv E F (i :: L) s -> Inv E (rest (foot i) (heap s)) [i] s.
Proof.
  intros [W N O I K]. rewrite ids_cons in *. split.
  - done.
  - cbn. rewrite app_nil_r. by apply NoDup_app in N as (N & _ & _).
  - intros b Hb. cbn in Hb. rewrite app_nil_r in Hb. unfold rest. destruct (heap s !! b) as [x|] eqn:e; symmetry.
    + by apply map_filter_lookup_Some.
    + apply map_filter_lookup_None. by left.
  - intros b Hb. cbn in Hb. rewrite app_nil_r in Hb. split.
    + apply map_filter_lookup_None. right. intros x _ Hn. by apply Hn.
    + apply I. apply elem_of_app. by left.
  - intros j Hj. apply elem_of_list_singleton in Hj as ->. apply K. apply elem_of_list_here.
Qed.

Lemma history_release c : reachable c ->
  (forall x o, run_op x o (c_env c) (c_mem c) <> UB UB_free) /\
  (forall p, p ∈ c_live c -> exists s', aitisa_destroy (HPtr p) (c_env c) (c_mem c) = Done (SUCCESS, HNull) s' /\
     forall b, heap s' !! b = if decide (b ∈ parts (heap (c_mem c)) p) then None else heap (c_mem c) !! b) /\
  (forall b, b ∈ c_bufs c -> exists s', raw_dealloc (HPtr b) (c_env c) (c_mem c) = Done tt s').
Proof.
  intros R. destruct (reachable_good c R) as (Hk & L & HL & I). destruct c as [E V B X s]. cbn [c_env c_live c_bufs c_lost c_mem] in *.
  split_and!.
  - intros x o. apply run_no_bad_free; [by eapply Inv_wf0|done].
  - intros p Hp. destruct (tensors_elem _ _ _ HL Hp) as (pd & pm & ps & px & Hi).
    assert (Hi' : IT p pd pm ps px ∈ IJ (elements X) :: L ++ bufs E B) by (apply elem_of_list_further, elem_of_app; by left).
    pose proof (parts_item _ _ _ _ _ _ _ (inv_ok _ _ _ _ I _ Hi')) as P.
    destruct (proj1 (elem_of_Permutation _ _) Hi') as [L' PL].
    assert (J : Inv E ∅ (IT p pd pm ps px :: L') s) by (eapply Inv_perm; [exact PL|exact I] || (eapply Inv_perm; [symmetry; exact PL|exact I])).
    pose proof (destroy_eval _ _ _ _ _ _ _ _ _ (Inv_only _ _ _ _ _ J)) as [J1 J2]. destruct (J1 Hk) as [s' e]. exists s'. split; [done|].
    destruct (J2 _ _ e) as [_ J3]. intros b. rewrite (inv_out _ _ _ _ J3) by apply not_elem_of_nil. unfold rest.
    destruct (decide (b ∈ parts (heap s) p)) as [Hb|Hb]; rewrite P in Hb.
    + apply map_filter_lookup_None. right. intros x _ Hn. by apply Hn.
    + destruct (heap s !! b) as [x|] eqn:eb; [|apply map_filter_lookup_None; by left].
      by apply map_filter_lookup_Some.
  - intros b Hb. assert (Hi : IM (e_alloc E) (HPtr b) ∈ IJ (elements X) :: L ++ bufs E B).
    { apply elem_of_list_further, elem_of_app. right. by apply bufs_elem. }
    destruct (inv_ok _ _ _ _ I _ Hi b (elem_of_list_here _ _)) as [c Hc]. eexists.
    unfold raw_dealloc, free_tag. rewrite Hc. cbn [b_tag]. rewrite bool_decide_eq_true_2 by (symmetry; exact Hk). reflexivity.
Qed.
