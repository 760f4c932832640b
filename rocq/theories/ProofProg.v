(** * ProofProg: programs over tensor variables refine their specification *)
From stdpp Require Import gmap list.
From Coq Require Import ZArith Lia Floats.SpecFloat.
From Verif Require Import Base Mem Spec SpecReal SpecNN SpecNorm SpecHeap SpecHist SpecProg ModelCore ModelBasic ModelMath ModelNN.
From Verif Require Import Logic ProofCore ProofCore2 ProofCore3 ProofHeap ProofHist ProofQuiet.
From Verif Require Import PropCore PropBasic PropBasic2 PropMath PropMath2 PropDot PropNN PropPool PropConv PropNorm.
Open Scope Z_scope.

Section prog.
Context (E : env) (HE : alloc_all E) (HK : hooks_ok E) (HR : rand_ok E).

Lemma enough m s o T k : makes_or_nomem_k m E s o T k -> makes_k m E s T k.
Proof using HE. by intros [H|[H _]]. Qed.

(** The handles [h] lead to the values [A]. *)
Definition stands (A : vars) (h : nat -> hval) (s : st) : Prop :=
  forall x T, A !! x = Some T -> exists p, h x = HPtr p /\ holds (heap s) p T.

Lemma gives_makes A r h s c T k o :
  wf s -> rpos s = r -> stands A h s -> gives E A r c T k ->
  exists T', gives E A r c T' k /\ makes_k (run_op (inst h c) o) E s T' k.
Proof using HE HK HR.
  intros W R S G.
  assert (L : forall x T, A !! x = Some T -> exists p, h x = HPtr p /\ holds (heap s) p T) by exact S.
  destruct G; repeat match goal with H : A !! ?x = Some ?T |- _ =>
    lazymatch goal with H' : h x = HPtr _ |- _ => fail | _ => destruct (L _ _ H) as (?p & ?Hp & ?Hh) end end;
  cbn [inst run_op];
  repeat match goal with H : h ?x = HPtr _ |- context [h ?x] => rewrite H end.
  all: try (match goal with P : pair_ok _ _ |- _ => pose proof P as (?Pt & ?Pd1 & ?Pd2) end).
  all: try (match goal with P : like _ _ |- _ => pose proof P as (?Lv & ?Lt & ?Ld) end).
  - eexists. split; [by constructor|]. by apply C01_create_fresh.
  - eexists. split; [by econstructor|]. apply (enough _ _ o). by apply C15_full.
  - eexists. split; [by econstructor|]. apply (enough _ _ o). by apply C16_cast.
  - eexists. split; [by econstructor|]. apply (enough _ _ o). by apply C19_reshape.
  - eexists. split; [by econstructor|]. apply (enough _ _ o). by apply C20_squeeze_all.
  - eexists. split; [by econstructor|]. apply (enough _ _ o). by apply C21_squeeze_named.
  - eexists. split; [by econstructor|]. by apply C22_slice.
  - eexists. split; [by econstructor|]. by apply C25_duplicate.
  - destruct (C26_arithmetic op p0 p T1 T2 o E s) as (ws' & K1 & K2); [done..|]. eexists. split; [|exact K2]. by eapply g_binary.
  - destruct (C29_sqrt p T o E s) as (ws' & K1 & K2); [done..|]. eexists. split; [|apply (enough _ _ o); exact K2]. by eapply g_sqrt.
  - exists T3. split; [by eapply g_matmul|]. apply (enough _ _ o). destruct H4.
    + by eapply C31_vector_vector.
    + by eapply C31_matrix_vector.
    + by eapply C31_vector_matrix.
    + by eapply C31_matrix_matrix.
  - exists T3. split; [by eapply g_matmul_batch|]. destruct H6.
    + by eapply C32_batch_matrix.
    + by eapply C32_batch_vector.
    + by eapply C32_vector_batch.
  - eexists. split; [by eapply g_dot_vv|]. apply (enough _ _ o). by eapply C34_vectors.
  - exists T3. split; [by eapply g_dot_mm|]. unfold makes_k. setoid_rewrite (C34_matrices p0 p T1 T2 o E s); [|done..].
    change (makes (aitisa_matmul (HPtr p0) (HPtr p) o) E s T3). apply (enough _ _ o). destruct H6.
    + by eapply C31_vector_vector.
    + by eapply C31_matrix_vector.
    + by eapply C31_vector_matrix.
    + by eapply C31_matrix_matrix.
  - exists T3. split; [by eapply g_dot_tv|]. by eapply C35_tensor_vector.
  - exists T3. split; [by eapply g_dot_tt|]. by eapply C35_tensor_tensor.
  - destruct (C36_left_partial p0 p T1 T2 o E s) with (v := v) as (ws' & K1 & K2); [done..|]. eexists. split; [|exact K2]. by eapply g_dot_left.
  - destruct (C36_right_partial p0 p T1 T2 o E s) with (v := v) as (ws' & K1 & K2); [done..|]. eexists. split; [|exact K2]. by eapply g_dot_right.
  - eexists. split; [by econstructor|]. apply (enough _ _ o). by apply C37_relu.
  - eexists. split; [by econstructor|]. apply (enough _ _ o). by apply C38_sigmoid.
  - eexists. split; [by econstructor|]. apply (enough _ _ o). by apply C38_tanh.
  - eexists. split; [by econstructor|]. by apply C39_all.
  - exists T3. split; [by econstructor|]. by eapply C39_axis.
  - exists T'. split; [by econstructor|]. apply C40_dropout; try done. unfold draw. by rewrite R.
  - exists T3. split; [by econstructor|]. destruct H0 as [->| ->].
    + by eapply C41_average.
    + by eapply C42_computes.
  - exists T3. split; [by apply (g_conv E A r c x f T F T3 nb nc oc fc sd ks ss ps ls g)|].
    assert (K : makes (aitisa_conv (h x) (h f) ss ps ls g o) E s T3).
    { rewrite Hp, Hp0. unfold makes, makes_k. rewrite <-H2. eapply C44_convolution; try done. congruence. }
    destruct H1 as [->|[[-> Hl]|[-> Hl]]]; cbn [inst run_op]; [done|..].
    + unfold makes_k. rewrite Hp0. setoid_rewrite (C44_2d p0 T _ _ _ _ _ o E s Hh0). rewrite decide_True by done. by rewrite <-Hp0.
    + unfold makes_k. rewrite Hp0. setoid_rewrite (C44_3d p0 T _ _ _ _ _ o E s Hh0). rewrite decide_True by done. by rewrite <-Hp0.
  - exists T3. split; [by econstructor|]. by eapply C46_batch_norm.
Qed.

Lemma refused_runs A h s c st o :
  stands A h s -> refused A c st -> run_op (inst h c) o E s = Done (st, o) s.
Proof using Type.
  intros S G.
  assert (L : forall x T, A !! x = Some T -> exists p, h x = HPtr p /\ holds (heap s) p T) by exact S.
  destruct G; repeat match goal with H : A !! ?x = Some ?T |- _ =>
    lazymatch goal with H' : h x = HPtr _ |- _ => fail | _ => destruct (L _ _ H) as (?p & ?Hp & ?Hh) end end;
  cbn [inst run_op];
  repeat match goal with H : h ?x = HPtr _ |- context [h ?x] => rewrite H end.
  all: try (match goal with P : pair_ok _ _ |- _ => pose proof P as (?Pt & ?Pd1 & ?Pd2) end).
  - unfold aitisa_cast. pose proof Hh as (_ & ? & ? & ? & Hv & _). erewrite bind_done by (by eapply tensor_dtype_ok).
    by rewrite Z.eqb_refl.
  - by eapply C19_mismatch.
  - by eapply C21_negative_axis.
  - by eapply C23_slice_rejects.
  - by eapply C27_not_cpu.
  - by eapply C27_type_mismatch.
  - by eapply C27_dims_mismatch.
  - by eapply C33_not_cpu_partial.
  - by eapply C33_scalar_partial.
  - by eapply C31_mismatch.
  - by eapply C34_types.
  - by eapply C34_vectors_mismatch.
  - by eapply C35_tensor_vector_mismatch.
  - by eapply (C35_tensor_tensor_mismatch p0 p T1 T2 o E s b1 b2 k1 k2 n).
  - by eapply C35_other_ranks.
  - by eapply C39_other_axes.
  - by eapply C40_rate_rejected.
  - by eapply C41_rank.
  - by eapply C44_types.
  - rewrite (C44_2d p0 T) by done. by rewrite decide_False.
  - rewrite (C44_3d p0 T) by done. by rewrite decide_False.
  - by eapply C46_rejects.
Qed.

Lemma fails_runs A h s c st o :
  wf s -> stands A h s -> fails E A c st ->
  st <> SUCCESS /\ exists v s', run_op (inst h c) o E s = Done (st, v) s' /\ rpos s' = rpos s.
Proof using HE HK.
  intros W S G.
  assert (L : forall x T, A !! x = Some T -> exists p, h x = HPtr p /\ holds (heap s) p T) by exact S.
  assert (Q : (forall t d, inst h c <> ODropout t d)) by (by destruct G).
  assert (G' : st <> SUCCESS /\ exists v s', run_op (inst h c) o E s = Done (st, v) s').
  2:{ destruct G' as (H1 & v & s' & H2). split; [done|]. exists v, s'. split; [done|]. by eapply run_quiet. }
  clear Q. destruct G; (split; [done|]); repeat match goal with H : A !! ?x = Some ?T |- _ =>
    lazymatch goal with H' : h x = HPtr _ |- _ => fail | _ => destruct (L _ _ H) as (?p & ?Hp & ?Hh) end end;
  cbn [inst run_op];
  repeat match goal with H : h ?x = HPtr _ |- context [h ?x] => rewrite H end.
  - destruct (C29_negative p T o E s) as ([a v] & s' & e & _ & [H2|[H2 _]]); [done..| |done]. cbn in H2. subst a. eauto.
  - destruct (C38_sigmoid_refused_types p T o E s) as (r & s' & e & _ & [(q & -> & _)|[H2 _]]); [done..| |done]. eauto.
  - destruct (C38_tanh_refused_types p T o E s) as (r & s' & e & _ & [(q & -> & _)|[H2 _]]); [done..| |done]. eauto.
  - destruct (C25_zero_extent p T o E s) as (s' & e & _); [done..|]. eauto.
  - destruct (C33_batch_partial p0 p T1 T2 o E s b1 b2 m k n) as (s' & e & _); [done..|]. eauto.
  - destruct (C41_too_large m p T nb nc sd ks ss ps ls o E s) as (s' & e & _); [done..|]. eauto.
Qed.

Lemma holds_parts h h' p T : holds h p T -> (forall b, b ∈ parts h p -> h' !! b = h !! b) -> holds h' p T.
Proof using Type.
  intros (V & px & tg & ex & (t1 & t2 & pd & pm & ps & H1 & H2 & H3 & H4) & H5) K. split; [done|].
  assert (P : parts h p = p :: ptr_id pd ++ ptr_id pm ++ [ps; px]).
  { unfold parts. rewrite H1. cbn [fmap option_fmap option_map b_content t_storage t_dims t_min2maj]. by rewrite H4. }
  rewrite P in K.
  assert (I : forall q l, (forall b, b ∈ ptr_id q -> h' !! b = h !! b) -> ints_at h q l -> ints_at h' q l).
  { intros q l Hq Hi. destruct l; [done|]. destruct Hi as (b & tg' & -> & Hb). exists b, tg'. split; [done|].
    rewrite Hq; [done|apply elem_of_list_here]. }
  exists px, tg, ex. split.
  - exists t1, t2, pd, pm, ps. split_and!.
    + rewrite K; [done|]. apply elem_of_list_here.
    + apply I; [|done]. intros b Hb. apply K. apply elem_of_list_further, elem_of_app. by left.
    + apply I; [|done]. intros b Hb. apply K. apply elem_of_list_further, elem_of_app. right. apply elem_of_app. by left.
    + rewrite K; [done|]. apply elem_of_list_further, elem_of_app. right. apply elem_of_app. right. apply elem_of_list_here.
  - rewrite K; [done|]. apply elem_of_list_further, elem_of_app. right. apply elem_of_app. right. apply elem_of_list_further, elem_of_list_here.
Qed.

(** What a client's memory looks like in the middle of a program. *)
Definition handle (h : nat -> hval) (x : nat) : nat := match h x with HPtr p => p | _ => 0%nat end.
Definition handles (A : vars) (h : nat -> hval) : list nat := (fun xT : nat * atensor => handle h xT.1) <$> map_to_list A.
Record ok (A : vars) (r : nat) (h : nat -> hval) (X : gset nat) (s : st) : Prop := Ok {
  ok_reach : exists V, V ≡ₚ handles A h /\ reachable (Client E V [] X s);
  ok_pos : rpos s = r;
  ok_vals : stands A h s
}.

Lemma handles_assign A h x v : A !! x = None -> handles A (assign h x v) = handles A h.
Proof using Type.
  intros Hx. unfold handles. apply list_fmap_ext. intros i [y T] Hy.
  apply elem_of_list_lookup_2, elem_of_map_to_list in Hy. unfold handle, assign. cbn. by rewrite decide_False by (intros ->; pose proof (eq_trans (eq_sym Hx) Hy); done).
Qed.
Lemma handles_split A h x T p : A !! x = Some T -> h x = HPtr p -> handles A h ≡ₚ p :: handles (delete x A) h.
Proof using Type.
  intros Hx Hp. unfold handles. rewrite <-(map_to_list_delete A x T Hx). cbn. unfold handle at 1. by rewrite Hp.
Qed.
Lemma handles_insert A h x T p : A !! x = None -> handles (<[x := T]> A) (assign h x (HPtr p)) ≡ₚ p :: handles A h.
Proof using Type.
  intros Hx. rewrite (handles_split _ _ x T p).
  - rewrite delete_insert by done. by rewrite handles_assign.
  - apply lookup_insert.
  - unfold assign. by rewrite decide_True.
Qed.

Lemma reach_step V B X s c' : reachable (Client E V B X s) -> step (Client E V B X s) c' -> reachable c'.
Proof using Type. intros (E' & H1 & H2) H. exists E'. split; [done|]. by eapply rtc_r. Qed.
Lemma reach_wf V B X s : reachable (Client E V B X s) -> wf s.
Proof using Type. intros R. destruct (reachable_good _ R) as (_ & L & _ & I). by eapply Inv_wf0. Qed.

(** A variable is given up. *)
Lemma ok_forget A r h X s x T p : A !! x = Some T -> h x = HPtr p -> ok A r h X s ->
  ok (delete x A) r h (X ∪ list_to_set (parts (heap s) p)) s.
Proof using Type.
  intros Hx Hp [(V & PV & R) P S].
  assert (Hin : p ∈ V). { rewrite PV, (handles_split A h x T p) by done. apply elem_of_list_here. }
  apply elem_of_list_split in Hin as (V1 & V2 & ->). split.
  - exists (V1 ++ V2). split; [|by eapply reach_step, step_forget].
    rewrite (handles_split A h x T p) in PV by done. rewrite <-Permutation_middle in PV. by apply Permutation_cons_inv in PV.
  - done.
  - intros y U Hy. apply lookup_delete_Some in Hy as [_ Hy]. by apply S.
Qed.
Lemma ok_assign A r h X s x v : A !! x = None -> ok A r h X s -> ok A r (assign h x v) X s.
Proof using Type.
  intros Hx [R P S]. split; [by rewrite handles_assign|done|]. intros y U Hy. unfold assign. rewrite decide_False by (intros ->; pose proof (eq_trans (eq_sym Hx) Hy); done). by apply S.
Qed.

Lemma NoDup_bind_disj {X} `{EqDecision X} (f : nat -> list X) V p q b :
  NoDup (V ≫= f) -> (exists R, V ≡ₚ p :: q :: R) -> b ∈ f p -> b ∈ f q -> False.
Proof using Type.
  intros N [R P] H1 H2. assert (P' : V ≫= f ≡ₚ f p ++ f q ++ (R ≫= f)) by (rewrite P; done).
  rewrite P' in N. apply NoDup_app in N as (_ & N & _). apply (N b H1). apply elem_of_app. by left.
Qed.
(** Different variables have disjoint memory. *)
Lemma ok_disj A r h X s x y T U p q b : ok A r h X s -> A !! x = Some T -> A !! y = Some U -> x <> y ->
  h x = HPtr p -> h y = HPtr q -> b ∈ parts (heap s) p -> b ∈ parts (heap s) q -> False.
Proof using Type.
  intros [(V & PV & R) P S] Hx Hy Hn Hp Hq. apply history_memory in R as [N _]. unfold owned in N. cbn [c_live c_mem c_bufs] in N.
  rewrite app_nil_r in N. eapply NoDup_bind_disj; [exact N|]. exists (handles (delete y (delete x A)) h).
  rewrite PV, (handles_split A h x T p) by done. apply perm_skip. apply (handles_split _ _ y U); [|done]. by rewrite lookup_delete_ne.
Qed.

Lemma exec_step0 A r h X s c : ok A r h X s -> (exists st a b, astep E (A, r) c st a b) ->
  exists st A' r' b h' X' s', astep E (A, r) c st (A', r') b /\ exec c h E s = Done (st, h') s' /\ ok A' r' h' X' s' /\
    X ⊆ X' /\ (b = true -> X' = X).
Proof using HE HK HR.
  intros O (st & a & b & H). pose proof O as [(V & PV & R) P S]. pose proof (reach_wf _ _ _ _ R) as W.
  inversion H; subst; clear H.
  - (* success *)
    destruct (gives_makes A (rpos s) h s c0 T k (h x)) as (T' & G & s' & p & e & C); [done..|].
    pose proof (run_keeps E s _ _ _ _ W e) as [Hk _].
    assert (Hpos : rpos s' = (rpos s + k)%nat) by (by destruct C as (_ & ? & ? & ? & ? & ? & ? & ?)).
    assert (R1 : reachable (Client E (p :: V) [] X s')).
    { eapply reach_step; [exact R|]. apply (step_success E V [] X s (inst h c0) (h x) p s'); [by destruct c0; try (left)| |done].
      intros (t & dt & d & e1 & e2 & e3). destruct c0; try done. injection e1 as <- <-.
      assert (exists T0, A !! x0 = Some T0 /\ t0 <> a_type T0) as (T0 & H0 & Hne) by (inversion G; subst; [by exists T0|naive_solver]).
      destruct (S _ _ H0) as (q & Hq & Hh). rewrite Hq in e2. pose proof Hh as (_ & px & ? & ? & Hv & _).
      rewrite (tensor_dtype_ok Hv) in e2. injection e2 as <-. destruct t0, (a_type T0); done. }
    assert (S' : stands A h s').
    { intros y U Hy. destruct (S y U Hy) as (q & Hq & Hh). exists q. split; [done|]. by eapply holds_mono. }
    exists SUCCESS, (<[x := T']> A), (rpos s + k)%nat, (bool_decide (A !! x = None)), (assign h x (HPtr p)).
    pose proof (a_gives E A (rpos s) x c0 T' k G) as HS.
    destruct (A !! x) as [U|] eqn:Ax.
    + destruct (S' x U Ax) as (q & Hq & Hh).
      exists (X ∪ list_to_set (parts (heap s') q)), s'. split_and!.
      * exact HS.
      * cbn [exec]. erewrite bind_done by exact e. done.
      * assert (Hin : q ∈ p :: V). { right. rewrite PV, (handles_split A h x U q) by done. apply elem_of_list_here. }
        assert (Hin' : q ∈ V). { rewrite PV, (handles_split A h x U q) by done. apply elem_of_list_here. }
        apply elem_of_list_split in Hin' as (V1 & V2 & ->). split; [|done|].
        -- exists (p :: V1 ++ V2). split; [|by eapply reach_step; [exact R1|apply (step_forget E (p :: V1) q V2)]].
           rewrite <-insert_delete_insert. rewrite (handles_insert (delete x A) h x T' p) by apply lookup_delete.
           apply perm_skip. rewrite (handles_split A h x U q) in PV by done. rewrite <-Permutation_middle in PV. by apply Permutation_cons_inv in PV.
        -- intros y Z Hy. unfold assign. destruct (decide (y = x)) as [->|Hn].
           ++ rewrite lookup_insert in Hy. injection Hy as <-. exists p. split; [done|]. by eapply created_holds.
           ++ rewrite lookup_insert_ne in Hy by done. by apply S'.
      * set_solver.
      * by rewrite bool_decide_eq_false_2 by done.
    + exists X, s'. split_and!.
      * exact HS.
      * cbn [exec]. erewrite bind_done by exact e. done.
      * split; [|done|].
        -- exists (p :: V). split; [|done]. rewrite (handles_insert A h x T' p) by done. by apply perm_skip.
        -- intros y Z Hy. unfold assign. destruct (decide (y = x)) as [->|Hn].
           ++ rewrite lookup_insert in Hy. injection Hy as <-. exists p. split; [done|]. by eapply created_holds.
           ++ rewrite lookup_insert_ne in Hy by done. by apply S'.
      * done.
      * done.
  - (* refused *)
    pose proof (refused_runs A h s c0 st (h x) S ltac:(assumption)) as e.
    exists st, A, (rpos s), true, (assign h x (h x)), X, s. split_and!; [by apply a_refused| | |done|done].
    + cbn [exec]. erewrite bind_done by exact e. done.
    + assert (Hs : forall y, assign h x (h x) y = h y) by (intros y; unfold assign; by destruct (decide (y = x)) as [->|]).
      split; [|done|].
      * exists V. split; [|done]. rewrite PV. unfold handles. apply Permutation_refl', list_fmap_ext. intros i [y T] _. unfold handle. by rewrite Hs.
      * intros y U Hy. rewrite Hs. by apply S.
  - (* failed *)
    destruct (fails_runs A h s c0 st (h x)) as (Hst & v & s' & e & Hpos); [done..|].
    pose proof (run_keeps E s _ _ _ _ W e) as [Hk _].
    assert (O1 : ok A (rpos s) h (X ∪ (dom (heap s') ∖ dom (heap s))) s').
    { split; [|done|].
      - exists V. split; [done|]. eapply reach_step; [exact R|]. by eapply step_failure.
      - intros y U Hy. destruct (S y U Hy) as (q & Hq & Hh). exists q. split; [done|]. by eapply holds_mono. }
    destruct (A !! x) as [U|] eqn:Ax.
    + destruct (S x U Ax) as (q & Hq & Hh). do 7 eexists. split_and!; [by apply a_fails| | | |discriminate].
      * cbn [exec]. erewrite bind_done by exact e. done.
      * apply ok_assign; [apply lookup_delete|]. eapply ok_forget; [exact Ax|exact Hq|exact O1].
      * set_solver.
    + do 7 eexists. split_and!; [by apply a_fails| | | |discriminate].
      * cbn [exec]. erewrite bind_done by exact e. done.
      * apply ok_assign; [apply lookup_delete|]. rewrite delete_notin by done. exact O1.
      * set_solver.
  - (* element *)
    destruct (S _ _ ltac:(eassumption)) as (q & Hq & Hh). pose proof Hh as ((Hfit & Hlen) & px & tg & ex & Hv & Hx).
    assert (Hin : q ∈ V). { rewrite PV, (handles_split A h x T q) by done. apply elem_of_list_here. }
    pose proof (fits_bytes _ _ Hfit) as Hb.
    pose proof (set_item_ok E s q (a_dev T) (a_dims T) (rowmajor (length (a_dims T))) px tg (a_type T) (a_vals T) ex i v []
      Hv Hx ltac:(assumption) ltac:(lia)) as e. rewrite app_nil_r in e.
    set (T' := AT (a_type T) (a_dev T) (a_dims T) (<[i := v]> (a_vals T))).
    match type of e with _ = Done tt ?z => set (s' := z) in e end.
    assert (Hh' : holds (heap s') q T').
    { split; [split; [done|cbn; by rewrite insert_length]|]. exists px, tg, ex. cbn [a_type a_dev a_dims a_vals T']. split.
      + cbn [heap upd s']. by eapply view_upd.
      + cbn. by rewrite lookup_insert. }
    do 7 eexists. split_and!; [by apply a_set| | |done|done].
    + cbn [exec]. rewrite Hq. erewrite bind_done by exact e. done.
    + split.
      * exists V. split.
        -- rewrite PV, (handles_split A h x T q) by done. fold T'. rewrite (handles_split (<[x := T']> A) h x T' q); [|apply lookup_insert|done].
           by rewrite delete_insert_delete.
        -- eapply reach_step; [exact R|]. eapply (step_write E V [] X s q px); [done|by eapply tensor_data_ok|].
           unfold set_content. erewrite bind_done by (by eapply deref_ok). done.
      * done.
      * intros y U Hy. destruct (decide (y = x)) as [->|Hn].
        -- fold T' in Hy. rewrite lookup_insert in Hy. injection Hy as <-. by exists q.
        -- rewrite lookup_insert_ne in Hy by done. destruct (S y U Hy) as (z & Hz & Hhz). exists z. split; [done|].
           eapply holds_parts; [exact Hhz|]. intros b Hb'. cbn [heap upd s']. apply lookup_insert_ne. intros ->.
           eapply (ok_disj A (rpos s) h X s x y T U q z); [exact O|done|done|by apply not_eq_sym|done|done| |exact Hb'].
           destruct Hv as (t1 & t2 & pd & pm & ps & H1' & H2' & H3' & H4'). unfold parts. rewrite H1'.
           cbn [fmap option_fmap option_map b_content t_storage t_dims t_min2maj]. rewrite H4'.
           apply elem_of_list_further, elem_of_app. right. apply elem_of_app. right. apply elem_of_list_further, elem_of_list_here.
  - (* destroyed *)
    destruct (S _ _ ltac:(eassumption)) as (q & Hq & Hh).
    assert (Hin : q ∈ V). { rewrite PV, (handles_split A h x T q) by done. apply elem_of_list_here. }
    destruct (history_release _ R) as (_ & D & _). cbn [c_live c_env c_mem] in D. destruct (D q Hin) as (s' & e & Hs).
    apply elem_of_list_split in Hin as (V1 & V2 & ->).
    exists SUCCESS, (delete x A), (rpos s), true, (assign h x HNull), X, s'. split_and!; [by eapply a_destroy| | |done|done].
    + cbn [exec]. rewrite Hq. erewrite bind_done by exact e. done.
    + apply ok_assign; [apply lookup_delete|]. split.
      * exists (V1 ++ V2). split; [|by eapply reach_step, step_destroy].
        rewrite (handles_split A h x T q) in PV by done. rewrite <-Permutation_middle in PV. by apply Permutation_cons_inv in PV.
      * apply (qt_aitisa_destroy _ _ _ _ _ e).
      * intros y U Hy. apply lookup_delete_Some in Hy as [Hn Hy]. destruct (S y U Hy) as (z & Hz & Hhz). exists z. split; [done|].
        eapply holds_parts; [exact Hhz|]. intros b Hb. rewrite Hs, decide_False; [done|]. intros Hb'.
        eapply (ok_disj A (rpos s) h X s x y); [exact O|eassumption..].
Qed.
Lemma exec_step A r h X s c : ok A r h X s -> (exists st a b, astep E (A, r) c st a b) ->
  exists st A' r' b h' L s', astep E (A, r) c st (A', r') b /\ exec c h E s = Done (st, h') s' /\ ok A' r' h' (X ∪ L) s' /\
    (b = true -> L = ∅).
Proof using HE HK HR.
  intros O K. destruct (exec_step0 A r h X s c O K) as (st & A' & r' & b & h' & X' & s' & K1 & K2 & K3 & K4 & K5).
  exists st, A', r', b, h', (X' ∖ X), s'. split_and!; [done..| |].
  - by rewrite <-union_difference_L.
  - intros e. rewrite (K5 e). apply difference_diag_L.
Qed.

Lemma exec_steps cs : forall A r h X s, ok A r h X s -> safe E (A, r) cs ->
  exists sts A' r' bs h' Ls s', asteps E (A, r) cs sts (A', r') bs /\ exec_all cs h E s = Done (sts, h') s' /\
    ok A' r' h' (X ∪ ⋃ Ls) s' /\ Forall2 (fun b (L : gset nat) => b = true -> L = ∅) bs Ls.
Proof using HE HK HR.
  induction cs as [|c cs IH]; intros A r h X s O SF.
  - exists [], A, r, [], h, [], s. split_and!; [constructor|done| |constructor]. cbn. by rewrite (right_id_L ∅ (∪)).
  - destruct SF as [S1 S2].
    destruct (exec_step A r h X s c O S1) as (st & A1 & r1 & b1 & h1 & L & s1 & K1 & K2 & K3 & K4).
    destruct (IH A1 r1 h1 _ s1 K3 (S2 _ _ _ K1)) as (sts & A' & r' & b & h' & Ls & s' & L1 & L2 & L3 & L4).
    exists (st :: sts), A', r', (b1 :: b), h', (L :: Ls), s'. split_and!; [by econstructor| | |by constructor].
    + cbn [exec_all]. erewrite bind_done by exact K2. cbn beta iota. erewrite bind_done by exact L2. done.
    + rewrite union_list_cons, (assoc_L (∪)). done.
Qed.

Lemma program cs : safe E (∅, 0%nat) cs ->
  exists sts A r clean h s Ls, asteps E (∅, 0%nat) cs sts (A, r) clean /\
    exec_all cs (fun _ => HUndef) E (St ∅ 0 0) = Done (sts, h) s /\ rpos s = r /\
    (forall x T, A !! x = Some T -> exists p, h x = HPtr p /\ holds (heap s) p T) /\
    (forall x y p q b, is_Some (A !! x) -> is_Some (A !! y) -> x <> y -> h x = HPtr p -> h y = HPtr q ->
       b ∈ parts (heap s) p -> b ∈ parts (heap s) q -> False) /\
    (forall b, is_Some (heap s !! b) <->
       (exists x p, is_Some (A !! x) /\ h x = HPtr p /\ b ∈ parts (heap s) p) \/ b ∈ ⋃ Ls) /\
    (forall x p b, is_Some (A !! x) -> h x = HPtr p -> b ∈ parts (heap s) p -> b ∉ ⋃ Ls) /\
    Forall2 (fun b (L : gset nat) => b = true -> L = ∅) clean Ls.
Proof using HE HK HR.
  intros SF.
  assert (O : ok ∅ 0 (fun _ => HUndef) ∅ (St ∅ 0 0)).
  { split; [|done|]; [|intros x T Hx; by rewrite lookup_empty in Hx].
    exists []. split; [done|]. exists E. split; [done|]. apply rtc_refl. }
  destruct (exec_steps cs _ _ _ _ _ O SF) as (sts & A & r & b & h & Ls & s & K1 & K2 & K3 & K4).
  rewrite (left_id_L ∅ (∪)) in K3.
  pose proof K3 as [(V & PV & R) P S]. apply history_memory in R as (_ & M & M'). unfold owned in M, M'. cbn [c_live c_bufs c_lost c_mem] in M, M'.
  rewrite app_nil_r in M, M'.
  assert (MV : forall c, c ∈ V ≫= parts (heap s) <-> exists x p, is_Some (A !! x) /\ h x = HPtr p /\ c ∈ parts (heap s) p).
  { intros c. rewrite elem_of_list_bind. split.
    - intros (p & Hc & Hp). rewrite PV in Hp. apply elem_of_list_fmap in Hp as ([x T] & -> & Hx). apply elem_of_map_to_list in Hx.
      destruct (S x T Hx) as (p & Hp & _). exists x, p. split_and!; [by eexists|done|]. unfold handle in Hc. cbn in Hc. by rewrite Hp in Hc.
    - intros (x & p & [T Hx] & Hp & Hc). exists p. split; [done|]. rewrite PV, (handles_split A h x T p) by done. apply elem_of_list_here. }
  exists sts, A, r, b, h, s, Ls. split_and!; [done..| | | |done].
  - intros x y p q c [T Hx] [U Hy] Hn Hp Hq. by eapply (ok_disj A r h (⋃ Ls) s x y).
  - intros c. rewrite M, MV. done.
  - intros x p c Hx Hp Hc. apply M'. apply MV. by exists x, p.
Qed.
End prog.
