(** * ProofFault: operations that report every refusal *)
From stdpp Require Import gmap list.
From Coq Require Import ZArith Lia ZifyBool ZifyNat.
From Verif Require Import Base Mem Spec SpecHeap SpecFault ModelCore ModelBasic ModelMath ModelNN.
Open Scope Z_scope.

(** Code that requests nothing. *)
Definition na {A} (m : M A) : Prop := forall E ok s,
  m (schedule E ok) s = m (plenty E) s /\
  forall a s', m (schedule E ok) s = Done a s' -> ctr s' = ctr s.
Lemma na_ret {A} (a : A) : na (ret a). Proof. intros E ok s. split; [done|]. by intros ? ? [= _ <-]. Qed.
Lemma na_undef {A} u : na (undef u : M A). Proof. intros E ok s. by split. Qed.
Lemma na_abort {A} : na (abort : M A). Proof. intros E ok s. by split. Qed.
Lemma na_diverge {A} : na (diverge : M A). Proof. intros E ok s. by split. Qed.
Lemma na_bind {A B} (m : M A) (k : A -> M B) : na m -> (forall a, na (k a)) -> na (bind m k).
Proof.
  intros Hm Hk E ok s. destruct (Hm E ok s) as [H1 H2]. unfold bind. rewrite <-H1.
  destruct (m (schedule E ok) s) as [a s'| | |]; [|done..].
  destruct (Hk a E ok s') as [H3 H4]. split; [done|]. intros b s'' H. rewrite (H4 b s'' H). by apply H2 with a.
Qed.
Lemma na_check b u : na (check b u). Proof. destruct b; [apply na_ret|apply na_undef]. Qed.
Lemma na_opt {A} (o : option A) u : na (opt o u). Proof. destruct o; [apply na_ret|apply na_undef]. Qed.
Lemma na_assert b : na (assert_ b). Proof. destruct b; [apply na_ret|apply na_abort]. Qed.
Lemma na_ask {A} (f : env -> A) : (forall E ok, f (schedule E ok) = f (plenty E)) -> na (ask f).
Proof. intros H E ok s. unfold ask. rewrite H. split; [done|]. by intros ? ? [= _ <-]. Qed.
Lemma na_put_block b x : na (put_block b x). Proof. intros E ok s. split; [done|]. by intros ? ? [= _ <-]. Qed.
Lemma na_free tag p : na (free_tag tag p).
Proof.
  intros E ok s. split; [done|]. unfold free_tag. intros a s' H. repeat case_match; try done; by injection H as <- <-.
Qed.
Lemma na_raw_dealloc p : na (raw_dealloc p).
Proof. intros E ok s. exact (na_free (e_dealloc E) p E ok s). Qed.
Lemma na_deref p : na (deref p).
Proof. intros E ok s. split; [done|]. unfold deref. intros a s' H. repeat case_match; try done; by injection H as <- <-. Qed.
Lemma na_rand : na rand_. Proof. intros E ok s. split; [done|]. by intros ? ? [= _ <-]. Qed.
Lemma na_iter {S} n i (body : Z -> S -> M S) s : (forall i s, na (body i s)) -> na (iter n i body s).
Proof.
  intros H. revert i s. induction n as [|n IH]; intros i s; [apply na_ret|]. cbn [iter].
  apply na_bind; [apply H|]. intros. apply IH.
Qed.
Lemma na_iter_ret {S R} n i (body : Z -> S -> M (ctl S R)) s : (forall i s, na (body i s)) -> na (iter_ret n i body s).
Proof.
  intros H. revert i s. induction n as [|n IH]; intros i s; [apply na_ret|]. cbn [iter_ret].
  apply na_bind; [apply H|]. intros [x|r]; [apply IH|apply na_ret].
Qed.
Lemma na_iter_down {S} n (body : Z -> S -> M S) s : (forall i s, na (body i s)) -> na (iter_down n body s).
Proof.
  intros H. revert s. induction n as [|n IH]; intros s; [apply na_ret|]. cbn [iter_down].
  apply na_bind; [apply H|]. intros. apply IH.
Qed.
Lemma na_iter_down_break {S} n (body : Z -> S -> M (S * bool)) s : (forall i s, na (body i s)) -> na (iter_down_break n body s).
Proof.
  intros H. revert s. induction n as [|n IH]; intros s; [apply na_ret|]. cbn [iter_down_break].
  apply na_bind; [apply H|]. intros [x []]; [apply IH|apply na_ret].
Qed.
Lemma na_dispatch_all {A} dt (f : tcode -> M A) d : (forall t, na (f t)) -> na d -> na (dispatch_all dt f d).
Proof. intros H1 H2. unfold dispatch_all. repeat case_match; auto. Qed.
Lemma na_dispatch_float {A} dt (f : tcode -> M A) d : (forall t, na (f t)) -> na d -> na (dispatch_float dt f d).
Proof. intros H1 H2. unfold dispatch_float. repeat case_match; auto. Qed.

Ltac na_head t := match t with ?f _ => na_head f | _ => t end.
Ltac na1 :=
  lazymatch goal with
  | |- forall _, _ => intros ?
  | |- na (ret _) => apply na_ret
  | |- na (undef _) => apply na_undef
  | |- na abort => apply na_abort
  | |- na diverge => apply na_diverge
  | |- na (check _ _) => apply na_check
  | |- na (opt _ _) => apply na_opt
  | |- na (assert_ _) => apply na_assert
  | |- na (ask _) => apply na_ask; done
  | |- na (put_block _ _) => apply na_put_block
  | |- na (raw_dealloc _) => apply na_raw_dealloc
  | |- na (free_tag _ _) => apply na_free
  | |- na (deref _) => apply na_deref
  | |- na rand_ => apply na_rand
  | |- na (raw_alloc _ _) => fail
  | |- na (alloc_tag _ _ _) => fail
  | |- na (bind _ _) => apply na_bind
  | |- na (iter _ _ _ _) => apply na_iter
  | |- na (iter_ret _ _ _ _) => apply na_iter_ret
  | |- na (iter_down _ _ _) => apply na_iter_down
  | |- na (iter_down_break _ _ _) => apply na_iter_down_break
  | |- na (dispatch_all _ _ _) => apply na_dispatch_all
  | |- na (dispatch_float _ _ _) => apply na_dispatch_float
  | |- na (match ?x with _ => _ end) => destruct x
  | |- na ?m => first [solve [eauto with na] | let h := na_head m in unfold h; cbv beta]
  end.
Ltac nal := intros; repeat na1; try done.
Create HintDb na.

(** [fl m P]: either nothing is refused and [m] runs as with plenty of memory, or a
    request is refused and [m] returns a value with [P]. *)
Definition flat {A} (m : M A) (P : A -> Prop) (E : env) (ok : nat -> bool) (s : st) : Prop :=
  (m (schedule E ok) s = m (plenty E) s /\
   forall a s', m (schedule E ok) s = Done a s' ->
     (ctr s <= ctr s')%nat /\ forall k, requested s s' k -> ok k = true) \/
  exists k a s', m (schedule E ok) s = Done a s' /\ P a /\ requested s s' k /\ ok k = false.
Definition fl {A} (m : M A) (P : A -> Prop) : Prop := forall E ok s, flat m P E ok s.

(** Code that comes to its end whatever memory there is. *)
Definition drain {A} (m : M A) (Q : A -> Prop) : Prop :=
  forall E s, exists b s', m E s = Done b s' /\ Q b /\ (ctr s <= ctr s')%nat.

Lemma flat_bind {A B} (m : M A) (k : A -> M B) P Q E ok s :
  flat m P E ok s -> (forall a s', m (schedule E ok) s = Done a s' -> flat (k a) Q E ok s') ->
  (forall a s', m (schedule E ok) s = Done a s' -> P a ->
     exists b s'', k a (schedule E ok) s' = Done b s'' /\ Q b /\ (ctr s' <= ctr s'')%nat) ->
  flat (bind m k) Q E ok s.
Proof.
  intros [[H1 H2]|(i & a & s' & H1 & HP & Hi & Hk)] Hk1 Hd.
  - unfold flat, bind. rewrite <-H1. destruct (m (schedule E ok) s) as [a s'| | |] eqn:Hm.
    + destruct (H2 a s' eq_refl) as [Hc Hr].
      destruct (Hk1 a s' eq_refl) as [[G1 G2]|(i & b & s'' & G1 & G2 & G3 & G4)].
      * left. split; [done|]. intros b s'' H. destruct (G2 b s'' H) as [Gc Gr]. split; [lia|].
        intros i [Hi1 Hi2]. destruct (decide (i < ctr s')%nat); [by apply Hr|]. apply Gr. split; lia.
      * right. exists i, b, s''. split_and!; [done|done| |done]. unfold requested in *. lia.
    + left. by split.
    + left. by split.
    + left. by split.
  - destruct (Hd a s' H1 HP) as (b & s'' & Hb & HQ & Hc).
    right. exists i, b, s''. unfold bind. rewrite H1. split_and!; [done|done| |done]. unfold requested in *. lia.
Qed.
Lemma fl_bind {A B} (m : M A) (k : A -> M B) P Q :
  fl m P -> (forall a, fl (k a) Q) -> (forall a, P a -> drain (k a) Q) -> fl (bind m k) Q.
Proof.
  intros Hm Hk Hd E ok s. eapply flat_bind; [apply Hm|intros a s' _; apply Hk|]. intros a s' _ HP. by apply Hd.
Qed.
Lemma fl_na {A} (m : M A) P : na m -> fl m P.
Proof.
  intros H E ok s. left. destruct (H E ok s) as [H1 H2]. split; [done|]. intros a s' Hs.
  pose proof (H2 a s' Hs). split; [lia|]. intros k Hk. unfold requested in Hk. lia.
Qed.
Lemma fl_bind_na {A B} (m : M A) (k : A -> M B) Q : na m -> (forall a, fl (k a) Q) -> fl (bind m k) Q.
Proof. intros Hm Hk. eapply (fl_bind _ _ (fun _ => False)); [by apply fl_na|done|done]. Qed.
Lemma fl_weaken {A} (m : M A) (P Q : A -> Prop) : fl m P -> (forall a, P a -> Q a) -> fl m Q.
Proof.
  intros H HPQ E ok s. destruct (H E ok s) as [H'|(k & a & s' & H1 & H2 & H3 & H4)]; [by left|].
  right. exists k, a, s'. split_and!; auto.
Qed.
Lemma fl_raw_alloc n c : fl (raw_alloc n c) (fun p => p = HNull).
Proof.
  intros E ok s. unfold flat, raw_alloc, alloc_tag. cbn [schedule plenty e_alloc e_alloc_ok].
  rewrite andb_true_r. destruct (to_size n <=? PTRDIFF_MAX) eqn:Hn; cbn [andb].
  - destruct (ok (ctr s)) eqn:Hk.
    + left. split; [done|]. intros a s' [= <- <-]. cbn. split; [lia|]. unfold requested. cbn. intros k Hr.
      by assert (k = ctr s) as -> by lia.
    + right. eexists _, _, _. split_and!; [done|done| |done]. unfold requested. cbn. lia.
  - destruct (ok (ctr s)) eqn:Hk.
    + left. split; [done|]. intros a s' [= <- <-]. cbn. split; [lia|]. unfold requested. cbn. intros k Hr.
      by assert (k = ctr s) as -> by lia.
    + right. eexists _, _, _. split_and!; [done|done| |done]. unfold requested. cbn. lia.
Qed.
Lemma fl_scratch n : fl (scratch n) (fun p => p = HNull).
Proof. apply fl_raw_alloc. Qed.

Lemma drain_ret {A} (a : A) (Q : A -> Prop) : Q a -> drain (ret a) Q.
Proof. intros H E s. by exists a, s. Qed.
Lemma drain_raw_alloc n c : drain (raw_alloc n c) (fun _ => True).
Proof.
  intros E s. unfold raw_alloc, alloc_tag. case_match; eexists _, _; (split_and!; [done|done|cbn; lia]).
Qed.
Lemma drain_bind {A B} (m : M A) (k : A -> M B) P Q : drain m P -> (forall a, P a -> drain (k a) Q) -> drain (bind m k) Q.
Proof.
  intros Hm Hk E s. destruct (Hm E s) as (a & s' & H1 & H2 & H3).
  destruct (Hk a H2 E s') as (b & s'' & G1 & G2 & G3). exists b, s''. unfold bind. rewrite H1. split_and!; [done|done|lia].
Qed.

(** Result pairs that report. *)
Definition failed {A} (r : status * A) : Prop := r.1 = ALLOC_FAILED.
Definition failed_with (o : hval) (r : status * hval) : Prop := r = (ALLOC_FAILED, o).

Lemma fl_layout lt nd : fl (create_default_layout lt nd) failed.
Proof.
  unfold create_default_layout. case_match; [apply fl_na; nal|].
  eapply (fl_bind _ _ (fun p => p = HNull /\ nd <> 0)).
  - destruct (nd =? 0) eqn:Hn; [apply fl_na; nal|]. eapply fl_weaken; [apply fl_raw_alloc|]. intros a ->. split; [done|lia].
  - intros p. case_match; apply fl_na; nal.
  - intros p [-> Hn]. rewrite (proj2 (Z.eqb_neq nd 0) Hn). by apply drain_ret.
Qed.
Lemma fl_shape lt dims nd : fl (create_shape lt dims nd) (fun r => r.1.1 = ALLOC_FAILED).
Proof.
  unfold create_shape.
  eapply (fl_bind _ _ (fun p => p = HNull /\ nd <> 0)).
  - destruct (nd =? 0) eqn:Hn; [apply fl_na; nal|]. eapply fl_weaken; [apply fl_raw_alloc|]. intros a ->. split; [done|lia].
  - intros p. case_match; [apply fl_na; nal|]. apply fl_bind_na; [nal|]. intros l. apply fl_bind_na; [nal|]. intros _.
    eapply fl_bind; [apply fl_layout| |].
    + intros [s m]. apply fl_na. nal.
    + intros [s m] Hf. by apply drain_ret.
  - intros p [-> Hn]. rewrite (proj2 (Z.eqb_neq nd 0) Hn). by apply drain_ret.
Qed.
Lemma fl_storage dt dev n data : fl (create_storage dt dev n data) failed.
Proof.
  unfold create_storage. eapply fl_bind; [apply fl_raw_alloc| |].
  - intros p. destruct (is_null p); [apply fl_na; nal|].
    eapply (fl_bind _ _ (fun p => p = HNull)).
    + destruct (is_null data); [|apply fl_na; nal]. apply fl_bind_na; [nal|]. intros k. apply fl_raw_alloc.
    + intros d. destruct (is_null d); apply fl_na; nal.
    + intros d ->. by apply drain_ret.
  - intros p ->. by apply drain_ret.
Qed.
Lemma not_ok {A} (s : status) (o : A) : s = ALLOC_FAILED -> negb (bool_decide (s = SUCCESS)) = true.
Proof. by intros ->. Qed.
Lemma fl_create dt dev dims nd data len o : fl (aitisa_create dt dev dims nd data len o) (failed_with o).
Proof.
  unfold aitisa_create. eapply fl_bind; [apply fl_raw_alloc| |].
  - intros t. destruct (is_null t); [apply fl_na; nal|]. apply fl_bind_na; [nal|]. intros size.
    apply fl_bind_na; [nal|]. intros bad. destruct bad; [apply fl_na; nal|].
    eapply fl_bind; [apply fl_shape| |].
    + intros [[s pd] pm]. case_match; [apply fl_na; nal|].
      eapply fl_bind; [apply fl_storage| |].
      * intros [s' ps]. case_match; apply fl_na; nal.
      * intros [s' ps] Hf. unfold failed in Hf. cbn in Hf. subst. by apply drain_ret.
    + intros [[s pd] pm] Hf. cbn in Hf. subst. by apply drain_ret.
  - intros t ->. by apply drain_ret.
Qed.
(** What follows a creation that failed. *)
Ltac crt := intros [? ?] ?Hf; injection Hf as -> ->; by apply drain_ret.
Lemma fl_full dt dev dims nd v o : fl (aitisa_full dt dev dims nd v o) (failed_with o).
Proof.
  unfold aitisa_full. eapply fl_bind; [apply fl_create| |crt]. intros [s n]. case_match; apply fl_na; nal.
Qed.
Lemma fl_cast t dt o : fl (aitisa_cast t dt o) (failed_with o).
Proof.
  unfold aitisa_cast. apply fl_bind_na; [nal|]. intros dt1. case_match; [apply fl_na; nal|].
  do 3 (apply fl_bind_na; [nal|]; intros ?).
  eapply fl_bind; [apply fl_create| |crt]. intros [s n]. case_match; apply fl_na; nal.
Qed.
Lemma fl_reshape t dims nd o : fl (aitisa_reshape t dims nd o) (failed_with o).
Proof.
  unfold aitisa_reshape. do 2 (apply fl_bind_na; [nal|]; intros ?). case_match; [apply fl_na; nal|].
  do 2 (apply fl_bind_na; [nal|]; intros ?).
  eapply fl_bind; [apply fl_create| |crt]. intros [s n]. case_match; apply fl_na; nal.
Qed.
Lemma fl_sqrt t o : fl (aitisa_sqrt t o) (failed_with o).
Proof.
  unfold aitisa_sqrt. eapply (fl_bind _ _ (failed_with o)); [| |crt].
  - unfold sqrt_create_output. do 4 (apply fl_bind_na; [nal|]; intros ?).
    eapply fl_bind; [apply fl_create| |crt]. intros [s n]. apply fl_na; nal.
  - intros [s n]. case_match; apply fl_na; nal.
Qed.
Lemma fl_like t o : fl (nn_create_like t o) (failed_with o).
Proof.
  unfold nn_create_like. do 4 (apply fl_bind_na; [nal|]; intros ?).
  eapply fl_bind; [apply fl_create| |crt]. intros [s n]. apply fl_na; nal.
Qed.
Lemma fl_relu t o : fl (aitisa_relu t o) (failed_with o).
Proof.
  unfold aitisa_relu. eapply fl_bind; [apply fl_like| |crt]. intros [s n]. case_match; apply fl_na; nal.
Qed.
Lemma fl_sigmoid t o : fl (aitisa_sigmoid t o) (failed_with o).
Proof.
  unfold aitisa_sigmoid. eapply fl_bind; [apply fl_like| |crt]. intros [s n]. case_match; apply fl_na; nal.
Qed.
Lemma fl_tanh t o : fl (aitisa_tanh t o) (failed_with o).
Proof.
  unfold aitisa_tanh. eapply fl_bind; [apply fl_like| |crt]. intros [s n]. case_match; apply fl_na; nal.
Qed.
Lemma fl_zeros t dims nd o : fl (zeros_like t dims nd o) (failed_with o).
Proof. unfold zeros_like. do 2 (apply fl_bind_na; [nal|]; intros ?). apply fl_full. Qed.
Lemma fl_vvdot t1 t2 o : fl (vector_vector_dot t1 t2 o) (failed_with o).
Proof.
  unfold vector_vector_dot. do 2 (apply fl_bind_na; [nal|]; intros ?). case_match; [apply fl_na; nal|].
  eapply fl_bind; [apply fl_zeros| |crt]. intros [s n]. case_match; apply fl_na; nal.
Qed.
Lemma fl_vv t1 t2 o : fl (matmul_vv t1 t2 o) (failed_with o).
Proof.
  unfold matmul_vv. do 2 (apply fl_bind_na; [nal|]; intros ?). case_match; [apply fl_na; nal|].
  eapply fl_bind; [apply fl_zeros| |crt]. intros [s n]. case_match; apply fl_na; nal.
Qed.
Lemma fl_mv t1 t2 o : fl (matmul_mv t1 t2 o) (failed_with o).
Proof.
  unfold matmul_mv. do 3 (apply fl_bind_na; [nal|]; intros ?). case_match; [apply fl_na; nal|].
  eapply fl_bind; [apply fl_zeros| |crt]. intros [s n]. case_match; apply fl_na; nal.
Qed.
Lemma fl_mm t1 t2 o : fl (matmul_mm t1 t2 o) (failed_with o).
Proof.
  unfold matmul_mm. do 4 (apply fl_bind_na; [nal|]; intros ?). case_match; [apply fl_na; nal|].
  eapply fl_bind; [apply fl_zeros| |crt]. intros [s n]. case_match; apply fl_na; nal.
Qed.
Lemma fl_vm t1 t2 o : fl (matmul_vm t1 t2 o) (failed_with o).
Proof.
  unfold matmul_vm. do 3 (apply fl_bind_na; [nal|]; intros ?). case_match; [apply fl_na; nal|].
  eapply fl_bind; [apply fl_zeros| |crt]. intros [s n]. case_match; apply fl_na; nal.
Qed.
Lemma fl_softmax t axis o : fl (aitisa_softmax t axis o) failed.
Proof.
  unfold aitisa_softmax. apply fl_bind_na; [nal|]. intros nd. case_match; [apply fl_na; nal|].
  eapply (fl_bind _ _ (failed_with HUndef)); [| |crt].
  - unfold softmax_create_output. do 4 (apply fl_bind_na; [nal|]; intros ?). apply fl_create.
  - intros [s n]. case_match; [apply fl_na; nal|].
    eapply (fl_bind _ _ (fun s => s = ALLOC_FAILED)); [|intros st; apply fl_na; nal|intros st ->; by apply drain_ret].
    case_match; [apply fl_na; nal|]. unfold softmax_along_axis.
    do 3 (apply fl_bind_na; [nal|]; intros ?).
    eapply fl_bind; [apply fl_scratch| |].
    + intros p1. eapply fl_bind; [apply fl_scratch| |].
      * intros p2. case_match; apply fl_na; nal.
      * intros p2 ->. cbn [is_null]. rewrite orb_true_r. by apply drain_ret.
    + intros p1 ->. eapply drain_bind; [apply drain_raw_alloc|]. intros p2 _. by apply drain_ret.
Qed.
