(** * ProofLeak: which operations leak what they were granted *)
From stdpp Require Import gmap list.
From Coq Require Import ZArith Lia Floats.SpecFloat ZifyBool ZifyNat.
From Verif Require Import Base Mem Spec SpecHeap SpecFault SpecLeak Logic ModelCore ModelBasic ModelMath ModelNN ProofFault2 RefuteFault.
Open Scope Z_scope.

(** Nothing was given back and every request was granted, or every one but the last. *)
Definition all_kept (s s' : st) : Prop :=
  (forall b, live s b -> live s' b) /\ forall k, requested s s' k -> live s' k.
Definition last_refused (s s' : st) : Prop :=
  (forall b, live s b -> live s' b) /\
  (ctr s < ctr s')%nat /\ ~ live s' (ctr s' - 1) /\
  forall k, requested s s' k -> (k < ctr s' - 1)%nat -> live s' k.

(** [still m Q]: [m] neither allocates nor releases and its result satisfies [Q]. *)
Definition still {A} (m : M A) (Q : A -> Prop) : Prop := forall E s a s',
  m E s = Done a s' -> ctr s' = ctr s /\ (forall b, live s' b <-> live s b) /\ Q a.

Lemma sl_ret {A} (a : A) (Q : A -> Prop) : Q a -> still (ret a) Q.
Proof. intros H E s b s' [= <- <-]. done. Qed.
Lemma sl_undef {A} u (Q : A -> Prop) : still (undef u) Q. Proof. done. Qed.
Lemma sl_abort {A} (Q : A -> Prop) : still abort Q. Proof. done. Qed.
Lemma sl_diverge {A} (Q : A -> Prop) : still diverge Q. Proof. done. Qed.
Lemma sl_weaken {A} (m : M A) (P Q : A -> Prop) : (forall a, P a -> Q a) -> still m P -> still m Q.
Proof. intros H Hm E s a s' e. destruct (Hm _ _ _ _ e) as (?&?&?). eauto. Qed.
Lemma sl_bind {A B} (m : M A) (k : A -> M B) P Q :
  still m P -> (forall a, P a -> still (k a) Q) -> still (bind m k) Q.
Proof.
  intros Hm Hk E s b s' e. unfold bind in e. destruct (m E s) as [x s1| | |] eqn:e1; try done.
  destruct (Hm _ _ _ _ e1) as (C1 & L1 & P1). destruct (Hk _ P1 _ _ _ _ e) as (C2 & L2 & P2).
  split_and!; [lia| |done]. intros i. by rewrite L2, L1.
Qed.
Definition calm {A} (m : M A) : Prop := still m (fun _ => True).
Lemma ca_bind {A B} (m : M A) (k : A -> M B) : calm m -> (forall a, calm (k a)) -> calm (bind m k).
Proof. intros H1 H2. eapply sl_bind; [apply H1|]. intros a _. apply H2. Qed.
Lemma ca_ret {A} (a : A) : calm (ret a). Proof. by apply sl_ret. Qed.
Lemma ca_undef {A} u : calm (undef u : M A). Proof. done. Qed.
Lemma ca_check b u : calm (check b u). Proof. destruct b; [apply ca_ret|apply ca_undef]. Qed.
Lemma ca_opt {A} (o : option A) u : calm (opt o u). Proof. destruct o; [apply ca_ret|apply ca_undef]. Qed.
Lemma ca_ask {A} (f : env -> A) : calm (ask f). Proof. by intros E s b s' [= _ <-]. Qed.
Lemma ca_deref p : calm (deref p).
Proof. intros E s a s'. unfold deref. intros e. repeat case_match; by simplify_eq. Qed.
Lemma ca_set_content p c : calm (set_content p c).
Proof.
  intros E s a s'. unfold set_content, bind, deref.
  destruct p as [b| |]; try done. destruct (heap s !! b) as [x|] eqn:Hb; [|done].
  intros [= _ <-]. split_and!; [done| |done]. intros i. unfold live. cbn [heap].
  destruct (decide (i = b)) as [->|H]; [|by rewrite lookup_insert_ne].
  rewrite lookup_insert, Hb. split; by eauto.
Qed.
Lemma ca_iter {S} n i (body : Z -> S -> M S) s : (forall i s, calm (body i s)) -> calm (iter n i body s).
Proof.
  intros H. revert i s. induction n as [|n IH]; intros i s; [apply ca_ret|]. cbn [iter].
  apply ca_bind; [apply H|]. intros. apply IH.
Qed.
Lemma ca_iter_ret {S R} n i (body : Z -> S -> M (ctl S R)) s : (forall i s, calm (body i s)) -> calm (iter_ret n i body s).
Proof.
  intros H. revert i s. induction n as [|n IH]; intros i s; [apply ca_ret|]. cbn [iter_ret].
  apply ca_bind; [apply H|]. intros [x|r]; [apply IH|apply ca_ret].
Qed.
Lemma ca_dispatch_all {A} dt (f : tcode -> M A) d : (forall t, calm (f t)) -> calm d -> calm (dispatch_all dt f d).
Proof. intros H1 H2. unfold dispatch_all. repeat case_match; auto. Qed.

(** [hoard m P]: [m] releases nothing; either it was granted all it asked for, or all
    but the last request and its result satisfies [P]. *)
Definition hoard {A} (m : M A) (P : A -> Prop) : Prop := forall E s a s',
  wf s -> m E s = Done a s' ->
  wf s' /\ (ctr s <= ctr s')%nat /\ (forall b, (b < ctr s)%nat -> live s' b <-> live s b) /\
  (all_kept s s' \/ last_refused s s' /\ P a) /\
  (forall k, requested s s' k -> live s' k -> exists g n, e_alloc_ok E g k n = true).

Lemma hd_calm {A} (m : M A) P : calm m -> hoard m P.
Proof.
  intros Hm E s a s' Hw e. destruct (Hm _ _ _ _ e) as (C & L & _). split_and!.
  - intros b Hb. rewrite C. apply Hw. by apply L.
  - lia.
  - intros b _. apply L.
  - left. split; [intros b; apply L|]. unfold requested. lia.
  - unfold requested. lia.
Qed.
Lemma hd_bind {A B} (m : M A) (k : A -> M B) P Q :
  hoard m P -> (forall a, hoard (k a) Q) -> (forall a, P a -> still (k a) Q) -> hoard (bind m k) Q.
Proof.
  intros Hm Hk Hs E s b s' Hw e. unfold bind in e. destruct (m E s) as [x s1| | |] eqn:e1; try done.
  destruct (Hm _ _ _ _ Hw e1) as (W1 & C1 & L1 & R1 & N1).
  destruct R1 as [[K1 K2]|[(K0 & K1 & K2 & K3) HP]].
  - destruct (Hk _ _ _ _ _ W1 e) as (W2 & C2 & L2 & R2 & N2). split_and!; [done|lia| | |].
    + intros i Hi. rewrite L2 by lia. by apply L1.
    + destruct R2 as [[G1 G2]|[(G0 & G1 & G2 & G3) HQ]].
      * left. split; [auto|]. intros i Hi. destruct (decide (i < ctr s1)%nat).
        -- apply G1, K2. unfold requested in *; lia.
        -- apply G2. unfold requested in *; lia.
      * right. split; [|done]. split_and!; [auto|lia|done|]. intros i Hi Hl.
        destruct (decide (i < ctr s1)%nat).
        -- apply G0, K2. unfold requested in *; lia.
        -- apply G3; unfold requested in *; lia.
    + intros i Hi Hl. destruct (decide (i < ctr s1)%nat) as [Hlt|].
      * apply N1; [unfold requested in *; lia|]. by apply L2.
      * apply N2; [unfold requested in *; lia|done].
  - destruct (Hs _ HP _ _ _ _ e) as (C2 & L2 & HQ). split_and!.
    + intros i Hi. rewrite C2. apply W1. by apply L2.
    + lia.
    + intros i Hi. rewrite L2. by apply L1.
    + right. split; [|done]. unfold last_refused, requested in *. rewrite C2. split_and!.
      * intros i Hi. apply L2. auto.
      * lia.
      * by rewrite L2.
      * intros i Hi Hl. apply L2. auto.
    + intros i Hi Hl. apply N1; [unfold requested in *; lia|by apply L2].
Qed.
Lemma hd_calm_bind {A B} (m : M A) (k : A -> M B) Q : calm m -> (forall a, hoard (k a) Q) -> hoard (bind m k) Q.
Proof.
  intros H1 H2. eapply (hd_bind _ _ (fun _ => False)); [by apply hd_calm|done|done].
Qed.
Lemma hd_alloc n c : hoard (raw_alloc n c) (fun p => p = HNull).
Proof.
  intros E s a s' Hw. unfold raw_alloc, alloc_tag. case_match; intros [= <- <-]; split_and!; cbn [ctr heap].
  - intros b. unfold live. cbn [heap ctr]. destruct (decide (b = ctr s)) as [->|]; [lia|].
    rewrite lookup_insert_ne by done. intros Hb. apply Hw in Hb. lia.
  - lia.
  - intros b Hb. unfold live. cbn [heap]. rewrite lookup_insert_ne by lia. done.
  - left. split; unfold live, requested; cbn [heap ctr].
    + intros b Hb. pose proof (Hw _ Hb). by rewrite lookup_insert_ne by lia.
    + intros k Hk. assert (k = ctr s) as -> by lia. rewrite lookup_insert. by eauto.
  - unfold requested. cbn [ctr]. intros k Hk _. assert (k = ctr s) as -> by lia.
    eexists _, _. by eapply andb_prop, H.
  - intros b Hb. cbn [ctr]. apply Hw in Hb. lia.
  - lia.
  - done.
  - right. split; [|done]. unfold last_refused, live, requested. cbn [heap ctr]. split_and!; [done|lia| |lia].
    intros Hb. apply Hw in Hb. lia.
  - unfold requested, live. cbn [ctr heap]. intros k Hk Hb. apply Hw in Hb. lia.
Qed.

Definition afail {A} (r : status * A) : Prop := r.1 = ALLOC_FAILED.
Definition afail3 {A B} (r : status * A * B) : Prop := r.1.1 = ALLOC_FAILED.
Ltac ca_head t := match t with ?f _ => ca_head f | _ => t end.
Create HintDb ca.
Ltac ca1 :=
  lazymatch goal with
  | |- forall _, _ => intros ?
  | |- calm (ret _) => apply ca_ret
  | |- calm (undef _) => apply ca_undef
  | |- calm (check _ _) => apply ca_check
  | |- calm (opt _ _) => apply ca_opt
  | |- calm (ask _) => apply ca_ask
  | |- calm (deref _) => apply ca_deref
  | |- calm (set_content _ _) => apply ca_set_content
  | |- calm (bind _ _) => apply ca_bind
  | |- calm (iter _ _ _ _) => apply ca_iter
  | |- calm (iter_ret _ _ _ _) => apply ca_iter_ret
  | |- calm (dispatch_all _ _ _) => apply ca_dispatch_all
  | |- calm (match ?x with _ => _ end) => destruct x
  | |- calm ?m => first [solve [eauto with ca] | let h := ca_head m in unfold h; cbv beta]
  end.
Ltac ca := intros; repeat ca1; try done.

Lemma ca_dispatch_float {A} dt (f : tcode -> M A) d : (forall t, calm (f t)) -> calm d -> calm (dispatch_float dt f d).
Proof. intros H1 H2. unfold dispatch_float. repeat case_match; auto. Qed.
#[export] Hint Resolve ca_dispatch_float : ca.

Lemma hd_layout ltype ndim : hoard (create_default_layout ltype ndim) afail.
Proof.
  unfold create_default_layout. destruct (negb _); [apply hd_calm; ca|].
  destruct (ndim =? 0); cbn [negb andb].
  - apply hd_calm_bind; [ca|]. intros p. apply hd_calm. ca.
  - eapply hd_bind; [apply hd_alloc| |].
    + intros p. apply hd_calm. ca.
    + intros p ->. by apply sl_ret.
Qed.
Lemma hd_shape ltype dims ndim : hoard (create_shape ltype dims ndim) afail3.
Proof.
  unfold create_shape.
  assert (forall p, hoard (let* l := for64 0 ndim (fun i acc => let* d := aget dims i in ret (acc ++ [d])) [] in
    fill_ints p (to_size (8 * ndim)) l ;;;
    let* (s, m) := create_default_layout ltype ndim in ret (s, p, m)) afail3) as H.
  { intros p. apply hd_calm_bind; [ca|]. intros l. apply hd_calm_bind; [ca|]. intros _.
    eapply hd_bind; [apply hd_layout| |].
    - intros [st m]. apply hd_calm. ca.
    - intros [st m] Ha. by apply sl_ret. }
  destruct (ndim =? 0); cbn [negb andb].
  - apply hd_calm_bind; [ca|]. intros p. apply H.
  - eapply hd_bind; [apply hd_alloc| |].
    + intros p. destruct (is_null p); [apply hd_calm; ca|]. apply H.
    + intros p ->. by apply sl_ret.
Qed.
Lemma hd_storage dt dev size data : hoard (create_storage dt dev size data) afail.
Proof.
  unfold create_storage. eapply hd_bind; [apply hd_alloc| |].
  2: { intros p ->. by apply sl_ret. }
  intros p. destruct (is_null p); [apply hd_calm; ca|].
  assert (forall d, hoard (if is_null d then ret (ALLOC_FAILED, HUndef) else
    set_content p (CStorage (SI dt dev size d)) ;;; ret (SUCCESS, p)) afail) as H by (intros; apply hd_calm; ca).
  destruct (is_null data).
  - eapply hd_bind; [|apply H|].
    + apply hd_calm_bind; [ca|]. intros n. apply hd_alloc.
    + intros d ->. by apply sl_ret.
  - apply hd_calm_bind; [ca|]. apply H.
Qed.
Lemma hd_create dt dev dims ndim data len o : hoard (aitisa_create dt dev dims ndim data len o) afail.
Proof.
  unfold aitisa_create. eapply hd_bind; [apply hd_alloc| |].
  2: { intros p ->. by apply sl_ret. }
  intros t. destruct (is_null t); [apply hd_calm; ca|].
  apply hd_calm_bind; [ca|]. intros size. apply hd_calm_bind; [ca|]. intros bad.
  destruct bad; [apply hd_calm; ca|].
  eapply hd_bind; [apply hd_shape| |].
  2: { intros [[st pd] pm]. unfold afail3. cbn. intros ->. rewrite bool_decide_eq_false_2 by done. by apply sl_ret. }
  intros [[st pd] pm]. destruct (negb _); [apply hd_calm; ca|].
  eapply hd_bind; [apply hd_storage| |].
  2: { intros [s2 x]. unfold afail. cbn. intros ->. rewrite bool_decide_eq_false_2 by done. by apply sl_ret. }
  intros [s2 x]. apply hd_calm. ca.
Qed.
(** An operation that creates its output and then only reads and writes elements. *)
Lemma hd_after {A} (m : M (status * hval)) (k : status * hval -> M (status * A)) :
  hoard m afail -> (forall r, calm (k r)) -> (forall h, still (k (ALLOC_FAILED, h)) afail) -> hoard (bind m k) afail.
Proof.
  intros H1 H2 H3. eapply hd_bind; [apply H1| |].
  - intros r. by apply hd_calm.
  - intros [st h] Hf. unfold afail in Hf. cbn in Hf. subst. apply H3.
Qed.
Lemma hd_full dt dev dims ndim v o : hoard (aitisa_full dt dev dims ndim v o) afail.
Proof.
  apply hd_after; [apply hd_create|ca|]. intros h. cbv beta match. rewrite bool_decide_eq_false_2 by done. by apply sl_ret.
Qed.
Lemma hd_cast p dt o : hoard (aitisa_cast p dt o) afail.
Proof.
  unfold aitisa_cast. apply hd_calm_bind; [ca|]. intros dt1. destruct (_ =? _); [apply hd_calm; ca|].
  do 3 (apply hd_calm_bind; [ca|]; intros ?).
  apply hd_after; [apply hd_create|ca|]. intros h. rewrite bool_decide_eq_false_2 by done. by apply sl_ret.
Qed.
Lemma hd_reshape p dims ndim o : hoard (aitisa_reshape p dims ndim o) afail.
Proof.
  unfold aitisa_reshape. apply hd_calm_bind; [ca|]. intros n1. apply hd_calm_bind; [ca|]. intros n2.
  destruct (negb _); [apply hd_calm; ca|]. do 2 (apply hd_calm_bind; [ca|]; intros ?).
  apply hd_after; [apply hd_create|ca|]. intros h. rewrite bool_decide_eq_false_2 by done. by apply sl_ret.
Qed.
Lemma hd_like p o : hoard (nn_create_like p o) afail.
Proof.
  unfold nn_create_like. do 4 (apply hd_calm_bind; [ca|]; intros ?).
  apply hd_after; [apply hd_create|ca|]. intros h. by apply sl_ret.
Qed.
Lemma hd_sqrt p o : hoard (aitisa_sqrt p o) afail.
Proof.
  unfold aitisa_sqrt. apply hd_after; [apply hd_like|ca|]. intros h. rewrite bool_decide_eq_false_2 by done. by apply sl_ret.
Qed.
Lemma hd_relu p o : hoard (aitisa_relu p o) afail.
Proof.
  unfold aitisa_relu. apply hd_after; [apply hd_like|ca|]. intros h. rewrite bool_decide_eq_false_2 by done. by apply sl_ret.
Qed.
Lemma hd_sigmoid p o : hoard (aitisa_sigmoid p o) afail.
Proof.
  unfold aitisa_sigmoid. apply hd_after; [apply hd_like|ca|]. intros h. rewrite bool_decide_eq_false_2 by done. by apply sl_ret.
Qed.
Lemma hd_tanh p o : hoard (aitisa_tanh p o) afail.
Proof.
  unfold aitisa_tanh. apply hd_after; [apply hd_like|ca|]. intros h. rewrite bool_decide_eq_false_2 by done. by apply sl_ret.
Qed.

Lemma hoarder_hoard x o : hoarder x -> hoard (run_op x o) afail.
Proof.
  destruct x; try done; intros _; cbn [run_op];
    [apply hd_create|apply hd_full|apply hd_cast|apply hd_reshape|apply hd_sqrt|apply hd_relu|apply hd_sigmoid|apply hd_tanh].
Qed.
Lemma hoard_run x o E s st h s' : wf s -> hoarder x -> run_op x o E s = Done (st, h) s' -> exists n,
  hoarded s s' n /\ (asked s s' n \/ asked s s' (S n) /\ st = ALLOC_FAILED).
Proof.
  intros Hw Hx Hr. destruct (hoarder_hoard x o Hx _ _ _ _ Hw Hr) as (Hw' & Hc & Ho & HR & _).
  destruct HR as [[K1 K2]|[(K0 & K1 & K2 & K3) HP]].
  - exists (ctr s' - ctr s)%nat. split; [|left; unfold asked; lia]. intros b. split.
    + intros Hb. pose proof (Hw' _ Hb). destruct (decide (b < ctr s)%nat) as [Hlt|]; [left; by apply Ho|right; lia].
    + intros [Hb|Hb]; [by apply K1|]. apply K2. unfold requested. lia.
  - exists (ctr s' - ctr s - 1)%nat. split; [|right; split; [unfold asked; lia|done]]. intros b. split.
    + intros Hb. pose proof (Hw' _ Hb). destruct (decide (b < ctr s)%nat) as [Hlt|]; [left; by apply Ho|right].
      destruct (decide (b = ctr s' - 1)%nat) as [->|]; [done|lia].
    + intros [Hb|Hb]; [by apply K0|]. apply K3; [unfold requested; lia|lia].
Qed.

Lemma hoarded_size s s' n : wf s -> hoarded s s' n -> size (heap s') = (size (heap s) + n)%nat.
Proof.
  intros Hw H. rewrite <-!(size_dom (D := gset nat)).
  assert (dom (heap s') = dom (heap s) ∪ (list_to_set (seq (ctr s) n) : gset nat)) as ->.
  { apply set_eq. intros b. rewrite elem_of_union, !elem_of_dom, elem_of_list_to_set, elem_of_seq. apply H. }
  rewrite size_union.
  - rewrite size_list_to_set by apply NoDup_seq. by rewrite seq_length.
  - intros b Hb. rewrite elem_of_list_to_set, elem_of_seq. rewrite elem_of_dom in Hb. apply Hw in Hb. lia.
Qed.

(** The first [j] requests are granted and the next is not: that is where the call ends. *)
Lemma hoard_stop x o E ok s st h s' j : wf s -> hoarder x -> refuses_nth ok s j ->
  run_op x o (schedule E ok) s = Done (st, h) s' -> (ctr s + j < ctr s')%nat ->
  st = ALLOC_FAILED /\ hoarded s s' j /\ asked s s' (S j).
Proof.
  intros Hw Hx [Hy Hn] Hr Hj. destruct (hoarder_hoard x o Hx _ _ _ _ Hw Hr) as (Hw' & Hc & Ho & HR & HN).
  assert (~ live s' (ctr s + j)) as Hd.
  { intros Hl. destruct (HN (ctr s + j)%nat) as (g & n & He); [unfold requested; lia|done|]. cbn in He. congruence. }
  destruct HR as [[_ K2]|[(K0 & K1 & K2 & K3) HP]].
  { destruct Hd. apply K2. unfold requested. lia. }
  assert (ctr s' = S (ctr s + j)) as Hs.
  { destruct (decide (ctr s + j = ctr s' - 1)%nat); [lia|]. destruct Hd. apply K3; [unfold requested|]; lia. }
  split_and!; [done| |unfold asked; lia]. intros b. split.
  - intros Hb. pose proof (Hw' _ Hb). destruct (decide (b < ctr s)%nat) as [Hlt|]; [left; by apply Ho|right].
    destruct (decide (b = ctr s' - 1)%nat) as [->|]; [done|lia].
  - intros [Hb|Hb]; [by apply K0|]. apply K3; [unfold requested; lia|lia].
Qed.

Lemma hoard_leak x o E ok s j r s1 : wf s -> hoarder x -> refuses_nth ok s j ->
  run_op x o (plenty E) s = Done r s1 -> (ctr s + j < ctr s1)%nat ->
  exists s', run_op x o (schedule E ok) s = Done (ALLOC_FAILED, o) s' /\ hoarded s s' j /\ asked s s' (S j).
Proof.
  intros Hw Hx Hn Hr Hj.
  assert (careful x E s) as Hcf by (by destruct x).
  assert (forall h, kept_output x o h -> h = o) as Hko by (by destruct x).
  destruct (careful_reports x o E ok s Hw Hcf) as [[H1 H2]|(k & h & s' & H1 & Hh & Hk & Hno & _)].
  - exfalso. rewrite Hr in H1. specialize (H2 _ _ H1 (ctr s + j)%nat). destruct Hn as [_ Hn].
    rewrite H2 in Hn; [done|]. unfold requested. lia.
  - rewrite (Hko _ Hh) in H1. exists s'. split; [done|].
    destruct (hoard_stop x o E ok s _ _ _ j Hw Hx Hn H1) as (_ & ? & ?); [|done].
    destruct Hn as [Hy _]. unfold requested in Hk. destruct (decide (k < ctr s + j)%nat); [|lia].
    rewrite Hy in Hno; [done|lia].
Qed.

Lemma create_leak t dev dims o E ok s j : wf s -> fits (tsz t) dims -> refuses_nth ok s j -> (j < requests dims)%nat ->
  exists s', aitisa_create (dtype_of t) dev dims (Z.of_nat (length dims)) HNull 0 o (schedule E ok) s = Done (ALLOC_FAILED, o) s' /\
    hoarded s s' j /\ asked s s' (S j).
Proof.
  intros Hw Hf Hn Hj.
  destruct (create_granted t dev dims o E (fun _ => true) s Hw Hf) as (s1 & p & pd & pm & ps & px & Hr & _ & Hc); [done|].
  apply (hoard_leak (OCreate (dtype_of t) dev dims (Z.of_nat (length dims)) HNull 0) o E ok s j _ s1 Hw I Hn Hr). lia.
Qed.
