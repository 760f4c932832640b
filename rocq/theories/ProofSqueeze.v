(** * ProofSqueeze: scratch memory and aitisa_squeeze *)
From stdpp Require Import gmap list.
From Coq Require Import ZArith Lia.
From Coq Require Import ZifyBool ZifyNat.
From Verif Require Import Base Mem Spec ModelCore ModelBasic Logic ProofCore ProofCore2 ProofKernel
  ProofBasic.
Open Scope Z_scope.

Ltac Zify.zify_post_hook ::= Z.div_mod_to_equations.

(** ** Scratch memory *)
Lemma created_free E s1 s2 p T k b : created_k E s1 s2 p T k -> is_Some (heap s1 !! b) ->
  created_k E (st_free s1 b) (st_free s2 b) p T k.
Proof.
  intros (HT & new & Ho & Hh & Hd & Hr & Hc & Hk) [x Hx]. split; [done|].
  exists new. cbn [heap ctr rpos st_free]. split_and!; [done| | |done|done|done].
  - rewrite Hh, delete_union. f_equal. apply delete_notin.
    by eapply map_disjoint_Some_r.
  - by apply map_disjoint_delete_r.
Qed.
Lemma created_rebase E s s1 s2 p T k j : created_k E s1 s2 p T k ->
  heap s1 = heap s -> (ctr s <= ctr s1)%nat -> rpos s1 = (rpos s + j)%nat ->
  created_k E s s2 p T (j + k).
Proof.
  intros (HT & new & Ho & Hh & Hd & Hr & Hc & Hk) He Hl Hj. split; [done|].
  exists new. rewrite <-He. split_and!; [done|done|done| |lia|lia].
  intros b Hb. apply Hr in Hb. lia.
Qed.
Lemma wf_free s b : wf s -> wf (st_free s b).
Proof. intros H c. cbn. rewrite lookup_delete_is_Some. intros [_ Hc]. by apply H. Qed.
Lemma keeps_free s s' b : wf s -> keeps s s' -> (ctr s <= b)%nat -> keeps s (st_free s' b).
Proof.
  intros Hwf (Hs & Hw & Hc) Hb. split_and!; [|by apply wf_free|done].
  cbn. rewrite <-(delete_notin (heap s) b) by (by apply wf_fresh). by apply delete_mono.
Qed.
Lemma keeps_wf s s' : keeps s s' -> wf s'.
Proof. by intros (_ & ? & _). Qed.
Lemma keeps_sub s s' : keeps s s' -> heap s ⊆ heap s'.
Proof. by intros (? & _). Qed.
Lemma keeps_ctr s s' : keeps s s' -> (ctr s <= ctr s')%nat.
Proof. by intros (_ & _ & ?). Qed.
Lemma keeps_created E s s' p T k : wf s -> created_k E s s' p T k -> keeps s s'.
Proof.
  intros Hw Hc. split_and!; [by eapply created_sub|by eapply created_wf|].
  by destruct Hc as (_ & new & _ & _ & _ & _ & ? & _).
Qed.

Lemma wp_scratch {B} n (k : hval -> M B) E s Q : 0 <= n <= PTRDIFF_MAX ->
  wp (k (HPtr (ctr s))) E (st_alloc s (Blk (e_alloc E) (CRaw n))) Q ->
  (~ alloc_all E -> wp (k HNull) E (st_fail s) Q) ->
  wp (bind (scratch n) k) E s Q.
Proof.
  intros Hn H1 H2. unfold scratch.
  destruct (raw_alloc_cases n CRaw E s Hn) as [Ha|[Hna Ha]]; (eapply wp_step; [exact Ha|]); auto.
Qed.

Lemma st_alloc_lookup s x : heap (st_alloc s x) !! ctr s = Some x.
Proof. cbn. by rewrite lookup_insert. Qed.
Lemma st_alloc_sub s x : wf s -> heap s ⊆ heap (st_alloc s x).
Proof. intros Hw. cbn. apply insert_subseteq. by apply wf_fresh. Qed.

Lemma wp_free {B} b x (k : unit -> M B) E s Q :
  hooks_ok E -> heap s !! b = Some x -> b_tag x = e_alloc E ->
  wp (k tt) E (st_free s b) Q -> wp (bind (raw_dealloc (HPtr b)) k) E s Q.
Proof.
  intros HE Hb Ht Hk. eapply wp_step; [|exact Hk].
  eapply raw_dealloc_ok; [done|]. rewrite Ht. symmetry. exact HE.
Qed.

(** ** squeeze *)
Definition mark (named : nat -> bool) (dims : list Z) : list Z :=
  imap (fun i d => if named i && (d =? 1) then 0 else d) dims.

Lemma mark_filter named dims : Forall (fun d => d <> 0) dims ->
  filter (fun d => d <> 0) (mark named dims) = squeeze_dims named dims.
Proof.
  intros H. revert named. induction H as [|d dims Hd H IH]; intros named; [done|].
  unfold mark. rewrite imap_cons. cbn [squeeze_dims].
  destruct (named 0%nat && (d =? 1)) eqn:Hm.
  - rewrite filter_cons_False by (intros Hx; done). apply (IH (fun i => named (S i))).
  - rewrite filter_cons_True by done. f_equal. apply (IH (fun i => named (S i))).
Qed.
Lemma mark_length named dims : length (mark named dims) = length dims.
Proof. apply imap_length. Qed.
Lemma mark_lookup named dims i : mark named dims !! i
  = (fun d => if named i && (d =? 1) then 0 else d) <$> dims !! i.
Proof. apply list_lookup_imap. Qed.

Lemma squeeze_dims_prod named dims : prodZ (squeeze_dims named dims) = prodZ dims.
Proof.
  revert named. induction dims as [|d dims IH]; intros named; [done|]. cbn [squeeze_dims].
  destruct (named 0%nat && (d =? 1)) eqn:Hm; rewrite ?prodZ_cons, IH; [|done]. lia.
Qed.
Lemma squeeze_dims_max named dims :
  prodZ (Z.max 1 <$> squeeze_dims named dims) = prodZ (Z.max 1 <$> dims).
Proof.
  revert named. induction dims as [|d dims IH]; intros named; [done|]. cbn [squeeze_dims].
  destruct (named 0%nat && (d =? 1)) eqn:Hm; cbn [fmap list_fmap];
    change (list_fmap Z Z (Z.max 1)) with (fmap (M:=list) (Z.max 1));
    rewrite ?prodZ_cons, IH; [|done]. 
  replace d with 1 by lia. rewrite Z.max_id. lia.
Qed.
Lemma squeeze_dims_len named dims : (length (squeeze_dims named dims) <= length dims)%nat.
Proof.
  revert named. induction dims as [|d dims IH]; intros named; [done|]. cbn [squeeze_dims].
  specialize (IH (fun i => named (S i))). destruct (_ && _); cbn; lia.
Qed.
Lemma squeeze_dims_forall P named dims : Forall P dims -> Forall P (squeeze_dims named dims).
Proof.
  intros H. revert named. induction H as [|d dims Hd H IH]; intros named; [constructor|].
  cbn [squeeze_dims]. destruct (_ && _); [done|]. by constructor.
Qed.
Lemma squeeze_dims_fits sz named dims : fits sz dims -> fits sz (squeeze_dims named dims).
Proof.
  intros (H1 & H2 & H3). split_and!.
  - by apply squeeze_dims_forall.
  - pose proof (squeeze_dims_len named dims). lia.
  - by rewrite squeeze_dims_max.
Qed.
Lemma squeeze_dims_ext f g dims : (forall i, (i < length dims)%nat -> f i = g i) ->
  squeeze_dims f dims = squeeze_dims g dims.
Proof.
  revert f g. induction dims as [|d dims IH]; intros f g H; [done|]. cbn [squeeze_dims].
  rewrite H by (cbn; lia). rewrite (IH _ (fun i => g (S i))); [done|].
  intros i Hi. apply H. cbn. lia.
Qed.

Lemma filter_insert_0 (l : list Z) a x : l !! a = Some x -> x <> 0 ->
  (length (filter (fun d => d <> 0%Z) (<[a := 0%Z]> l)) + 1 = length (filter (fun d => d <> 0%Z) l))%nat.
Proof.
  intros Ha Hx. rewrite insert_take_drop by (by eapply lookup_lt_Some).
  rewrite <-(take_drop_middle l a x Ha) at 3.
  rewrite !filter_app, !app_length. rewrite filter_cons_False by (intros H; done).
  rewrite filter_cons_True by done. cbn. lia.
Qed.

Definition inb (i : nat) (l : list nat) : bool := bool_decide (i ∈ l).

(** The loop that zeroes the selected unit extents *)
Lemma mark_loop n0 dims ax (body : Z -> list Z * Z -> M (list Z * Z)) E s :
  n0 = Z.of_nat (length ax) ->
  Forall (fun d => d <> 0) dims -> NoDup ax -> Forall (fun a => (a < length dims)%nat) ax ->
  (forall k a proc n, ax !! k = Some a ->
     body (Z.of_nat k) (proc, n) E s
     = (let* d := aget dims (Z.of_nat a) in
        if d =? 1 then let* proc := aset proc (Z.of_nat a) 0 in ret (proc, n - 1)
        else ret (proc, n)) E s) ->
  for64 0 n0 body (dims, Z.of_nat (length dims)) E s
  = Done (mark (fun i => inb i ax) dims,
          Z.of_nat (length (squeeze_dims (fun i => inb i ax) dims))) s.
Proof.
  intros -> Hnz Hnd Hax Hb.
  rewrite (for64_pure (fun k => (mark (fun i => inb i (take k ax)) dims,
    Z.of_nat (length (filter (fun d => d <> 0) (mark (fun i => inb i (take k ax)) dims)))))
    _ _ _ (length ax)).
  - by rewrite firstn_all, mark_filter.
  - rewrite mark_filter by done. change (take 0 ax) with (@nil nat).
    assert (forall f, (forall i, f i = false) -> mark f dims = dims /\ squeeze_dims f dims = dims) as H.
    { clear. intros f Hf. split.
      - apply list_eq. intros i. rewrite mark_lookup, Hf. by destruct (dims !! i).
      - revert f Hf. induction dims as [|d dims IH]; intros f Hf; [done|]. cbn. rewrite Hf. cbn.
        f_equal. by apply IH. }
    destruct (H (fun i => inb i [])) as [-> ->]; [|done].
    intros i. apply bool_decide_eq_false_2. apply not_elem_of_nil.
  - lia.
  - intros k Hk. rewrite Z.add_0_l. destruct (lookup_lt_is_Some_2 ax k Hk) as [a Ha].
    rewrite (Hb k a) by done.
    assert (a < length dims)%nat as Hal by (eapply Forall_lookup in Hax; done).
    destruct (lookup_lt_is_Some_2 dims a Hal) as [d Hd].
    erewrite bind_done by (by apply aget_nat).
    assert (inb a (take k ax) = false) as Hna.
    { apply bool_decide_eq_false_2. intros (j & Hj)%elem_of_list_lookup.
      apply lookup_take_Some in Hj as [Hj Hlt]. assert (j = k) by (by eapply NoDup_lookup). lia. }
    assert (forall i, inb i (take (S k) ax) = inb i (take k ax) || bool_decide (i = a)) as HS.
    { intros i. unfold inb. erewrite take_S_r by done.
      apply eq_iff_eq_true. rewrite orb_true_iff, !bool_decide_eq_true, elem_of_app, elem_of_list_singleton. done. }
    destruct (Z.eqb_spec d 1) as [->|Hd1].
    + erewrite bind_done.
      2:{ apply aset_nat. by rewrite mark_length. }
      assert (mark (λ i : nat, inb i (take (S k) ax)) dims
        = <[a := 0]> (mark (λ i : nat, inb i (take k ax)) dims)) as Hm.
      { apply list_eq. intros i. destruct (decide (i = a)) as [->|Hne].
        - rewrite list_lookup_insert by (by rewrite mark_length).
          rewrite mark_lookup, Hd, HS, bool_decide_eq_true_2 by done. cbn. by rewrite orb_true_r.
        - rewrite list_lookup_insert_ne by done.
          rewrite !mark_lookup, HS, (bool_decide_eq_false_2 (i = a)) by done. by rewrite orb_false_r. }
      rewrite Hm. unfold ret. do 2 f_equal.
      assert (mark (λ i : nat, inb i (take k ax)) dims !! a = Some 1) as Hl.
      { by rewrite mark_lookup, Hd, Hna. }
      pose proof (filter_insert_0 _ a 1 Hl ltac:(lia)). lia.
    + assert (mark (λ i : nat, inb i (take (S k) ax)) dims
        = mark (λ i : nat, inb i (take k ax)) dims) as ->; [|done].
      apply list_eq. intros i. rewrite !mark_lookup, HS.
      destruct (decide (i = a)) as [->|Hne].
      * rewrite Hd. cbn. replace (d =? 1) with false by lia. by rewrite !andb_false_r.
      * rewrite (bool_decide_eq_false_2 (i = a)) by done. by rewrite orb_false_r.
Qed.

(** The loop that collects the non-zero entries *)
Lemma collect_loop (proc : list Z) E s :
  let out := filter (fun d => d <> 0) proc in
  for64 0 (Z.of_nat (length proc)) (fun i '(out_dims, j) =>
     let* d := aget proc i in
     if d =? 0 then ret (out_dims, j)
     else let* out_dims := aset out_dims j (Some d) in ret (out_dims, j + 1))
   (replicate (length out) None, 0) E s
  = Done (Some <$> out, Z.of_nat (length out)) s.
Proof.
  intros out.
  set (cur := fun k => filter (fun d => d <> 0) (take k proc)).
  assert (forall k, (length (cur k) <= length out)%nat) as Hle.
  { intros k. unfold cur, out. rewrite <-(take_drop k proc) at 2.
    rewrite filter_app, app_length. lia. }
  rewrite (for64_pure (fun k => ((Some <$> cur k) ++ replicate (length out - length (cur k)) None,
    Z.of_nat (length (cur k)))) _ _ _ (length proc)).
  - unfold cur. rewrite firstn_all. fold out. rewrite Nat.sub_diag. cbn. by rewrite app_nil_r.
  - unfold cur. cbn. by rewrite Nat.sub_0_r.
  - lia.
  - intros k Hk. rewrite Z.add_0_l. destruct (lookup_lt_is_Some_2 proc k Hk) as [d Hd].
    erewrite bind_done by (by apply aget_nat).
    pose proof (Hle (S k)) as Hl. unfold cur in *. rewrite (take_S_r _ _ _ Hd) in *.
    rewrite filter_app in *.
    destruct (Z.eqb_spec d 0) as [->|Hd0].
    + rewrite filter_cons_False by (intros H; done). by rewrite app_nil_r.
    + rewrite filter_cons_True in * by done. rewrite app_length in Hl |- *. cbn in Hl.
      erewrite bind_done.
      2:{ apply aset_nat. rewrite app_length, fmap_length, replicate_length. lia. }
      rewrite insert_app_r_alt by (rewrite fmap_length; lia).
      rewrite fmap_length, Nat.sub_diag. cbn.
      set (fk := filter _ (take k proc)) in *.
      replace (length out - length fk)%nat with (S (length out - (length fk + 1))) by lia.
      cbn. unfold ret. rewrite fmap_app, <-app_assoc. cbn. do 2 f_equal. lia.
Qed.

Lemma force_some (l : list Z) E s : force_array (Some <$> l) E s = Done l s.
Proof. apply force_array_ok. Qed.

Lemma squeeze_rule p T axis ax o E s :
  wf s -> hooks_ok E -> holds (heap s) p T -> Forall (fun d => d <> 0) (a_dims T) ->
  (if decide (axis = []) then ax = seq 0 (length (a_dims T)) else axis = Z.of_nat <$> ax) ->
  NoDup ax -> Forall (fun a => (a < length (a_dims T))%nat) ax ->
  makes_or_nomem (aitisa_squeeze (HPtr p) axis (Z.of_nat (length axis)) o) E s o
    (AT (a_type T) (a_dev T) (squeeze_dims (fun i => inb i ax) (a_dims T)) (a_vals T)).
Proof.
  intros Hwf HE HT Hnz Hax Hnd Hlt. apply Qmakes_elim. unfold aitisa_squeeze.
  pose proof HT as (HvT & bx & tg & ex & Hv & Hx).
  pose proof (valid_fits _ HvT) as Hfit. pose proof (fits_len _ _ Hfit) as Hlen.
  eapply wp_step; [by eapply tensor_dims_ok|].
  eapply wp_step; [by eapply tensor_ndim_ok|].
  replace (Z.of_nat (length axis) <? 0) with false by lia.
  rewrite Nat2Z.id.
  eapply wp_step.
  { apply (iter_ret_pure (fun _ => tt)); [done|]. intros k Hk. rewrite Z.add_0_l.
    destruct (lookup_lt_is_Some_2 axis k Hk) as [a Ha].
    erewrite bind_done by (by apply aget_nat).
    replace (a <? 0) with false; [done|].
    destruct (decide (axis = [])) as [->|]; [done|]. subst axis.
    rewrite list_lookup_fmap in Ha. destruct (ax !! k); simplify_eq/=. lia. }
  cbv beta match.
  apply wp_scratch; [llia| |].
  2:{ intros Hna. cbn [is_null]. apply wp_ret. right. split_and!; [done|done|by apply keeps_fail]. }
  cbn [is_null]. set (s1 := st_alloc s _).
  assert (wf s1) as Hwf1 by (by apply wf_alloc).
  assert (keeps s s1) as Hk1 by (by apply keeps_alloc).
  eapply wp_step.
  { apply append_loop. intros k x acc Hk. erewrite bind_done by (by apply aget_nat). done. }
  eapply (wp_step _ _ _ _ (mark (fun i => inb i ax) (a_dims T),
    Z.of_nat (length (squeeze_dims (fun i => inb i ax) (a_dims T)))) s1).
  { destruct (decide (axis = [])) as [->|Hne].
    - cbn [length Z.of_nat Z.eqb]. subst ax.
      cbn [Z.of_nat Z.eqb].
      apply mark_loop; [by rewrite seq_length|done|done|done|].
      intros k a proc n Hk. apply lookup_seq in Hk as [-> Hk]. done.
    - destruct (Z.eqb_spec (Z.of_nat (length axis)) 0) as [H0|H0].
      { destruct axis; [done|cbn in H0; lia]. }
      subst axis. rewrite fmap_length.
      apply mark_loop; [done|done|done|done|].
      intros k a proc n Hk. erewrite bind_done; [done|].
      apply aget_nat. by rewrite list_lookup_fmap, Hk. }
  cbv beta match.
  pose proof (squeeze_dims_len (fun i => inb i ax) (a_dims T)) as Hsl.
  apply wp_scratch; [llia| |].
  2:{ intros Hna. cbn [is_null]. apply wp_ret. right. split_and!; [done|done|].
      eapply keeps_trans; [done|]. by apply keeps_fail. }
  cbn [is_null]. set (s2 := st_alloc s1 _).
  assert (wf s2) as Hwf2 by (by apply wf_alloc).
  assert (keeps s s2) as Hk2 by (eapply keeps_trans; [done|by apply keeps_alloc]).
  rewrite <-(mark_filter (fun i => inb i ax)) at 1 by done.
  eapply wp_step.
  { rewrite <-(mark_length (fun i => inb i ax) (a_dims T)) at 1. unfold arr. rewrite Nat2Z.id.
    apply collect_loop. }
  cbv beta match. rewrite mark_filter by done.
  eapply wp_step; [apply force_some|].
  set (od := squeeze_dims _ _) in *.
  apply wp_bind.
  assert (holds (heap s2) p T) as HT2.
  { eapply holds_mono; [by eapply keeps_sub|done]. }
  destruct (reshape_rule p T od o E s2 Hwf2 HT2) as [(s3 & q & Hr & Hc)|(Hna & s3 & Hr & Hk)].
  { by apply squeeze_dims_fits. }
  { apply squeeze_dims_prod. }
  - eapply wp_intro; [exact Hr|]. cbv beta match.
    assert (heap s2 !! ctr s = Some (Blk (e_alloc E) (CRaw (8 * Z.of_nat (length (a_dims T)))))) as Hb1.
    { cbn. rewrite lookup_insert_ne by lia. by rewrite lookup_insert. }
    assert (is_Some (heap s2 !! ctr s1)) as Hb2 by (unfold s2; rewrite st_alloc_lookup; eauto).
    eapply wp_free; [done|eapply lookup_weaken; [exact Hb1|by eapply created_sub]|done|].
    eapply wp_free; [done|cbn [st_free heap]; rewrite lookup_delete_ne by (cbn; lia);
      eapply lookup_weaken; [apply st_alloc_lookup|by eapply created_sub]|done|].
    apply wp_ret. left. exists q. split; [done|].
    eapply created_free in Hc; [|by eexists]. eapply (created_free _ _ _ _ _ _ (ctr s1)) in Hc.
    2:{ cbn [heap st_free]. rewrite lookup_delete_ne by (cbn; lia). done. }
    eapply (created_rebase _ _ _ _ _ _ _ 0) in Hc; [exact Hc| |cbn; lia|cbn; lia].
    cbn. rewrite delete_insert_ne by lia.
    rewrite (delete_insert (heap s)) by (apply wf_fresh; [done|lia]).
    apply delete_insert. apply wf_fresh; [done|lia].
  - eapply wp_intro; [exact Hr|]. cbv beta match.
    assert (heap s2 !! ctr s = Some (Blk (e_alloc E) (CRaw (8 * Z.of_nat (length (a_dims T)))))) as Hb1.
    { cbn. rewrite lookup_insert_ne by lia. by rewrite lookup_insert. }
    eapply wp_free; [done|eapply lookup_weaken; [exact Hb1|by eapply keeps_sub]|done|].
    eapply wp_free; [done|cbn [st_free heap]; rewrite lookup_delete_ne by (cbn; lia);
      eapply lookup_weaken; [apply st_alloc_lookup|by eapply keeps_sub]|done|].
    apply wp_ret. right. split_and!; [done|done|].
    apply keeps_free; [done| |cbn; lia]. apply keeps_free; [done| |lia].
    by eapply keeps_trans.
Qed.

Lemma squeeze_all p T axis o E s :
  wf s -> hooks_ok E -> holds (heap s) p T -> Forall (fun d => d <> 0) (a_dims T) ->
  axis = [] ->
  makes_or_nomem (aitisa_squeeze (HPtr p) axis 0 o) E s o
    (AT (a_type T) (a_dev T) (squeeze_dims (fun _ => true) (a_dims T)) (a_vals T)).
Proof.
  intros Hwf HE HT Hnz ->.
  rewrite (squeeze_dims_ext _ (fun i => inb i (seq 0 (length (a_dims T))))).
  2:{ intros i Hi. symmetry. apply bool_decide_eq_true_2. apply elem_of_seq. lia. }
  eapply (squeeze_rule p T [] _ o E s); try done.
  - apply NoDup_seq.
  - apply Forall_seq. lia.
Qed.

(** The unit extents are exactly what [squeeze_dims] drops. *)
Lemma squeeze_dims_all dims : squeeze_dims (fun _ => true) dims = filter (fun d => d <> 1) dims.
Proof.
  induction dims as [|d dims IH]; [done|]. cbn [squeeze_dims andb]. rewrite IH.
  destruct (Z.eqb_spec d 1) as [->|].
  - by rewrite filter_cons_False by (intros H; done).
  - by rewrite filter_cons_True by done.
Qed.

Lemma squeeze_unit p T o E s :
  wf s -> hooks_ok E -> holds (heap s) p T -> Forall (fun d => d <> 0) (a_dims T) ->
  makes_or_nomem (aitisa_squeeze (HPtr p) [] 0 o) E s o
    (AT (a_type T) (a_dev T) (filter (fun d => d <> 1) (a_dims T)) (a_vals T)).
Proof. intros. rewrite <-squeeze_dims_all. by apply squeeze_all. Qed.

Lemma squeeze_named p T axis o E s :
  wf s -> hooks_ok E -> holds (heap s) p T -> Forall (fun d => d <> 0) (a_dims T) ->
  axis <> [] -> NoDup axis -> Forall (fun a => 0 <= a < Z.of_nat (length (a_dims T))) axis ->
  makes_or_nomem (aitisa_squeeze (HPtr p) axis (Z.of_nat (length axis)) o) E s o
    (AT (a_type T) (a_dev T)
        (squeeze_dims (fun i => bool_decide (Z.of_nat i ∈ axis)) (a_dims T)) (a_vals T)).
Proof.
  intros Hwf HE HT Hnz Hne Hnd Hr.
  assert (axis = Z.of_nat <$> (Z.to_nat <$> axis)) as Heq.
  { rewrite <-list_fmap_compose. symmetry. rewrite <-(list_fmap_id axis) at 2.
    apply Forall_fmap_ext_1. eapply Forall_impl; [exact Hr|]. intros a Ha. cbn in *. lia. }
  rewrite (squeeze_dims_ext _ (fun i => inb i (Z.to_nat <$> axis))).
  2:{ intros i Hi. apply bool_decide_ext. rewrite Heq at 1. rewrite elem_of_list_fmap.
      split; [intros (y & Hy & ?); by apply Nat2Z.inj in Hy as ->|eauto]. }
  apply squeeze_rule; try done.
  - by destruct (decide (axis = [])).
  - rewrite Heq in Hnd. by apply NoDup_fmap_1 in Hnd.
  - apply Forall_fmap. eapply Forall_impl; [exact Hr|]. intros a Ha. cbn in *. lia.
Qed.

Lemma squeeze_negative p T axis o E s :
  holds (heap s) p T -> Exists (fun a => a < 0) axis ->
  refuses (aitisa_squeeze (HPtr p) axis (Z.of_nat (length axis)) o) E s o INVALID_ARGUMENT.
Proof.
  intros (HvT & bx & tg & ex & Hv & Hx) Hex. unfold refuses, aitisa_squeeze.
  erewrite bind_done by (by eapply tensor_dims_ok).
  erewrite bind_done by (by eapply tensor_ndim_ok).
  replace (Z.of_nat (length axis) <? 0) with false by lia. rewrite Nat2Z.id.
  assert (exists j a, axis !! j = Some a /\ a < 0 /\ forall k b, (k < j)%nat -> axis !! k = Some b -> 0 <= b)
    as (j & a & Hj & Ha & Hbefore).
  { clear -Hex. induction Hex as [a l Ha|a l Hl IH].
    - exists 0%nat, a. split_and!; [done|done|lia].
    - destruct (decide (a < 0)).
      + exists 0%nat, a. split_and!; [done|done|lia].
      + destruct IH as (j & b & Hj & Hb & Hk). exists (S j), b. split_and!; [done|done|].
        intros [|k] c Hlt Hc; cbn in Hc; [simplify_eq; lia|]. eapply Hk; [|done]. lia. }
  rewrite (bind_done _ _ _ _ (Return INVALID_ARGUMENT) s); [done|].
  apply (iter_ret_exit (fun _ => tt) INVALID_ARGUMENT _ _ _ j); [done|by eapply lookup_lt_Some| |].
  - intros k Hk. rewrite Z.add_0_l.
    destruct (lookup_lt_is_Some_2 axis k) as [b Hb]; [apply lookup_lt_Some in Hj; lia|].
    erewrite bind_done by (by apply aget_nat).
    replace (b <? 0) with false; [done|]. specialize (Hbefore k b Hk Hb). lia.
  - rewrite Z.add_0_l. erewrite bind_done by (by apply aget_nat).
    by replace (a <? 0) with true by lia.
Qed.
Lemma squeeze_negative_count p T axis n o E s :
  holds (heap s) p T -> n < 0 ->
  refuses (aitisa_squeeze (HPtr p) axis n o) E s o INVALID_ARGUMENT.
Proof.
  intros (HvT & bx & tg & ex & Hv & Hx) Hn. unfold refuses, aitisa_squeeze.
  erewrite bind_done by (by eapply tensor_dims_ok).
  erewrite bind_done by (by eapply tensor_ndim_ok).
  by replace (n <? 0) with true by lia.
Qed.
