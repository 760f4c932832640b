(** * ProofSqueeze2: aitisa_squeeze on every list of axes *)
From stdpp Require Import gmap list.
From Coq Require Import ZArith Lia.
From Coq Require Import ZifyBool ZifyNat.
From Verif Require Import Base Mem Spec SpecSqueeze ModelCore ModelBasic Logic ProofCore ProofCore2 ProofKernel
  ProofBasic ProofSqueeze ProofExact ProofSlice2.
Open Scope Z_scope.

Lemma mark_filter_any named dims :
  filter (fun d => d <> 0) (mark named dims) = filter (fun d => d <> 0) (squeeze_dims named dims).
Proof.
  revert named. induction dims as [|d dims IH]; intros named; [done|].
  unfold mark. rewrite imap_cons. cbn [squeeze_dims]. pose proof (IH (fun i => named (S i))) as IH'.
  unfold mark in IH'. destruct (named 0%nat && (d =? 1)) eqn:Hm.
  - rewrite filter_cons_False by (intros Hx; done). exact IH'.
  - destruct (decide (d = 0)) as [->|Hd].
    + rewrite !filter_cons_False by (intros Hx; done). exact IH'.
    + rewrite !filter_cons_True by done. f_equal. exact IH'.
Qed.

Lemma mark_none f dims : (forall i, f i = false) -> mark f dims = dims.
Proof. intros Hf. apply list_eq. intros i. rewrite mark_lookup, Hf. by destruct (dims !! i). Qed.

Lemma unit_hits_snoc dims l a : unit_hits dims (l ++ [a])
  = (unit_hits dims l + if decide (dims !! a = Some 1%Z) then 1 else 0)%nat.
Proof.
  unfold unit_hits. rewrite filter_app, app_length. f_equal.
  destruct (decide _); [by rewrite filter_cons_True|by rewrite filter_cons_False].
Qed.

(** The loop that zeroes the selected unit extents *)
Lemma mark_loop_any n0 dims ax (body : Z -> list Z * Z -> M (list Z * Z)) E s :
  n0 = Z.of_nat (length ax) -> Forall (fun a => (a < length dims)%nat) ax ->
  (forall k a proc n, ax !! k = Some a ->
     body (Z.of_nat k) (proc, n) E s
     = (let* d := aget dims (Z.of_nat a) in
        if d =? 1 then let* proc := aset proc (Z.of_nat a) 0 in ret (proc, n - 1)
        else ret (proc, n)) E s) ->
  for64 0 n0 body (dims, Z.of_nat (length dims)) E s
  = Done (mark (fun i => inb i ax) dims, Z.of_nat (length dims) - Z.of_nat (unit_hits dims ax)) s.
Proof.
  intros -> Hax Hb.
  rewrite (for64_pure (fun k => (mark (fun i => inb i (take k ax)) dims,
    Z.of_nat (length dims) - Z.of_nat (unit_hits dims (take k ax)))) _ _ _ (length ax)).
  - by rewrite firstn_all.
  - rewrite mark_none; [|intros i; apply bool_decide_eq_false_2, not_elem_of_nil].
    f_equal. change (take 0 ax) with (@nil nat). cbn. lia.
  - lia.
  - intros k Hk. rewrite Z.add_0_l. destruct (lookup_lt_is_Some_2 ax k Hk) as [a Ha].
    rewrite (Hb k a) by done.
    assert (a < length dims)%nat as Hal by (eapply Forall_lookup in Hax; done).
    destruct (lookup_lt_is_Some_2 dims a Hal) as [d Hd].
    erewrite bind_done by (by apply aget_nat).
    assert (forall i, inb i (take (S k) ax) = inb i (take k ax) || bool_decide (i = a)) as HS.
    { intros i. unfold inb. erewrite take_S_r by done.
      apply eq_iff_eq_true. rewrite orb_true_iff, !bool_decide_eq_true, elem_of_app, elem_of_list_singleton. done. }
    assert (unit_hits dims (take (S k) ax)
      = (unit_hits dims (take k ax) + if decide (dims !! a = Some 1%Z) then 1 else 0)%nat) as ->.
    { erewrite take_S_r by done. apply unit_hits_snoc. }
    destruct (Z.eqb_spec d 1) as [->|Hd1].
    + rewrite decide_True by done.
      erewrite bind_done.
      2:{ apply aset_nat. by rewrite mark_length. }
      assert (mark (λ i : nat, inb i (take (S k) ax)) dims
        = <[a := 0]> (mark (λ i : nat, inb i (take k ax)) dims)) as ->.
      { apply list_eq. intros i. destruct (decide (i = a)) as [->|Hne].
        - rewrite list_lookup_insert by (by rewrite mark_length).
          rewrite mark_lookup, Hd, HS, bool_decide_eq_true_2 by done. cbn. by rewrite orb_true_r.
        - rewrite list_lookup_insert_ne by done.
          rewrite !mark_lookup, HS, (bool_decide_eq_false_2 (i = a)) by done. by rewrite orb_false_r. }
      unfold ret. do 2 f_equal. lia.
    + rewrite decide_False by (rewrite Hd; congruence).
      assert (mark (λ i : nat, inb i (take (S k) ax)) dims
        = mark (λ i : nat, inb i (take k ax)) dims) as ->; [|unfold ret; do 2 f_equal; lia].
      apply list_eq. intros i. rewrite !mark_lookup, HS.
      destruct (decide (i = a)) as [->|Hne].
      * rewrite Hd. cbn. replace (d =? 1) with false by lia. by rewrite !andb_false_r.
      * rewrite (bool_decide_eq_false_2 (i = a)) by done. by rewrite orb_false_r.
Qed.
(** ... and stops at the first axis that is too large *)
Lemma mark_loop_oob n0 (dims : list Z) ax (body : Z -> list Z * Z -> M (list Z * Z)) E s :
  n0 = Z.of_nat (length ax) -> Exists (fun a => (length dims <= a)%nat) ax ->
  (forall k a proc n s, ax !! k = Some a ->
     body (Z.of_nat k) (proc, n) E s
     = (let* d := aget dims (Z.of_nat a) in
        if d =? 1 then let* proc := aset proc (Z.of_nat a) 0 in ret (proc, n - 1)
        else ret (proc, n)) E s) ->
  for64 0 n0 body (dims, Z.of_nat (length dims)) E s = UB UB_oob.
Proof.
  intros -> Hex Hb.
  assert (exists j a, ax !! j = Some a /\ (length dims <= a)%nat /\
    forall k b, (k < j)%nat -> ax !! k = Some b -> (b < length dims)%nat) as (j & a & Hj & Ha & Hbefore).
  { clear -Hex. induction Hex as [a l Ha|a l Hl IH].
    - exists 0%nat, a. split_and!; [done|done|lia].
    - destruct (decide (length dims <= a)%nat).
      + exists 0%nat, a. split_and!; [done|done|lia].
      + destruct IH as (j & b & Hj & Hb & Hk). exists (S j), b. split_and!; [done|done|].
        intros [|k] c Hlt Hc; cbn in Hc; [simplify_eq; lia|]. eapply Hk; [|done]. lia. }
  unfold for64. apply (iter_ub (fun _ x s' => length x.1 = length dims) _ _ _ _ _ _ j).
  - apply lookup_lt_Some in Hj. lia.
  - done.
  - intros k [proc n] s1 Hk Hl. cbn [fst] in Hl. rewrite Z.add_0_l.
    destruct (lookup_lt_is_Some_2 ax k) as [b Hbk]; [apply lookup_lt_Some in Hj; lia|].
    pose proof (Hbefore k b Hk Hbk) as Hlt. destruct (lookup_lt_is_Some_2 dims b Hlt) as [d Hd].
    unfold wp. rewrite (Hb k b) by done. erewrite bind_done by (by apply aget_nat).
    destruct (d =? 1); [|done]. erewrite bind_done by (apply aset_nat; lia).
    cbn. by rewrite insert_length.
  - intros [proc n] s1 Hl. rewrite Z.add_0_l. rewrite (Hb j a) by done. unfold bind, aget, opt.
    rewrite zget_nat. by rewrite lookup_ge_None_2 by lia.
Qed.

(** The loop that collects the non-zero entries *)
Definition collect (proc : list Z) (i : Z) (x : list (option Z) * Z) : M (list (option Z) * Z) :=
  let '(out_dims, j) := x in
  let* d := aget proc i in
  if d =? 0 then ret (out_dims, j)
  else let* out_dims := aset out_dims j (Some d) in ret (out_dims, j + 1).
Lemma collect_step (proc : list Z) m E s k d :
  let cur := fun k => filter (fun d => d <> 0) (take k proc) in
  let f := fun k => ((Some <$> cur k) ++ replicate (m - length (cur k)) None, Z.of_nat (length (cur k))) in
  proc !! k = Some d -> (length (cur (S k)) <= m)%nat ->
  collect proc (Z.of_nat k) (f k) E s = Done (f (S k)) s.
Proof.
  intros cur f Hd Hl. unfold collect, f. 
  erewrite bind_done by (by apply aget_nat).
  unfold cur in *. rewrite (take_S_r _ _ _ Hd) in *. rewrite filter_app in *.
  destruct (Z.eqb_spec d 0) as [->|Hd0].
  + rewrite filter_cons_False by (intros H; done). by rewrite app_nil_r.
  + rewrite filter_cons_True in * by done. rewrite app_length in Hl |- *. cbn in Hl.
    erewrite bind_done.
    2:{ apply aset_nat. rewrite app_length, fmap_length, replicate_length. lia. }
    rewrite insert_app_r_alt by (rewrite fmap_length; lia).
    rewrite fmap_length, Nat.sub_diag. cbn.
    set (fk := filter _ (take k proc)) in *.
    replace (m - length fk)%nat with (S (m - (length fk + 1))) by lia.
    cbn. unfold ret. rewrite fmap_app, <-app_assoc. cbn. do 2 f_equal. lia.
Qed.
Lemma filter_take_le (proc : list Z) k :
  (length (filter (fun d => d <> 0%Z) (take k proc)) <= length (filter (fun d => d <> 0%Z) proc))%nat.
Proof. rewrite <-(take_drop k proc) at 2. rewrite filter_app, app_length. lia. Qed.
Lemma collect_fit (proc : list Z) m E s :
  let out := filter (fun d => d <> 0) proc in (length out <= m)%nat ->
  for64 0 (Z.of_nat (length proc)) (collect proc) (replicate m None, 0) E s
  = Done ((Some <$> out) ++ replicate (m - length out) None, Z.of_nat (length out)) s.
Proof.
  intros out Hm.
  rewrite (for64_pure (fun k => let cur := filter (fun d => d <> 0) (take k proc) in
    ((Some <$> cur) ++ replicate (m - length cur) None, Z.of_nat (length cur))) _ _ _ (length proc)).
  - by rewrite firstn_all.
  - cbn. by rewrite Nat.sub_0_r.
  - lia.
  - intros k Hk. rewrite Z.add_0_l. destruct (lookup_lt_is_Some_2 proc k Hk) as [d Hd].
    apply (collect_step proc m E s k d Hd). eapply Nat.le_trans; [apply filter_take_le|exact Hm].
Qed.
Lemma nth_filter {A} (P : A -> Prop) `{forall x, Decision (P x)} (l : list A) m :
  (m < length (filter P l))%nat ->
  exists j d, l !! j = Some d /\ P d /\ length (filter P (take j l)) = m.
Proof.
  revert m. induction l as [|x l IH]; intros m Hm; [cbn in Hm; lia|].
  destruct (decide (P x)) as [Hx|Hx].
  - rewrite filter_cons_True in Hm by done. destruct m as [|m].
    + exists 0%nat, x. done.
    + destruct (IH m) as (j & d & Hj & Hd & Hl); [cbn in Hm; lia|]. exists (S j), d. split_and!; [done|done|].
      cbn [take]. rewrite filter_cons_True by done. cbn. by rewrite Hl.
  - rewrite filter_cons_False in Hm by done. destruct (IH m Hm) as (j & d & Hj & Hd & Hl).
    exists (S j), d. split_and!; [done|done|]. cbn [take]. by rewrite filter_cons_False.
Qed.
Lemma collect_oob (proc : list Z) m E s : (m < length (filter (fun d => d <> 0%Z) proc))%nat ->
  for64 0 (Z.of_nat (length proc)) (collect proc) (replicate m None, 0) E s = UB UB_oob.
Proof.
  intros Hm. destruct (nth_filter _ _ _ Hm) as (j & d & Hj & Hd & Hl).
  unfold for64. pose proof (lookup_lt_Some _ _ _ Hj).
  apply (iter_ub (fun k x s' => let cur := filter (fun d => d <> 0) (take k proc) in
    x = ((Some <$> cur) ++ replicate (m - length cur) None, Z.of_nat (length cur))) _ _ _ _ _ _ j).
  - lia.
  - cbn. by rewrite Nat.sub_0_r.
  - intros k x s1 Hk ->. rewrite Z.add_0_l. destruct (lookup_lt_is_Some_2 proc k) as [e He]; [lia|].
    unfold wp. rewrite (collect_step proc m E s1 k e He); [done|].
    rewrite <-Hl. replace (take (S k) proc) with (take (S k) (take j proc)); [apply filter_take_le|].
    rewrite take_take. f_equal. lia.
  - intros x s1 ->. rewrite Z.add_0_l. unfold collect. erewrite bind_done by (by apply aget_nat).
    destruct (Z.eqb_spec d 0) as [|_]; [done|]. unfold bind at 1, aset, check, bind.
    rewrite app_length, fmap_length, replicate_length, Hl, Nat.sub_diag.
    by replace ((0 <=? Z.of_nat m) && (Z.of_nat m <? Z.of_nat (m + 0))) with false by lia.
Qed.

Lemma force_stuck (l : list Z) n E s : (0 < n)%nat ->
  force_array ((Some <$> l) ++ replicate n None) E s = UB UB_uninit.
Proof.
  intros Hn. unfold force_array.
  assert (mapM id ((Some <$> l) ++ replicate n None) = None) as ->; [|done].
  induction l as [|x l IH]; [destruct n; [lia|done]|]. cbn in *. by rewrite IH.
Qed.

Lemma filter_max (l : list Z) : Forall (fun d => 0 <= d) l ->
  prodZ (Z.max 1 <$> filter (fun d => d <> 0) l) = prodZ (Z.max 1 <$> l).
Proof.
  induction 1 as [|d l Hd _ IH]; [done|]. destruct (decide (d = 0)) as [->|Hz].
  - rewrite filter_cons_False by (intros H; done). rewrite IH. rewrite fmap_cons, prodZ_cons. change (Z.max 1 0) with 1. lia.
  - rewrite filter_cons_True by done. rewrite !fmap_cons, !prodZ_cons, IH. done.
Qed.
Lemma filter_fits sz (l : list Z) : fits sz l -> fits sz (filter (fun d => d <> 0) l).
Proof.
  intros (H1 & H2 & H3). split_and!.
  - apply Forall_forall. intros d Hd. apply elem_of_list_filter in Hd as [_ Hd]. by eapply Forall_forall in H1.
  - pose proof (filter_length (fun d => d <> 0) l). lia.
  - by rewrite filter_max.
Qed.
Lemma filter_prod_pos (l : list Z) : Forall (fun d => 0 <= d) l -> 0 < prodZ (filter (fun d => d <> 0) l).
Proof.
  induction 1 as [|d l Hd _ IH]; [done|]. destruct (decide (d = 0)) as [->|Hz].
  - rewrite filter_cons_False by (intros H; done). done.
  - rewrite filter_cons_True by done. rewrite prodZ_cons. cbn in Hd. nia.
Qed.
Lemma prodZ_zero (l : list Z) : 0 ∈ l -> prodZ l = 0.
Proof.
  induction l as [|d l IH]; [by intros ?%elem_of_nil|]. intros [<-|H]%elem_of_cons; rewrite prodZ_cons; [lia|].
  rewrite IH by done. lia.
Qed.
Lemma filter_nonzero (l : list Z) : 0 ∉ l -> filter (fun d => d <> 0) l = l.
Proof.
  induction l as [|d l IH]; [done|]. intros [H1 H2]%not_elem_of_cons.
  rewrite filter_cons_True by done. by rewrite IH.
Qed.

(** ** The whole function *)
Lemma squeeze_rest_mark dims ax :
  filter (fun d => d <> 0) (mark (fun i => inb i ax) dims) = squeeze_rest dims ax.
Proof. apply mark_filter_any. Qed.

(** Everything up to the second block *)
Definition squeeze_tail (p : nat) (T : atensor) (o : hval) (b : nat) (x : list Z * Z) : M (status * hval) :=
  let '(proc, out_ndim) := x in
  let* p2 := scratch (8 * out_ndim) in
  if is_null p2 then ret (ALLOC_FAILED, o)
  else
    let* (out_dims, _) := for64 0 (Z.of_nat (length (a_dims T))) (collect proc) (arr p2 out_ndim, 0) in
    let* out_dims := force_array out_dims in
    let* (s, o) := aitisa_reshape (HPtr p) out_dims out_ndim o in
    raw_dealloc (HPtr b) ;;;
    raw_dealloc p2 ;;;
    ret (s, o).
Lemma squeeze_front p T axis ax o E s :
  holds (heap s) p T -> alloc_all E ->
  (if decide (axis = []) then ax = seq 0 (length (a_dims T)) else axis = Z.of_nat <$> ax) ->
  exists body : Z -> list Z * Z -> M (list Z * Z),
    (forall k a proc n s, ax !! k = Some a ->
       body (Z.of_nat k) (proc, n) E s
       = (let* d := aget (a_dims T) (Z.of_nat a) in
          if d =? 1 then let* proc := aset proc (Z.of_nat a) 0 in ret (proc, n - 1)
          else ret (proc, n)) E s) /\
    aitisa_squeeze (HPtr p) axis (Z.of_nat (length axis)) o E s
    = bind (for64 0 (Z.of_nat (length ax)) body (a_dims T, Z.of_nat (length (a_dims T))))
        (squeeze_tail p T o (ctr s)) E (st_alloc s (Blk (e_alloc E) (CRaw (8 * Z.of_nat (length (a_dims T)))))).
Proof.
  intros (HvT & bx & tg & ex & Hv & Hx) HA Hax.
  pose proof (valid_fits _ HvT) as Hfit. pose proof (fits_len _ _ Hfit) as Hlen.
  set (s1 := st_alloc s _).
  assert (exists body : Z -> list Z * Z -> M (list Z * Z),
    (forall k a proc n s, ax !! k = Some a ->
       body (Z.of_nat k) (proc, n) E s
       = (let* d := aget (a_dims T) (Z.of_nat a) in
          if d =? 1 then let* proc := aset proc (Z.of_nat a) 0 in ret (proc, n - 1)
          else ret (proc, n)) E s) /\
    (if Z.of_nat (length axis) =? 0 then
              for64 0 (Z.of_nat (length (a_dims T))) (fun i '(proc, n) =>
                let* d := aget (a_dims T) i in
                if d =? 1 then let* proc := aset proc i 0 in ret (proc, n - 1)
                else ret (proc, n)) (a_dims T, Z.of_nat (length (a_dims T)))
            else
              for64 0 (Z.of_nat (length axis)) (fun i '(proc, n) =>
                let* a := aget axis i in
                let* d := aget (a_dims T) a in
                if d =? 1 then let* proc := aset proc a 0 in ret (proc, n - 1)
                else ret (proc, n)) (a_dims T, Z.of_nat (length (a_dims T))))
     = for64 0 (Z.of_nat (length ax)) body (a_dims T, Z.of_nat (length (a_dims T)))) as (body & Hb & Hm).
  { destruct (decide (axis = [])) as [->|Hne].
    - subst ax. cbn [length Z.of_nat Z.eqb]. rewrite seq_length. eexists. split; [|reflexivity].
      intros k a proc n s0 Hk. apply lookup_seq in Hk as [-> Hk]. done.
    - destruct (Z.eqb_spec (Z.of_nat (length axis)) 0) as [H0|H0].
      { destruct axis; [done|cbn in H0; lia]. }
      subst axis. rewrite fmap_length. eexists. split; [|reflexivity].
      intros k a proc n s0 Hk. cbv beta match. erewrite bind_done; [done|].
      apply aget_nat. by rewrite list_lookup_fmap, Hk. }
  exists body. split; [done|]. rewrite <-Hm. unfold aitisa_squeeze.
  erewrite bind_done by (by eapply tensor_dims_ok).
  erewrite bind_done by (by eapply tensor_ndim_ok).
  replace (Z.of_nat (length axis) <? 0) with false by lia. rewrite Nat2Z.id.
  erewrite (bind_done _ _ _ _ (Next tt) s).
  2:{ apply (iter_ret_pure (fun _ => tt)); [done|]. intros k Hk. rewrite Z.add_0_l.
    destruct (lookup_lt_is_Some_2 axis k Hk) as [a Ha].
    erewrite bind_done by (by apply aget_nat).
    replace (a <? 0) with false; [done|].
    destruct (decide (axis = [])) as [->|]; [done|]. subst axis.
    rewrite list_lookup_fmap in Ha. destruct (ax !! k); simplify_eq/=. lia. }
  cbv beta match.
  erewrite bind_done by (apply scratch_run; [done|llia]). cbn [is_null]. fold s1.
  erewrite (bind_done _ _ _ _ (a_dims T) s1).
  2:{ apply append_loop. intros k x acc Hk. erewrite bind_done by (by apply aget_nat). done. }
  reflexivity.
Qed.

Section squeeze.
  Context (p : nat) (T : atensor) (axis : list Z) (ax : list nat) (o : hval) (E : env) (s : st).
  Context (Hwf : wf s) (HA : alloc_all E) (HE : hooks_ok E) (HT : holds (heap s) p T).
  Context (Hax : if decide (axis = []) then ax = seq 0 (length (a_dims T)) else axis = Z.of_nat <$> ax).
  Let dims := a_dims T.
  Let rest := squeeze_rest dims ax.
  Let b1 := Blk (e_alloc E) (CRaw (8 * Z.of_nat (length dims))).
  Let s1 := st_alloc s b1.

  Lemma squeeze_too_large : Exists (fun a => (length dims <= a)%nat) ax ->
    aitisa_squeeze (HPtr p) axis (Z.of_nat (length axis)) o E s = UB UB_oob.
  Proof using HA HT Hax.
    intros Hex. destruct (squeeze_front p T axis ax o E s HT HA Hax) as (body & Hb & ->).
    apply bind_UB. by apply (mark_loop_oob _ _ ax).
  Qed.

  Context (Hin : Forall (fun a => (a < length dims)%nat) ax).
  Let room := Z.of_nat (length dims) - Z.of_nat (unit_hits dims ax).

  Lemma squeeze_middle :
    aitisa_squeeze (HPtr p) axis (Z.of_nat (length axis)) o E s
    = squeeze_tail p T o (ctr s) (mark (fun i => inb i ax) dims, room) E s1.
  Proof using HA HT Hax Hin.
    destruct (squeeze_front p T axis ax o E s HT HA Hax) as (body & Hb & ->).
    erewrite bind_done; [reflexivity|]. apply mark_loop_any; [done|exact Hin|]. intros k a proc n Hk. by apply Hb.
  Qed.

  Lemma squeeze_no_room : room < 0 -> 8 * Z.of_nat (length axis) <= PTRDIFF_MAX ->
    exists s', aitisa_squeeze (HPtr p) axis (Z.of_nat (length axis)) o E s = Done (ALLOC_FAILED, o) s' /\
      heap s' = <[ctr s := b1]> (heap s).
  Proof using HA HT Hax Hin.
    intros Hr Hl. rewrite squeeze_middle. unfold squeeze_tail.
    assert (-8 * Z.of_nat (length axis) <= 8 * room) as Hlo.
    { unfold room. assert (unit_hits dims ax <= length ax)%nat by apply filter_length.
      destruct (decide (axis = [])) as [->|].
      - subst ax. rewrite seq_length in *. change (length dims) with (length (a_dims T)). cbn [length]. lia.
      - subst axis. rewrite fmap_length. lia. }
    erewrite bind_done; [|unfold scratch, raw_alloc, alloc_tag; rewrite (proj2 (andb_false_iff _ _));
      [reflexivity|left; unfold to_size]].
    2:{ rewrite <-(Z.mod_add _ 1) by done. rewrite Z.mod_small by llia. llia. }
    cbn [is_null]. eexists. split; [reflexivity|]. done.
  Qed.

  Context (Hr : 0 <= room).
  Let b2 := Blk (e_alloc E) (CRaw (8 * room)).
  Let s2 := st_alloc s1 b2.

  Lemma room_max : 0 <= 8 * room <= PTRDIFF_MAX.
  Proof using HT Hr.
    destruct HT as (HvT & _).
    pose proof (valid_fits _ HvT) as Hfit. pose proof (fits_len _ _ Hfit) as Hlen. subst room dims. llia.
  Qed.

  Lemma squeeze_overflow : room < Z.of_nat (length rest) ->
    aitisa_squeeze (HPtr p) axis (Z.of_nat (length axis)) o E s = UB UB_oob.
  Proof using HA HT Hax Hin Hr.
    intros Hlt. rewrite squeeze_middle. unfold squeeze_tail. pose proof room_max.
    erewrite bind_done by (by apply scratch_run). cbn [is_null]. apply bind_UB.
    unfold arr. replace (length (a_dims T)) with (length (mark (fun i => inb i ax) dims)) by apply mark_length.
    apply collect_oob. rewrite squeeze_rest_mark. fold rest. lia.
  Qed.
  Lemma squeeze_underflow : Z.of_nat (length rest) < room ->
    aitisa_squeeze (HPtr p) axis (Z.of_nat (length axis)) o E s = UB UB_uninit.
  Proof using HA HT Hax Hin Hr.
    intros Hlt. rewrite squeeze_middle. unfold squeeze_tail. pose proof room_max.
    erewrite bind_done by (by apply scratch_run). cbn [is_null].
    unfold arr. replace (length (a_dims T)) with (length (mark (fun i => inb i ax) dims)) by apply mark_length.
    erewrite bind_done by (apply collect_fit; rewrite squeeze_rest_mark; fold rest; lia).
    cbv beta match. apply bind_UB. apply force_stuck. rewrite squeeze_rest_mark. fold rest. lia.
  Qed.

  Lemma squeeze_exact_room : room = Z.of_nat (length rest) ->
    aitisa_squeeze (HPtr p) axis (Z.of_nat (length axis)) o E s
    = (let* (s, o) := aitisa_reshape (HPtr p) rest (Z.of_nat (length rest)) o in
       raw_dealloc (HPtr (ctr s1 - 1)) ;;; raw_dealloc (HPtr (ctr s1)) ;;; ret (s, o)) E s2.
  Proof using HA HT Hax Hin Hr.
    intros Heq. rewrite squeeze_middle. unfold squeeze_tail. pose proof room_max.
    erewrite bind_done by (by apply scratch_run). cbn [is_null]. fold b2 s2.
    unfold arr. replace (length (a_dims T)) with (length (mark (fun i => inb i ax) dims)) by apply mark_length.
    erewrite bind_done by (apply collect_fit; rewrite squeeze_rest_mark; fold rest; lia).
    cbv beta match. rewrite squeeze_rest_mark. fold rest.
    replace (Z.to_nat room - length rest)%nat with 0%nat by lia. cbn [replicate]. rewrite app_nil_r.
    erewrite bind_done by apply force_some. rewrite Heq. cbn [ctr s1 st_alloc].
    by rewrite Nat.sub_1_r.
  Qed.

  Lemma rest_fits : fits (tsz (a_type T)) rest.
  Proof using HT.
    destruct HT as (HvT & _). apply filter_fits, squeeze_dims_fits, valid_fits, HvT.
  Qed.
  Lemma s2_lookups : heap s2 !! ctr s = Some b1 /\ heap s2 !! ctr s1 = Some b2.
  Proof using Type.
    split; [|apply st_alloc_lookup]. cbn. rewrite lookup_insert_ne by lia. by rewrite lookup_insert.
  Qed.
  Lemma s2_free : delete (ctr s1) (delete (ctr s) (heap s2)) = heap s.
  Proof using Hwf.
    cbn. rewrite delete_insert_ne by lia.
    rewrite (delete_insert (heap s)) by (apply wf_fresh; [done|lia]).
    apply delete_insert. apply wf_fresh; [done|lia].
  Qed.

  Lemma squeeze_mismatch : room = Z.of_nat (length rest) -> 0 ∈ dims ->
    exists s', aitisa_squeeze (HPtr p) axis (Z.of_nat (length axis)) o E s = Done (DIMENSIONS_MISMATCH, o) s' /\
      heap s' = heap s.
  Proof using Hwf HA HE HT Hax Hin Hr.
    intros Heq Hz. rewrite squeeze_exact_room by done.
    pose proof rest_fits as Hfr. pose proof (tsz_pos (a_type T)).
    pose proof HT as (HvT & _). pose proof (valid_fits _ HvT) as (Hnn & _).
    assert (holds (heap s2) p T) as HT2.
    { eapply holds_mono; [|exact HT]. etrans; [by apply (st_alloc_sub s b1)|]. apply st_alloc_sub. by apply wf_alloc. }
    erewrite bind_done.
    2:{ apply (reshape_mismatch p T rest o E s2 HT2); [by eapply fits_prefixes; [|exact Hfr]; lia|apply Hfr|].
        change (a_dims T) with dims. rewrite (prodZ_zero dims) by done.
        pose proof (filter_prod_pos (squeeze_dims (fun i => bool_decide (i ∈ ax)) dims)
          ltac:(by apply squeeze_dims_forall)) as Hp. fold (squeeze_rest dims ax) in Hp. fold rest in Hp. lia. }
    cbv beta match. replace (ctr s1 - 1)%nat with (ctr s) by (cbn; lia). destruct s2_lookups as [L1 L2].
    erewrite bind_done by (eapply raw_dealloc_ok; [exact L1|symmetry; exact HE]).
    erewrite bind_done.
    2:{ apply (raw_dealloc_ok _ _ b2); [|symmetry; exact HE]. cbn [st_free heap]. rewrite lookup_delete_ne by (cbn; lia). exact L2. }
    eexists. split; [reflexivity|]. exact s2_free.
  Qed.

  Lemma squeeze_makes : room = Z.of_nat (length rest) -> 0 ∉ dims ->
    makes (aitisa_squeeze (HPtr p) axis (Z.of_nat (length axis)) o) E s
      (AT (a_type T) (a_dev T) (squeeze_dims (fun i => inb i ax) dims) (a_vals T)).
  Proof using Hwf HA HE HT Hax Hin Hr.
    intros Heq Hz.
    assert (rest = squeeze_dims (fun i => inb i ax) dims) as Hrest.
    { apply filter_nonzero. intros H. apply Hz. clear -H.
      assert (forall f, 0 ∈ squeeze_dims f dims -> 0 ∈ dims) as Hs; [|by eapply Hs].
      clear. induction dims as [|d l IH]; intros f; [done|]. cbn [squeeze_dims]. rewrite elem_of_cons.
      destruct (_ && _); [|rewrite elem_of_cons]; naive_solver. }
    rewrite <-Hrest.
    apply (makes_or_nomem_alloc _ _ _ o); [done|]. apply Qmakes_elim. unfold wp at 1. rewrite squeeze_exact_room by done.
    match goal with |- match ?m E s2 with _ => _ end => match goal with |- context [Qmakes ?a ?b ?c ?d ?e] =>
      change (wp m E s2 (Qmakes a b c d e)) end end.
    pose proof rest_fits as Hfr.
    assert (wf s1) as Hwf1 by (by apply wf_alloc). assert (wf s2) as Hwf2 by (by apply wf_alloc).
    assert (holds (heap s2) p T) as HT2.
    { eapply holds_mono; [|exact HT]. etrans; [by apply (st_alloc_sub s b1)|]. by apply st_alloc_sub. }
    replace (ctr s1 - 1)%nat with (ctr s) by (cbn; lia). destruct s2_lookups as [L1 L2].
    apply wp_bind.
    destruct (reshape_rule p T rest o E s2 Hwf2 HT2 Hfr) as [(s3 & q & Hq & Hc)|(Hna & _)]; [| |done].
    { rewrite Hrest. apply squeeze_dims_prod. }
    eapply wp_intro; [exact Hq|]. cbv beta match.
    eapply wp_free; [done|eapply lookup_weaken; [exact L1|by eapply created_sub]|done|].
    eapply wp_free; [done|cbn [st_free heap]; rewrite lookup_delete_ne by (cbn; lia);
      eapply lookup_weaken; [exact L2|by eapply created_sub]|done|].
    apply wp_ret. left. exists q. split; [done|].
    eapply (created_free _ _ _ _ _ _ (ctr s)) in Hc; [|by eexists]. eapply (created_free _ _ _ _ _ _ (ctr s1)) in Hc.
    2:{ cbn [heap st_free]. rewrite lookup_delete_ne by (cbn; lia). rewrite L2. by eexists. }
    eapply (created_rebase _ _ _ _ _ _ _ 0) in Hc; [exact Hc| |cbn; lia|cbn; lia].
    exact s2_free.
  Qed.
End squeeze.

Lemma squeeze_room_nonneg (dims : list Z) (l : list Z) ax :
  Z.of_nat (length dims) - Z.of_nat (unit_hits dims ax) = Z.of_nat (length l) ->
  0 <= Z.of_nat (length dims) - Z.of_nat (unit_hits dims ax).
Proof. lia. Qed.

(** ** Distinct axes, and unit extents named more than once *)
Definition zeros (dims : list Z) : nat := length (filter (fun d => d = 0) dims).
Lemma mark_insert f dims a : dims !! a = Some 1 -> f a = false ->
  mark (fun i => f i || bool_decide (i = a)) dims = <[a := 0]> (mark f dims).
Proof.
  intros Hd Hf. pose proof (lookup_lt_Some _ _ _ Hd) as Hal.
  apply list_eq. intros i. destruct (decide (i = a)) as [->|Hne].
  - rewrite list_lookup_insert by (by rewrite mark_length).
    rewrite mark_lookup, Hd, bool_decide_eq_true_2 by done. cbn. by rewrite orb_true_r.
  - rewrite list_lookup_insert_ne by done.
    rewrite !mark_lookup, (bool_decide_eq_false_2 (i = a)) by done. by rewrite orb_false_r.
Qed.
Lemma mark_ext f g dims : (forall i, dims !! i = Some 1 -> f i = g i) -> mark f dims = mark g dims.
Proof.
  intros H. apply list_eq. intros i. rewrite !mark_lookup. destruct (dims !! i) as [d|] eqn:Hd; [|done].
  cbn. destruct (Z.eqb_spec d 1) as [->|]; [by rewrite (H i Hd)|]. by rewrite !andb_false_r.
Qed.
(** What is left, what was counted off, and the empty extents *)
Lemma rest_count dims ax : exists u,
  (length (squeeze_rest dims ax) + u + zeros dims = length dims)%nat /\ (u <= unit_hits dims ax)%nat /\
  (NoDup ax -> u = unit_hits dims ax) /\
  ((exists i j a, i <> j /\ ax !! i = Some a /\ ax !! j = Some a /\ dims !! a = Some 1) -> (u < unit_hits dims ax)%nat).
Proof.
  induction ax as [|a ax IH] using rev_ind.
  - exists 0%nat. unfold unit_hits. cbn. split_and!; [|done|done|by intros (i & j & a & _ & H & _)].
    rewrite <-squeeze_rest_mark. rewrite mark_none by (intros i; apply bool_decide_eq_false_2, not_elem_of_nil).
    unfold zeros. induction dims as [|d l IHl]; [done|]. destruct (decide (d = 0)) as [->|Hd].
    + rewrite filter_cons_False by (intros H; done). rewrite filter_cons_True by done. cbn. lia.
    + rewrite filter_cons_True by done. rewrite filter_cons_False by done. cbn. lia.
  - destruct IH as (u & H1 & H2 & H3 & H4). rewrite unit_hits_snoc.
    assert (forall i, inb i (ax ++ [a]) = inb i ax || bool_decide (i = a)) as HS.
    { intros i. unfold inb. apply eq_iff_eq_true.
      rewrite orb_true_iff, !bool_decide_eq_true, elem_of_app, elem_of_list_singleton. done. }
    rewrite <-squeeze_rest_mark in *.
    destruct (decide (dims !! a = Some 1)) as [Ha|Ha].
    + destruct (inb a ax) eqn:Hia.
      * exists u. rewrite (mark_ext _ (fun i => inb i ax)).
        2:{ intros i _. rewrite HS. destruct (decide (i = a)) as [->|]; [by rewrite Hia|].
            rewrite bool_decide_eq_false_2 by done. by rewrite orb_false_r. }
        split_and!; [done|lia| |intros _; lia].
        intros (_ & Hx & _)%NoDup_app. exfalso. apply (Hx a); [by apply bool_decide_eq_true in Hia|]. by left.
      * exists (u + 1)%nat. rewrite (mark_ext _ (fun i => inb i ax || bool_decide (i = a))) by (intros; apply HS).
        rewrite mark_insert by done.
        assert (mark (λ i : nat, inb i ax) dims !! a = Some 1) as Hl by (by rewrite mark_lookup, Ha, Hia).
        pose proof (filter_insert_0 _ a 1 Hl ltac:(lia)). split_and!; [lia|lia| |].
        -- intros (Hx & _ & _)%NoDup_app. specialize (H3 Hx). lia.
        -- intros (i & j & b & Hij & Hi & Hj & Hb).
           assert (forall i, (ax ++ [a]) !! i = Some b -> b <> a -> ax !! i = Some b) as Hc.
           { intros i0 Hi0 Hne. apply lookup_app_Some in Hi0 as [|[_ Hi0]]; [done|].
             apply list_lookup_singleton_Some in Hi0 as [_ Hi0]. congruence. }
           destruct (decide (b = a)) as [->|Hne].
           ++ exfalso. apply bool_decide_eq_false in Hia.
              assert (forall i, (ax ++ [a]) !! i = Some a -> i = length ax) as Hd.
              { intros i0 Hi0. apply lookup_app_Some in Hi0 as [Hi0|[Hge Hi0]]; [by apply elem_of_list_lookup_2 in Hi0|].
                apply list_lookup_singleton_Some in Hi0 as [Hi0 _]. lia. }
              apply Hij. rewrite (Hd i Hi), (Hd j Hj). done.
           ++ specialize (H4 ltac:(exists i, j, b; auto)). lia.
    + exists u. rewrite (mark_ext _ (fun i => inb i ax)).
      2:{ intros i Hi. rewrite HS. destruct (decide (i = a)) as [->|]; [done|].
          rewrite bool_decide_eq_false_2 by done. by rewrite orb_false_r. }
      split_and!; [done|lia| |].
      * intros (Hx & _ & _)%NoDup_app. specialize (H3 Hx). lia.
      * intros (i & j & b & Hij & Hi & Hj & Hb).
        assert (forall i, (ax ++ [a]) !! i = Some b -> ax !! i = Some b) as Hc.
        { intros i0 Hi0. apply lookup_app_Some in Hi0 as [|[_ Hi0]]; [done|].
          apply list_lookup_singleton_Some in Hi0 as [_ Hi0]. congruence. }
        specialize (H4 ltac:(exists i, j, b; auto)). lia.
Qed.
Lemma zeros_pos dims : 0 ∈ dims -> (0 < zeros dims)%nat.
Proof.
  intros H. unfold zeros. assert (0 ∈ filter (fun d => d = 0) dims) as Hx by (by apply elem_of_list_filter).
  destruct (filter _ dims); [by apply elem_of_nil in Hx|cbn; lia].
Qed.
Lemma zeros_none dims : 0 ∉ dims -> zeros dims = 0%nat.
Proof.
  intros H. unfold zeros. destruct (filter _ dims) as [|x l] eqn:Hf; [done|].
  assert (x ∈ filter (fun d => d = 0) dims) as Hx by (rewrite Hf; left).
  apply elem_of_list_filter in Hx as [-> Hx]. done.
Qed.
Lemma squeeze_zero_always p T axis ax o E s :
  alloc_all E -> holds (heap s) p T ->
  (if decide (axis = []) then ax = seq 0 (length (a_dims T)) else axis = Z.of_nat <$> ax) -> NoDup ax ->
  Forall (fun a => (a < length (a_dims T))%nat) ax -> 0 ∈ a_dims T ->
  aitisa_squeeze (HPtr p) axis (Z.of_nat (length axis)) o E s = UB UB_uninit.
Proof.
  intros HA HT Hax Hnd Hin Hz. destruct (rest_count (a_dims T) ax) as (u & H1 & H2 & H3 & _).
  specialize (H3 Hnd). pose proof (zeros_pos _ Hz). eapply squeeze_underflow; try done; lia.
Qed.
Lemma squeeze_repeated_always p T axis ax o E s :
  alloc_all E -> holds (heap s) p T ->
  (if decide (axis = []) then ax = seq 0 (length (a_dims T)) else axis = Z.of_nat <$> ax) ->
  Forall (fun a => (a < length (a_dims T))%nat) ax -> 0 ∉ a_dims T ->
  (exists i j a, i <> j /\ ax !! i = Some a /\ ax !! j = Some a /\ a_dims T !! a = Some 1) ->
  8 * Z.of_nat (length axis) <= PTRDIFF_MAX ->
  aitisa_squeeze (HPtr p) axis (Z.of_nat (length axis)) o E s = UB UB_oob \/
  (Z.of_nat (length (a_dims T)) - Z.of_nat (unit_hits (a_dims T) ax) < 0 /\
   exists s', aitisa_squeeze (HPtr p) axis (Z.of_nat (length axis)) o E s = Done (ALLOC_FAILED, o) s' /\
     heap s' = <[ctr s := Blk (e_alloc E) (CRaw (8 * Z.of_nat (length (a_dims T))))]> (heap s)).
Proof.
  intros HA HT Hax Hin Hz Hrep Hl. destruct (rest_count (a_dims T) ax) as (u & H1 & H2 & _ & H4).
  specialize (H4 Hrep). pose proof (zeros_none _ Hz).
  destruct (decide (Z.of_nat (length (a_dims T)) - Z.of_nat (unit_hits (a_dims T) ax) < 0)) as [Hneg|Hpos].
  - right. split; [done|]. by eapply squeeze_no_room.
  - left. eapply squeeze_overflow; try done; lia.
Qed.
