(** * ProofCore: src/core *)
From stdpp Require Import gmap list.
From Coq Require Import ZArith Lia.
From Coq Require Import ZifyBool ZifyNat.
From Verif Require Import Base Mem Spec ModelCore Logic.
Open Scope Z_scope.

Ltac Zify.zify_post_hook ::= Z.div_mod_to_equations.

(** Unfold the C integer limits for [lia]. *)
Ltac lims := unfold INT_MIN, INT_MAX, INT64_MIN, INT64_MAX, PTRDIFF_MAX, SIZE_MOD,
  UINT32_MOD in *.
Ltac llia := lims; lia.

(** Simplify lookups in a chain of insertions. *)
Ltac lkup := repeat first
  [ rewrite lookup_insert | rewrite lookup_insert_ne by (done || lia) ].

(** ** Products of extents *)
Lemma prodZ_nil : prodZ [] = 1. Proof. done. Qed.
Lemma prodZ_cons d l : prodZ (d :: l) = d * prodZ l. Proof. done. Qed.
Lemma prodZ_app l k : prodZ (l ++ k) = prodZ l * prodZ k.
Proof.
  induction l as [|d l IH]; [cbn [app]; rewrite prodZ_nil; lia|].
  cbn [app]. rewrite !prodZ_cons, IH. ring.
Qed.
Lemma prodZ_snoc l d : prodZ (l ++ [d]) = prodZ l * d.
Proof. rewrite prodZ_app, prodZ_cons, prodZ_nil. ring. Qed.
Lemma prodZ_take_S l k d : l !! k = Some d -> prodZ (take (S k) l) = prodZ (take k l) * d.
Proof. intros H. rewrite (take_S_r _ _ _ H). apply prodZ_snoc. Qed.
Lemma prodZ_nonneg l : Forall (fun d => 0 <= d) l -> 0 <= prodZ l.
Proof.
  induction 1 as [|d l Hd Hl IH]; [done|]. rewrite prodZ_cons. nia.
Qed.
Lemma prodZ_pos l : Forall (fun d => 0 < d) l -> 0 < prodZ l.
Proof.
  induction 1 as [|d l Hd Hl IH]; [done|]. rewrite prodZ_cons. nia.
Qed.
Lemma prodZ_max_pos l : 0 < prodZ (Z.max 1 <$> l).
Proof. apply prodZ_pos. apply Forall_fmap, Forall_true. intros d; unfold compose; lia. Qed.
Lemma prodZ_le_max l : Forall (fun d => 0 <= d) l -> 0 <= prodZ l <= prodZ (Z.max 1 <$> l).
Proof.
  induction 1 as [|d l Hd Hl IH]; [done|].
  rewrite fmap_cons, !prodZ_cons. split; [nia|]. apply Z.mul_le_mono_nonneg; lia.
Qed.
Lemma prodZ_max_take l k : prodZ (Z.max 1 <$> take k l) <= prodZ (Z.max 1 <$> l).
Proof.
  rewrite <-(take_drop k l) at 2. rewrite fmap_app, prodZ_app.
  pose proof (prodZ_max_pos (take k l)). pose proof (prodZ_max_pos (drop k l)). nia.
Qed.
Lemma prodZ_max_drop l k : prodZ (Z.max 1 <$> drop k l) <= prodZ (Z.max 1 <$> l).
Proof.
  rewrite <-(take_drop k l) at 2. rewrite fmap_app, prodZ_app.
  pose proof (prodZ_max_pos (take k l)). pose proof (prodZ_max_pos (drop k l)). nia.
Qed.
Lemma prodZ_max_pos_eq l : Forall (fun d => 0 < d) l -> Z.max 1 <$> l = l.
Proof. induction 1 as [|d l Hd Hl IH]; [done|]. cbn. f_equal; [lia|done]. Qed.

(** All the intermediate products of size_of_dims are representable. *)
Definition prefixes_fit (dims : list Z) : Prop :=
  forall k, INT64_MIN <= prodZ (take k dims) <= INT64_MAX.

Lemma fits_prefixes sz dims : (0 < sz)%nat -> fits sz dims -> prefixes_fit dims.
Proof.
  intros Hsz (Hd & Hn & Hp) k.
  pose proof (prodZ_le_max (take k dims) ltac:(by apply Forall_take)).
  pose proof (prodZ_max_take dims k). pose proof (prodZ_max_pos dims).
  split; [llia|]. nia.
Qed.
Lemma fits_len sz dims : fits sz dims -> Z.of_nat (length dims) <= INT_MAX.
Proof. intros (_ & H & _). done. Qed.
Lemma fits_nonneg sz dims : fits sz dims -> 0 <= prodZ dims.
Proof. intros (H & _). by apply prodZ_nonneg. Qed.
Lemma fits_bytes sz dims : fits sz dims -> 0 <= Z.of_nat sz * prodZ dims <= INT64_MAX.
Proof.
  intros (Hd & Hn & Hp). pose proof (prodZ_le_max dims Hd). nia.
Qed.
Lemma fits_size sz dims : (0 < sz)%nat -> fits sz dims -> 0 <= prodZ dims <= INT64_MAX.
Proof. intros Hs Hf. pose proof (fits_bytes sz dims Hf). nia. Qed.
Lemma fits_le sz sz' dims : (sz' <= sz)%nat -> fits sz dims -> fits sz' dims.
Proof.
  intros Hs (Hd & Hn & Hp). split_and!; [done|done|].
  pose proof (prodZ_max_pos dims). nia.
Qed.

Lemma to_int_id z : INT_MIN <= z <= INT_MAX -> to_int z = z.
Proof.
  intros H. unfold to_int, wrap. cbn [is_signed]. 
  change (2 ^ (bits I32 - 1)) with 2147483648. change (2 ^ bits I32) with 4294967296.
  rewrite Z.mod_small; llia.
Qed.
Lemma to_size_id z : 0 <= z <= PTRDIFF_MAX -> to_size z = z.
Proof. intros H. unfold to_size. apply Z.mod_small. llia. Qed.

Lemma size_of_dims_ok dims n E s :
  prefixes_fit dims -> n = Z.of_nat (length dims) -> n <= INT_MAX ->
  size_of_dims dims n E s = Done (prodZ dims) s.
Proof.
  intros Hp -> Hn. unfold size_of_dims. rewrite to_int_id by llia.
  rewrite (for64_pure (fun k => prodZ (take k dims)) _ _ _ (length dims)).
  - by rewrite firstn_all.
  - done.
  - lia.
  - intros k Hk. destruct (lookup_lt_is_Some_2 dims k Hk) as [d Hd].
    rewrite Z.add_0_l.
    erewrite bind_done by (by apply aget_nat).
    rewrite <-(prodZ_take_S _ _ _ Hd). by apply ck64_ok.
Qed.

(** Building a list entry by entry. *)
Lemma append_loop {A} (l : list A) (body : Z -> list A -> M (list A)) E s :
  (forall k x acc, l !! k = Some x -> body (Z.of_nat k) acc E s = Done (acc ++ [x]) s) ->
  for64 0 (Z.of_nat (length l)) body [] E s = Done l s.
Proof.
  intros H.
  rewrite (for64_pure (fun k => take k l) _ _ _ (length l)).
  - by rewrite firstn_all.
  - done.
  - lia.
  - intros k Hk. destruct (lookup_lt_is_Some_2 l k Hk) as [d Hd].
    rewrite Z.add_0_l, (H k d) by done. by rewrite (take_S_r _ _ _ Hd).
Qed.
Lemma append_loop32 {A} (l : list A) (body : Z -> list A -> M (list A)) E s :
  Z.of_nat (length l) <= INT_MAX ->
  (forall k x acc, l !! k = Some x -> body (Z.of_nat k) acc E s = Done (acc ++ [x]) s) ->
  for32 0 (Z.of_nat (length l)) body [] E s = Done l s.
Proof.
  intros Hl H.
  rewrite (for32_pure (fun k => take k l) _ _ _ (length l)).
  - by rewrite firstn_all.
  - done.
  - lia.
  - done.
  - intros k Hk. destruct (lookup_lt_is_Some_2 l k Hk) as [d Hd].
    rewrite Z.add_0_l, (H k d) by done. by rewrite (take_S_r _ _ _ Hd).
Qed.

Lemma rowmajor_length n : length (rowmajor n) = n.
Proof. unfold rowmajor. by rewrite fmap_length, seq_length. Qed.
Lemma rowmajor_lookup n k : (k < n)%nat ->
  rowmajor n !! k = Some (Z.of_nat n - 1 - Z.of_nat k).
Proof.
  intros H. unfold rowmajor. rewrite list_lookup_fmap, lookup_seq_lt by done. done.
Qed.

Lemma layout_loop (n : nat) E s :
  for64 0 (Z.of_nat n) (fun i acc => ret (acc ++ [Z.of_nat n - 1 - i])) [] E s
  = Done (rowmajor n) s.
Proof.
  rewrite <-(rowmajor_length n) at 1. apply append_loop.
  intros k x acc Hx. rewrite rowmajor_lookup in Hx.
  - simplify_eq. done.
  - apply lookup_lt_Some in Hx. by rewrite rowmajor_length in Hx.
Qed.

Lemma fill_ints_ok b tg l0 l cap E s :
  heap s !! b = Some (Blk tg (CInts l0)) -> l <> [] ->
  8 * Z.of_nat (length l) <= cap ->
  fill_ints (HPtr b) cap l E s = Done tt (upd s b (Blk tg (CInts l))).
Proof.
  intros Hb Hl Hc. unfold fill_ints. destruct l as [|x l]; [done|].
  erewrite bind_done by (apply check_ok; lia). by eapply set_content_ok.
Qed.

(** ** Fresh tensors *)

(** In [s'], [base] is extended by exactly the blocks of a tensor, with ids in
    [[lo, ctr s')]. *)
Definition tnew (tag lo : nat) (base : gmap nat block) (s' : st)
    (p pd pm ps px : nat) dt dev dims bytes : Prop :=
  let new := tensor_map tag p pd pm ps px dt dev dims bytes in
  NoDup [p; pd; pm; ps; px] /\
  heap s' = new ∪ base /\ new ##ₘ base /\
  (forall b, is_Some (new !! b) -> (lo <= b < ctr s')%nat) /\
  (forall b, is_Some (base !! b) -> (b < ctr s')%nat).

Lemma nodup5 (p pd pm ps px : nat) : NoDup [p; pd; pm; ps; px] ->
  p <> pd /\ p <> pm /\ p <> ps /\ p <> px /\ pd <> pm /\ pd <> ps /\ pd <> px /\
  pm <> ps /\ pm <> px /\ ps <> px.
Proof.
  rewrite !NoDup_cons, !elem_of_cons. intros H. 
  repeat match goal with |- _ /\ _ => split end; intros ->; tauto.
Qed.
Ltac nd5 H := apply nodup5 in H as (?&?&?&?&?&?&?&?&?&?).

Lemma header_map_dom tag p pd pm ps px dt dev dims b :
  is_Some (header_map tag p pd pm ps px dt dev dims !! b) <->
  b = p \/ b = ps \/ (dims <> [] /\ (b = pd \/ b = pm)).
Proof.
  unfold header_map. destruct dims as [|d dims];
    rewrite ?lookup_insert_is_Some', ?lookup_empty; unfold is_Some; naive_solver.
Qed.
Lemma tensor_map_dom tag p pd pm ps px dt dev dims bytes b :
  is_Some (tensor_map tag p pd pm ps px dt dev dims bytes !! b) <->
  b = px \/ b = p \/ b = ps \/ (dims <> [] /\ (b = pd \/ b = pm)).
Proof.
  unfold tensor_map. rewrite lookup_insert_is_Some', header_map_dom. naive_solver.
Qed.

Lemma header_map_p tag p pd pm ps px dt dev dims :
  header_map tag p pd pm ps px dt dev dims !! p =
  Some (Blk tag (CTensor (TI (prodZ dims) 0 (Z.of_nat (length dims))
     (match dims with [] => HNull | _ => HPtr pd end) 0
     (match dims with [] => HNull | _ => HPtr pm end) (HPtr ps)))).
Proof. unfold header_map. by rewrite lookup_insert. Qed.
Lemma header_map_ps tag p pd pm ps px dt dev dims :
  NoDup [p; pd; pm; ps; px] ->
  header_map tag p pd pm ps px dt dev dims !! ps =
  Some (Blk tag (CStorage (SI dt dev (prodZ dims) (HPtr px)))).
Proof.
  intros H. nd5 H. unfold header_map. by rewrite lookup_insert_ne, lookup_insert by done.
Qed.
Lemma header_map_pd tag p pd pm ps px dt dev dims :
  NoDup [p; pd; pm; ps; px] -> dims <> [] ->
  header_map tag p pd pm ps px dt dev dims !! pd = Some (Blk tag (CInts dims)).
Proof.
  intros H Hd. nd5 H. unfold header_map. rewrite !lookup_insert_ne by done.
  destruct dims; [done|]. by rewrite lookup_insert.
Qed.
Lemma header_map_pm tag p pd pm ps px dt dev dims :
  NoDup [p; pd; pm; ps; px] -> dims <> [] ->
  header_map tag p pd pm ps px dt dev dims !! pm
  = Some (Blk tag (CInts (rowmajor (length dims)))).
Proof.
  intros H Hd. nd5 H. unfold header_map. rewrite !lookup_insert_ne by done.
  destruct dims; [done|]. rewrite lookup_insert_ne by done. by rewrite lookup_insert.
Qed.
Lemma header_map_px tag p pd pm ps px dt dev dims :
  NoDup [p; pd; pm; ps; px] -> header_map tag p pd pm ps px dt dev dims !! px = None.
Proof.
  intros H. nd5 H. apply eq_None_not_Some. rewrite header_map_dom. naive_solver.
Qed.
Lemma header_map_tag tag p pd pm ps px dt dev dims b x :
  header_map tag p pd pm ps px dt dev dims !! b = Some x -> b_tag x = tag.
Proof.
  unfold header_map. intros H.
  repeat (apply lookup_insert_Some in H as [[_ <-]|[_ H]]; [done|]).
  destruct dims; [by rewrite lookup_empty in H|].
  repeat (apply lookup_insert_Some in H as [[_ <-]|[_ H]]; [done|]).
  by rewrite lookup_empty in H.
Qed.
Lemma header_sub_tensor tag p pd pm ps px dt dev dims bytes :
  NoDup [p; pd; pm; ps; px] ->
  header_map tag p pd pm ps px dt dev dims ⊆ tensor_map tag p pd pm ps px dt dev dims bytes.
Proof. intros H. apply insert_subseteq. by apply header_map_px. Qed.
Lemma tensor_map_px tag p pd pm ps px dt dev dims bytes :
  tensor_map tag p pd pm ps px dt dev dims bytes !! px = Some (Blk tag (CData bytes)).
Proof. apply lookup_insert. Qed.
Lemma tensor_map_upd tag p pd pm ps px dt dev dims bytes bytes' :
  <[px := Blk tag (CData bytes')]> (tensor_map tag p pd pm ps px dt dev dims bytes)
  = tensor_map tag p pd pm ps px dt dev dims bytes'.
Proof. apply insert_insert. Qed.
Lemma tensor_map_tag tag p pd pm ps px dt dev dims bytes b x :
  tensor_map tag p pd pm ps px dt dev dims bytes !! b = Some x -> b_tag x = tag.
Proof.
  unfold tensor_map. intros H.
  apply lookup_insert_Some in H as [[_ <-]|[_ H]]; [done|]. by eapply header_map_tag.
Qed.

Lemma view_mono h h' p dt dev dims order px :
  h ⊆ h' -> view h p dt dev dims order px -> view h' p dt dev dims order px.
Proof.
  intros Hs (tg & tg' & pd & pm & ps & Hp & Hd & Hm & Hps).
  exists tg, tg', pd, pm, ps. split_and!.
  - by eapply lookup_weaken.
  - destruct dims; [done|]. destruct Hd as (b & tg1 & -> & Hb).
    exists b, tg1. split; [done|]. by eapply lookup_weaken.
  - destruct order; [done|]. destruct Hm as (b & tg1 & -> & Hb).
    exists b, tg1. split; [done|]. by eapply lookup_weaken.
  - by eapply lookup_weaken.
Qed.
Lemma holds_mono h h' p T : h ⊆ h' -> holds h p T -> holds h' p T.
Proof.
  intros Hs (HT & px & tg & ex & Hv & Hx). split; [done|].
  exists px, tg, ex. split; [by eapply view_mono|]. by eapply lookup_weaken.
Qed.

(** Writing into a data block preserves views. *)
Lemma ints_at_upd h b tg l x p k :
  h !! b = Some (Blk tg (CData l)) -> ints_at h p k -> ints_at (<[b := x]> h) p k.
Proof.
  intros Hb. destruct k; [done|]. intros (c & tg1 & -> & Hc).
  exists c, tg1. split; [done|]. rewrite lookup_insert_ne; [done|].
  intros ->. congruence.
Qed.
Lemma view_upd h p dt dev dims order px b tg l x :
  h !! b = Some (Blk tg (CData l)) ->
  view h p dt dev dims order px -> view (<[b := x]> h) p dt dev dims order px.
Proof.
  intros Hb (tg1 & tg' & pd & pm & ps & Hp & Hd & Hm & Hps).
  exists tg1, tg', pd, pm, ps. split_and!.
  - rewrite lookup_insert_ne; [done|]. intros ->. congruence.
  - by eapply ints_at_upd.
  - by eapply ints_at_upd.
  - rewrite lookup_insert_ne; [done|]. intros ->. congruence.
Qed.

Lemma header_map_view tag p pd pm ps px dt dev dims :
  NoDup [p; pd; pm; ps; px] ->
  view (header_map tag p pd pm ps px dt dev dims) p dt dev dims (rowmajor (length dims)) px.
Proof.
  intros H. exists tag, tag.
  eexists (match dims with [] => HNull | _ => HPtr pd end),
          (match dims with [] => HNull | _ => HPtr pm end), ps.
  split_and!.
  - apply header_map_p.
  - destruct dims as [|d dims]; [done|]. exists pd, tag. split; [done|].
    by apply header_map_pd.
  - pose proof (rowmajor_length (length dims)) as Hl.
    destruct dims as [|d dims]; [done|].
    destruct (rowmajor (length (d :: dims))) eqn:Hr; [done|].
    exists pm, tag. split; [done|]. rewrite <-Hr. by apply header_map_pm.
  - by apply header_map_ps.
Qed.
Lemma tensor_map_view tag p pd pm ps px dt dev dims bytes :
  NoDup [p; pd; pm; ps; px] ->
  view (tensor_map tag p pd pm ps px dt dev dims bytes) p dt dev dims
       (rowmajor (length dims)) px.
Proof.
  intros H. eapply view_mono; [by apply header_sub_tensor|]. by apply header_map_view.
Qed.

Section tnew.
Context {tag lo : nat} {base : gmap nat block} {p pd pm ps px : nat}
  {dt : dtype} {dev : device} {dims : list Z}.
Implicit Types (s : st) (bytes : list mv).

Lemma tnew_base s bytes : tnew tag lo base s p pd pm ps px dt dev dims bytes -> base ⊆ heap s.
Proof. intros (_ & -> & Hd & _). by apply map_union_subseteq_r. Qed.
Lemma tnew_wf s bytes : tnew tag lo base s p pd pm ps px dt dev dims bytes -> wf s.
Proof.
  intros (_ & Hh & Hd & H1 & H2) b. rewrite Hh.
  intros [x Hx]. apply lookup_union_Some in Hx as [Hx|Hx]; [|by eauto|done].
  apply H1. eauto.
Qed.
Lemma tnew_new s bytes : tnew tag lo base s p pd pm ps px dt dev dims bytes ->
  tensor_map tag p pd pm ps px dt dev dims bytes ⊆ heap s.
Proof. intros (_ & -> & Hd & _). apply map_union_subseteq_l. Qed.
Lemma tnew_view s bytes : tnew tag lo base s p pd pm ps px dt dev dims bytes ->
  view (heap s) p dt dev dims (rowmajor (length dims)) px.
Proof.
  intros H. eapply view_mono; [by eapply tnew_new|].
  apply tensor_map_view. by destruct H.
Qed.
Lemma tnew_px s bytes : tnew tag lo base s p pd pm ps px dt dev dims bytes ->
  heap s !! px = Some (Blk tag (CData bytes)).
Proof.
  intros H. eapply lookup_weaken; [|by eapply tnew_new].
  apply tensor_map_px.
Qed.
Lemma tnew_ne s bytes b : tnew tag lo base s p pd pm ps px dt dev dims bytes ->
  is_Some (base !! b) -> b <> px /\ b <> p.
Proof.
  intros (Hnd & Hh & Hd & _) [x Hx]. 
  assert (forall b', is_Some (tensor_map tag p pd pm ps px dt dev dims bytes !! b') -> b <> b').
  { intros b' [y Hy] ->. by eapply map_disjoint_spec. }
  split; apply H; apply tensor_map_dom; auto.
Qed.

Lemma tnew_upd s bytes bytes' :
  tnew tag lo base s p pd pm ps px dt dev dims bytes ->
  tnew tag lo base (upd s px (Blk tag (CData bytes'))) p pd pm ps px dt dev dims bytes'.
Proof.
  intros (Hnd & Hh & Hd & H1 & H2). unfold tnew. cbn [heap upd ctr].
  rewrite <-(tensor_map_upd tag p pd pm ps px dt dev dims bytes bytes').
  assert (tensor_map tag p pd pm ps px dt dev dims bytes !! px = Some (Blk tag (CData bytes)))
    as Hpx by apply tensor_map_px.
  split_and!.
  - done.
  - rewrite Hh. by rewrite insert_union_l.
  - apply map_disjoint_insert_l. split; [|done].
    eapply map_disjoint_Some_l; done.
  - intros b Hb. apply H1. rewrite lookup_insert_is_Some' in Hb.
    destruct Hb as [<-|Hb]; [|done]. rewrite Hpx. eauto.
  - done.
Qed.

(** A scratch block allocated afterwards joins the base. *)
Lemma tnew_alloc s bytes x :
  tnew tag lo base s p pd pm ps px dt dev dims bytes ->
  tnew tag lo (<[ctr s := x]> base) (st_alloc s x) p pd pm ps px dt dev dims bytes.
Proof.
  intros (Hnd & Hh & Hd & H1 & H2). unfold tnew. cbn [heap st_alloc ctr].
  assert (tensor_map tag p pd pm ps px dt dev dims bytes !! ctr s = None) as Hn.
  { apply eq_None_not_Some. intros Hb. apply H1 in Hb. lia. }
  split_and!.
  - done.
  - rewrite Hh. by rewrite insert_union_r.
  - by apply map_disjoint_insert_r.
  - intros b Hb. apply H1 in Hb. lia.
  - intros b. rewrite lookup_insert_is_Some'. intros [<-|Hb]; [lia|]. apply H2 in Hb. lia.
Qed.
Lemma tnew_fail s bytes :
  tnew tag lo base s p pd pm ps px dt dev dims bytes ->
  tnew tag lo base (st_fail s) p pd pm ps px dt dev dims bytes.
Proof.
  intros (Hnd & Hh & Hd & H1 & H2). unfold tnew. cbn [heap st_fail ctr].
  split_and!; try done.
  - intros b Hb. apply H1 in Hb. lia.
  - intros b Hb. apply H2 in Hb. lia.
Qed.

(** Freeing a block of the base. *)
Lemma tnew_free s bytes b :
  tnew tag lo base s p pd pm ps px dt dev dims bytes ->
  is_Some (base !! b) ->
  tnew tag lo (delete b base) (st_free s b) p pd pm ps px dt dev dims bytes.
Proof.
  intros (Hnd & Hh & Hd & H1 & H2) [x Hx]. unfold tnew. cbn [heap st_free ctr].
  assert (tensor_map tag p pd pm ps px dt dev dims bytes !! b = None) as Hn.
  { eapply map_disjoint_Some_r; done. }
  split_and!.
  - done.
  - rewrite Hh, delete_union. f_equal. by apply delete_notin.
  - by apply map_disjoint_delete_r.
  - done.
  - intros c Hc. apply H2. rewrite lookup_delete_is_Some in Hc. naive_solver.
Qed.
End tnew.

Lemma tnew_created E s s' p pd pm ps px T k :
  wf s -> valid T ->
  tnew (e_alloc E) (ctr s) (heap s) s' p pd pm ps px (dtype_of (a_type T)) (a_dev T)
       (a_dims T) (cells (a_type T) (a_vals T)) ->
  rpos s' = (rpos s + k)%nat ->
  created_k E s s' p T k.
Proof.
  intros Hwf HT (Hnd & Hh & Hd & H1 & H2) Hr. split; [done|].
  eexists. split_and!; [|done|done|done| |done].
  - exists pd, pm, ps, px. done.
  - destruct (decide (ctr s = 0%nat)) as [H0|H0]; [lia|].
    specialize (H1 p ltac:(apply tensor_map_dom; auto)). lia.
Qed.

(** ** Accessors *)
Section accessors.
Context {E : env} {s : st} {p : nat} {dt : dtype} {dev : device}
  {dims order : list Z} {px : nat} (Hv : view (heap s) p dt dev dims order px).

Lemma get_timpl_view : exists pd pm ps tg,
  get_timpl (HPtr p) E s = Done (TI (prodZ dims) 0 (Z.of_nat (length dims)) pd 0 pm (HPtr ps)) s
  /\ ints_at (heap s) pd dims /\ ints_at (heap s) pm order
  /\ heap s !! ps = Some (Blk tg (CStorage (SI dt dev (prodZ dims) (HPtr px)))).
Proof using Hv.
  destruct Hv as (tg & tg' & pd & pm & ps & Hp & Hd & Hm & Hps).
  exists pd, pm, ps, tg'. split_and!; try done. by eapply get_timpl_ok.
Qed.
Lemma int_array_ok q l : ints_at (heap s) q l -> int_array q E s = Done l s.
Proof using Type.
  destruct l as [|x l]; simpl.
  - intros ->. done.
  - intros (b & tg & -> & Hb). unfold int_array. simpl is_null. cbv beta match.
    by eapply get_ints_ok.
Qed.
Lemma tensor_ndim_ok : tensor_ndim (HPtr p) E s = Done (Z.of_nat (length dims)) s.
Proof using Hv.
  destruct get_timpl_view as (pd & pm & ps & tg & H & _).
  unfold tensor_ndim. by erewrite bind_done by done.
Qed.
Lemma tensor_size_ok : tensor_size (HPtr p) E s = Done (prodZ dims) s.
Proof using Hv.
  destruct get_timpl_view as (pd & pm & ps & tg & H & _).
  unfold tensor_size. by erewrite bind_done by done.
Qed.
Lemma tensor_dims_ok : tensor_dims (HPtr p) E s = Done dims s.
Proof using Hv.
  destruct get_timpl_view as (pd & pm & ps & tg & H & Hd & _).
  unfold tensor_dims. erewrite bind_done by done. by apply int_array_ok.
Qed.
Lemma tensor_min2maj_ok : tensor_min2maj (HPtr p) E s = Done order s.
Proof using Hv.
  destruct get_timpl_view as (pd & pm & ps & tg & H & Hd & Hm & _).
  unfold tensor_min2maj. erewrite bind_done by done. by apply int_array_ok.
Qed.
Lemma tensor_dim_ok i d : 0 <= i -> dims !! Z.to_nat i = Some d ->
  tensor_dim (HPtr p) i E s = Done d s.
Proof using Hv.
  intros Hi Hd. unfold tensor_dim. erewrite bind_done by apply tensor_dims_ok.
  by apply aget_Z.
Qed.
Lemma tensor_storage_ok :
  tensor_storage (HPtr p) E s = Done (SI dt dev (prodZ dims) (HPtr px)) s.
Proof using Hv.
  destruct get_timpl_view as (pd & pm & ps & tg & H & Hd & Hm & Hs).
  unfold tensor_storage. erewrite bind_done by done. by eapply get_simpl_ok.
Qed.
Lemma tensor_dtype_ok : tensor_dtype (HPtr p) E s = Done dt s.
Proof using Hv. unfold tensor_dtype. by erewrite bind_done by apply tensor_storage_ok. Qed.
Lemma tensor_device_ok : tensor_device (HPtr p) E s = Done dev s.
Proof using Hv. unfold tensor_device. by erewrite bind_done by apply tensor_storage_ok. Qed.
Lemma tensor_data_ok : tensor_data (HPtr p) E s = Done (HPtr px) s.
Proof using Hv. unfold tensor_data. by erewrite bind_done by apply tensor_storage_ok. Qed.
End accessors.

(** ** Creation *)

Lemma keeps_refl s : wf s -> keeps s s.
Proof. intros H. split_and!; done. Qed.
Lemma keeps_trans s1 s2 s3 : keeps s1 s2 -> keeps s2 s3 -> keeps s1 s3.
Proof. intros (?&?&?) (?&?&?). split_and!; [by etrans|done|lia]. Qed.
Lemma keeps_fail s : wf s -> keeps s (st_fail s).
Proof.
  intros H. split_and!; cbn; [done| |lia]. intros b Hb. apply H in Hb. cbn. lia.
Qed.
Lemma wf_alloc s x : wf s -> wf (st_alloc s x).
Proof.
  intros H b. cbn. rewrite lookup_insert_is_Some'. intros [<-|Hb]; [lia|].
  apply H in Hb. lia.
Qed.
Lemma wf_fail s : wf s -> wf (st_fail s).
Proof. intros H b Hb. apply H in Hb. cbn. lia. Qed.
Lemma keeps_alloc s x : wf s -> keeps s (st_alloc s x).
Proof.
  intros H. split_and!; cbn; [|by apply wf_alloc|lia].
  apply insert_subseteq. by apply wf_fresh.
Qed.
(** Overwriting a block that is newer than [s]. *)
Lemma wf_upd s b x : wf s -> is_Some (heap s !! b) -> wf (upd s b x).
Proof.
  intros H Hb c. cbn. rewrite lookup_insert_is_Some'. intros [<-|Hc]; by apply H.
Qed.
Lemma keeps_upd s s' b x : wf s -> keeps s s' -> (ctr s <= b)%nat -> is_Some (heap s' !! b) ->
  keeps s (upd s' b x).
Proof.
  intros Hwf (H1 & H2 & H3) Hb Hs. split_and!; cbn; [|by apply wf_upd|done].
  apply insert_subseteq_r; [by apply wf_fresh|done].
Qed.
Lemma keeps_rpos_irrel h c r r' s : keeps s (St h c r) -> keeps s (St h c r').
Proof. done. Qed.

(** Creation over a caller-supplied or a fresh buffer, any allocator. *)
Lemma create_rule dt dev dims o E s (Q : status * hval -> st -> Prop) :
  wf s -> prefixes_fit dims -> Z.of_nat (length dims) <= INT_MAX ->
  0 <= d_size dt * prodZ dims <= INT64_MAX ->
  (forall s' p pd pm ps px,
     tnew (e_alloc E) (ctr s) (heap s) s' p pd pm ps px dt dev dims
          (replicate (Z.to_nat (d_size dt * prodZ dims)) MU) ->
     rpos s' = rpos s -> Q (SUCCESS, HPtr p) s') ->
  (forall s', ~ alloc_all E -> keeps s s' -> rpos s' = rpos s -> Q (ALLOC_FAILED, o) s') ->
  wp (aitisa_create dt dev dims (Z.of_nat (length dims)) HNull 0 o) E s Q.
Proof.
  intros Hwf Hpre Hlen Hbytes HQ HF. unfold aitisa_create.
  destruct (raw_alloc_cases 56 CRaw E s ltac:(llia)) as [Ha|[Hna Ha]];
    (eapply wp_step; [exact Ha|]); cbn [is_null].
  2:{ apply wp_ret. apply HF; [done|by apply keeps_fail|done]. }
  set (s1 := st_alloc s _).
  assert (wf s1) as Hwf1 by by apply wf_alloc.
  assert (keeps s s1) as Hk1 by by apply keeps_alloc.
  eapply wp_step; [by apply size_of_dims_ok|].
  eapply wp_step; [done|]. cbv beta match.
  apply wp_bind. unfold create_shape.
  destruct dims as [|d0 dims0] eqn:Hdims.
  - (* rank 0 *)
    cbn [length Z.of_nat]. simpl (0 =? 0). cbv beta match. simpl negb. simpl andb. cbv beta match.
    eapply wp_step; [done|]. cbv beta match.
    eapply wp_step; [done|]. cbn [fill_ints].
    eapply wp_step; [done|].
    eapply wp_step; [done|]. apply wp_ret. simpl bool_decide. simpl negb. cbv beta match.
    unfold create_storage. apply wp_bind.
    destruct (raw_alloc_cases 32 CRaw E s1 ltac:(llia)) as [Hb|[Hna Hb]];
      (eapply wp_step; [exact Hb|]); cbn [is_null].
    2:{ apply wp_ret. simpl negb. cbv beta match. apply wp_ret. apply HF; [done| |done].
        eapply keeps_trans; [done|]. by apply keeps_fail. }
    set (s2 := st_alloc s1 _).
    assert (wf s2) as Hwf2 by by apply wf_alloc.
    assert (keeps s s2) as Hk2 by (eapply keeps_trans; [done|by apply keeps_alloc]).
    rewrite prodZ_nil in Hbytes |- *. apply wp_bind.
    eapply wp_step; [apply ck64_ok; llia|].
    destruct (raw_alloc_cases (d_size dt * 1) (fun n => CData (replicate (Z.to_nat n) MU))
      E s2 ltac:(llia)) as [Hc|[Hna Hc]]; (eapply wp_intro; [exact Hc|]); cbn [is_null].
    2:{ apply wp_ret. simpl negb. cbv beta match. apply wp_ret. apply HF; [done| |done].
        eapply keeps_trans; [done|]. by apply keeps_fail. }
    set (s3 := st_alloc s2 _).
    assert (wf s3) as Hwf3 by by apply wf_alloc.
    eapply wp_step.
    { eapply set_content_ok. cbn. rewrite lookup_insert_ne, lookup_insert by lia. done. }
    apply wp_ret. simpl negb. cbv beta match.
    eapply wp_step.
    { eapply set_content_ok. cbn.
      rewrite lookup_insert_ne, lookup_insert_ne, lookup_insert_ne, lookup_insert by lia. done. }
    apply wp_ret.
    apply (HQ _ (ctr s) (S (S (S (ctr s)))) (S (S (S (S (ctr s))))) (S (ctr s)) (S (S (ctr s)))); [|done].
    assert (heap s !! ctr s = None) as Hf0 by (apply wf_fresh; [done|lia]).
    assert (heap s !! S (ctr s) = None) as Hf1 by (apply wf_fresh; [done|lia]).
    assert (heap s !! S (S (ctr s)) = None) as Hf2 by (apply wf_fresh; [done|lia]).
    unfold tnew. split_and!.
    + rewrite !NoDup_cons, !elem_of_cons. 
      split_and!; try apply NoDup_nil_2; rewrite ?elem_of_nil; lia.
    + cbn. apply map_eq. intros b.
      unfold tensor_map, header_map.
      rewrite <-!insert_union_l, (left_id_L ∅ (∪)).
      destruct (decide (b = ctr s)) as [->|]; [by lkup|].
      destruct (decide (b = S (ctr s))) as [->|]; [by lkup|].
      destruct (decide (b = S (S (ctr s)))) as [->|]; [by lkup|].
      rewrite !lookup_insert_ne by lia. done.
    + apply map_disjoint_spec. intros b x y Hx Hy.
      assert (is_Some (tensor_map (e_alloc E) (ctr s) (S (S (S (ctr s)))) (S (S (S (S (ctr s)))))
        (S (ctr s)) (S (S (ctr s))) dt dev [] (replicate (Z.to_nat (d_size dt * prodZ [])) MU) !! b))
        as Hb' by eauto.
      apply tensor_map_dom in Hb'. naive_solver.
    + intros b Hb'. apply tensor_map_dom in Hb'. cbn. 
      destruct Hb' as [->|[->|[->|[? ?]]]]; [lia|lia|lia|done].
    + intros b Hb'. apply Hwf in Hb'. cbn. lia.
  - rewrite <-Hdims in *.
    assert (dims <> []) as Hne by (by subst).
    assert (0 < Z.of_nat (length dims)) as Hpos by (subst; cbn; lia).
    clear Hdims d0 dims0.
    replace (Z.of_nat (length dims) =? 0) with false by lia. simpl negb. 
    destruct (raw_alloc_cases (8 * Z.of_nat (length dims)) (fun _ => CInts []) E s1 ltac:(llia))
      as [Hd|[Hna Hd]]; (eapply wp_step; [exact Hd|]); cbn [is_null andb].
    2:{ apply wp_ret. simpl negb. cbv beta match. apply wp_ret. apply HF; [done| |done].
        eapply keeps_trans; [done|]. by apply keeps_fail. }
    set (s2 := st_alloc s1 _).
    assert (wf s2) as Hwf2 by by apply wf_alloc.
    assert (keeps s s2) as Hk2 by (eapply keeps_trans; [done|by apply keeps_alloc]).
    eapply wp_step.
    { apply append_loop. intros k x acc Hx. erewrite bind_done by (by apply aget_nat). done. }
    eapply wp_step.
    { eapply fill_ints_ok; [|done|].
      - cbn. rewrite lookup_insert. done.
      - rewrite to_size_id; llia. }
    set (s3 := upd s2 _ _).
    assert (wf s3) as Hwf3.
    { apply wf_upd; [done|]. cbn. rewrite lookup_insert. eauto. }
    assert (keeps s s3) as Hk3.
    { apply keeps_upd; [done|done|cbn; lia|]. cbn. rewrite lookup_insert. eauto. }
    unfold create_default_layout. cbn [negb]. rewrite Z.eqb_refl. cbn [negb].
    replace (Z.of_nat (length dims) =? 0) with false by lia. cbn [negb].
    apply wp_bind.
    destruct (raw_alloc_cases (8 * Z.of_nat (length dims)) (fun _ => CInts []) E s3 ltac:(llia))
      as [He|[Hna He]]; (eapply wp_step; [exact He|]); cbn [is_null andb].
    2:{ apply wp_ret. apply wp_ret. simpl negb. cbv beta match. apply wp_ret.
        apply HF; [done| |done].
        eapply keeps_trans; [done|]. by apply keeps_fail. }
    set (s4 := st_alloc s3 _).
    assert (wf s4) as Hwf4 by by apply wf_alloc.
    assert (keeps s s4) as Hk4 by (eapply keeps_trans; [done|by apply keeps_alloc]).
    eapply wp_step; [apply layout_loop|].
    eapply wp_step.
    { eapply fill_ints_ok.
      - cbn. rewrite lookup_insert. done.
      - intros H0. apply (f_equal length) in H0. rewrite rowmajor_length in H0. cbn in H0. lia.
      - rewrite rowmajor_length, to_size_id; llia. }
    set (s5 := upd s4 _ _).
    assert (wf s5) as Hwf5.
    { apply wf_upd; [done|]. cbn. rewrite lookup_insert. eauto. }
    assert (keeps s s5) as Hk5.
    { apply keeps_upd; [done|done|cbn; lia|]. cbn. rewrite lookup_insert. eauto. }
    apply wp_ret. apply wp_ret. simpl negb. cbv beta match.
    unfold create_storage. apply wp_bind.
    destruct (raw_alloc_cases 32 CRaw E s5 ltac:(llia)) as [Hb|[Hna Hb]];
      (eapply wp_step; [exact Hb|]); cbn [is_null].
    2:{ apply wp_ret. simpl negb. cbv beta match. apply wp_ret. apply HF; [done| |done].
        eapply keeps_trans; [done|]. by apply keeps_fail. }
    set (s6 := st_alloc s5 _).
    assert (wf s6) as Hwf6 by by apply wf_alloc.
    assert (keeps s s6) as Hk6 by (eapply keeps_trans; [done|by apply keeps_alloc]).
    apply wp_bind.
    eapply wp_step; [apply ck64_ok; llia|].
    destruct (raw_alloc_cases (d_size dt * prodZ dims) (fun n => CData (replicate (Z.to_nat n) MU))
      E s6 ltac:(llia)) as [Hc|[Hna Hc]]; (eapply wp_intro; [exact Hc|]); cbn [is_null].
    2:{ apply wp_ret. simpl negb. cbv beta match. apply wp_ret. apply HF; [done| |done].
        eapply keeps_trans; [done|]. by apply keeps_fail. }
    set (s7 := st_alloc s6 _).
    assert (wf s7) as Hwf7 by by apply wf_alloc.
    eapply wp_step.
    { eapply set_content_ok. cbn. rewrite lookup_insert_ne, lookup_insert by lia. done. }
    apply wp_ret. simpl negb. cbv beta match.
    eapply wp_step.
    { eapply set_content_ok. cbn.
      rewrite !(lookup_insert_ne _ _ (ctr s)) by lia. rewrite lookup_insert. done. }
    apply wp_ret.
    eapply (HQ _ (ctr s) (S (ctr s)) (S (S (ctr s))) (S (S (S (ctr s)))) (S (S (S (S (ctr s)))))); [|done].
    assert (forall b, (ctr s <= b)%nat -> heap s !! b = None) as Hf0 by (intros; by apply wf_fresh).
    unfold tnew. split_and!.
    + rewrite !NoDup_cons, !elem_of_cons. 
      split_and!; try apply NoDup_nil_2; rewrite ?elem_of_nil; lia.
    + cbn. apply map_eq. intros b.
      unfold tensor_map, header_map. destruct dims as [|d0 dims0] eqn:Hdims; [done|]. rewrite <-Hdims in *.
      rewrite <-!insert_union_l, (left_id_L ∅ (∪)).
      destruct (decide (b = ctr s)) as [->|]; [by lkup|].
      destruct (decide (b = S (ctr s))) as [->|]; [by lkup|].
      destruct (decide (b = S (S (ctr s)))) as [->|]; [by lkup|].
      destruct (decide (b = S (S (S (ctr s))))) as [->|]; [by lkup|].
      destruct (decide (b = S (S (S (S (ctr s)))))) as [->|]; [by lkup|].
      rewrite !lookup_insert_ne by lia. done.
    + apply map_disjoint_spec. intros b x y Hx Hy.
      assert (ctr s <= b)%nat as Hb'.
      { assert (is_Some (tensor_map (e_alloc E) (ctr s) (S (ctr s)) (S (S (ctr s))) (S (S (S (ctr s))))
          (S (S (S (S (ctr s))))) dt dev dims (replicate (Z.to_nat (d_size dt * prodZ dims)) MU) !! b))
          as Hb' by eauto.
        apply tensor_map_dom in Hb'. lia. }
      rewrite Hf0 in Hy by done. done.
    + intros b Hb'. apply tensor_map_dom in Hb'. cbn. lia.
    + intros b Hb'. apply Hwf in Hb'. cbn. lia.
Qed.
