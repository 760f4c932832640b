(** * Logic: program-logic rules for the monad [M] (proof support) *)
From stdpp Require Import gmap list.
From Coq Require Import ZArith Lia.
From Coq Require Import ZifyBool ZifyNat.
From Verif Require Import Base Mem Spec ModelCore.
Open Scope Z_scope.

Ltac Zify.zify_post_hook ::= Z.div_mod_to_equations.

(** [wp m E s Q]: running [m] finishes normally in a result satisfying [Q]. *)
Definition wp {A} (m : M A) (E : env) (s : st) (Q : A -> st -> Prop) : Prop :=
  match m E s with Done a s' => Q a s' | _ => False end.

Lemma wp_elim {A} (m : M A) E s Q :
  wp m E s Q -> exists a s', m E s = Done a s' /\ Q a s'.
Proof. unfold wp. destruct (m E s) as [a s'| | |]; intros H; try done. eauto. Qed.

Lemma wp_intro {A} (m : M A) E s (Q : A -> st -> Prop) a s' :
  m E s = Done a s' -> Q a s' -> wp m E s Q.
Proof. unfold wp. intros ->. done. Qed.

Lemma wp_mono {A} (m : M A) E s (Q Q' : A -> st -> Prop) :
  wp m E s Q -> (forall a s', Q a s' -> Q' a s') -> wp m E s Q'.
Proof. unfold wp. destruct (m E s); eauto. Qed.

Lemma wp_ret {A} (a : A) E s (Q : A -> st -> Prop) : Q a s -> wp (ret a) E s Q.
Proof. done. Qed.

Lemma wp_bind {A B} (m : M A) (k : A -> M B) E s Q :
  wp m E s (fun a s' => wp (k a) E s' Q) -> wp (bind m k) E s Q.
Proof. unfold wp, bind. destruct (m E s); done. Qed.

Lemma wp_step {A B} (m : M A) (k : A -> M B) E s a s' Q :
  m E s = Done a s' -> wp (k a) E s' Q -> wp (bind m k) E s Q.
Proof. unfold wp, bind. intros ->. done. Qed.

Lemma wp_check b u {B} (k : M B) E s Q :
  b = true -> wp k E s Q -> wp (check b u ;;; k) E s Q.
Proof. intros ->. done. Qed.

Lemma bind_done {A B} (m : M A) (k : A -> M B) E s a s' :
  m E s = Done a s' -> bind m k E s = k a E s'.
Proof. unfold bind. intros ->. done. Qed.

(** ** Pure steps *)
Lemma ck64_ok z E s : INT64_MIN <= z <= INT64_MAX -> ck64 z E s = Done z s.
Proof.
  intros H. unfold ck64, check, bind. 
  replace ((INT64_MIN <=? z) && (z <=? INT64_MAX)) with true by lia. done.
Qed.
Lemma ck32_ok z E s : INT_MIN <= z <= INT_MAX -> ck32 z E s = Done z s.
Proof.
  intros H. unfold ck32, check, bind.
  replace ((INT_MIN <=? z) && (z <=? INT_MAX)) with true by lia. done.
Qed.
Lemma check_ok b u E s : b = true -> check b u E s = Done tt s.
Proof. intros ->. done. Qed.
Lemma assert_ok b E s : b = true -> assert_ b E s = Done tt s.
Proof. intros ->. done. Qed.
Lemma opt_ok {A} (o : option A) a u E s : o = Some a -> opt o u E s = Done a s.
Proof. intros ->. done. Qed.

Lemma div64_ok a b E s : b <> 0 -> INT64_MIN <= Z.quot a b <= INT64_MAX ->
  div64 a b E s = Done (Z.quot a b) s.
Proof.
  intros Hb H. unfold div64. erewrite bind_done by (apply check_ok; lia).
  by apply ck64_ok.
Qed.
Lemma rem64_ok a b E s : b <> 0 -> INT64_MIN <= Z.quot a b <= INT64_MAX ->
  rem64 a b E s = Done (Z.rem a b) s.
Proof.
  intros Hb H. unfold rem64. erewrite bind_done by (apply check_ok; lia).
  erewrite bind_done by (by apply ck64_ok). done.
Qed.

Lemma zget_nat {A} (l : list A) (n : nat) : zget l (Z.of_nat n) = l !! n.
Proof. unfold zget. replace (Z.of_nat n <? 0) with false by lia. by rewrite Nat2Z.id. Qed.
Lemma zget_Z {A} (l : list A) i : 0 <= i -> zget l i = l !! Z.to_nat i.
Proof. intros H. unfold zget. replace (i <? 0) with false by lia. done. Qed.
Lemma aget_nat {A} (l : list A) (n : nat) x E s :
  l !! n = Some x -> aget l (Z.of_nat n) E s = Done x s.
Proof. intros H. unfold aget. apply opt_ok. by rewrite zget_nat. Qed.
Lemma aget_Z {A} (l : list A) i x E s :
  0 <= i -> l !! Z.to_nat i = Some x -> aget l i E s = Done x s.
Proof. intros Hi H. unfold aget. apply opt_ok. by rewrite zget_Z. Qed.
Lemma aset_Z {A} (l : list A) i x E s :
  0 <= i < Z.of_nat (length l) -> aset l i x E s = Done (<[Z.to_nat i := x]> l) s.
Proof. intros H. unfold aset. erewrite bind_done by (apply check_ok; lia). done. Qed.
Lemma aset_nat {A} (l : list A) (n : nat) x E s :
  (n < length l)%nat -> aset l (Z.of_nat n) x E s = Done (<[n := x]> l) s.
Proof. intros H. rewrite aset_Z by lia. by rewrite Nat2Z.id. Qed.
Lemma uget_Z l i x E s :
  0 <= i -> l !! Z.to_nat i = Some (Some x) -> uget l i E s = Done x s.
Proof.
  intros Hi H. unfold uget. erewrite bind_done by (by apply aget_Z). done.
Qed.

Lemma mapM_id_fmap {A} (l : list A) : mapM id (Some <$> l) = Some l.
Proof. induction l as [|x l IH]; [done|]. cbn. cbn in IH. rewrite IH. done. Qed.
Lemma force_array_ok (l : list Z) E s : force_array (Some <$> l) E s = Done l s.
Proof. unfold force_array. apply opt_ok. apply mapM_id_fmap. Qed.

(** ** Loops *)
Lemma iter_rule {S} (I : nat -> S -> st -> Prop) E n i0 (body : Z -> S -> M S) x s :
  I O x s ->
  (forall k x s, (k < n)%nat -> I k x s ->
     wp (body (i0 + Z.of_nat k) x) E s (I (Datatypes.S k))) ->
  wp (iter n i0 body x) E s (I n).
Proof.
  revert I i0 x s. induction n as [|n IH]; intros I i0 x s H0 Hs; simpl.
  - by apply wp_ret.
  - apply wp_bind. eapply wp_mono.
    + specialize (Hs O x s ltac:(lia) H0). by rewrite Z.add_0_r in Hs.
    + intros y s' Hy. apply (IH (fun k => I (Datatypes.S k))); [done|].
      intros k z s'' Hk Hz. specialize (Hs (Datatypes.S k) z s'' ltac:(lia) Hz).
      replace (i0 + 1 + Z.of_nat k) with (i0 + Z.of_nat (Datatypes.S k)) by lia. done.
Qed.

(** Loops without effect on the state: [f k] is the loop variable after [k] steps. *)
Lemma iter_pure {S} (f : nat -> S) E n i0 (body : Z -> S -> M S) x s :
  f O = x ->
  (forall k, (k < n)%nat -> body (i0 + Z.of_nat k) (f k) E s = Done (f (Datatypes.S k)) s) ->
  iter n i0 body x E s = Done (f n) s.
Proof.
  revert f i0 x. induction n as [|n IH]; intros f i0 x H0 Hs; simpl.
  - by subst.
  - erewrite bind_done.
    2:{ rewrite <-H0. specialize (Hs O ltac:(lia)). by rewrite Z.add_0_r in Hs. }
    apply (IH (fun k => f (Datatypes.S k))); [done|].
    intros k Hk. specialize (Hs (Datatypes.S k) ltac:(lia)).
    replace (i0 + 1 + Z.of_nat k) with (i0 + Z.of_nat (Datatypes.S k)) by lia. done.
Qed.

Lemma for64_pure {S} (f : nat -> S) E lo hi n (body : Z -> S -> M S) x s :
  f O = x -> Z.to_nat (hi - lo) = n ->
  (forall k, (k < n)%nat -> body (lo + Z.of_nat k) (f k) E s = Done (f (Datatypes.S k)) s) ->
  for64 lo hi body x E s = Done (f n) s.
Proof. intros H0 <- H. unfold for64. by apply iter_pure. Qed.

Lemma for32_pure {S} (f : nat -> S) E lo hi n (body : Z -> S -> M S) x s :
  f O = x -> Z.to_nat (hi - lo) = n -> hi <= INT_MAX ->
  (forall k, (k < n)%nat -> body (lo + Z.of_nat k) (f k) E s = Done (f (Datatypes.S k)) s) ->
  for32 lo hi body x E s = Done (f n) s.
Proof.
  intros H0 <- Hh H. unfold for32. apply iter_pure; [done|].
  intros k Hk. erewrite bind_done by (by apply H).
  erewrite bind_done by (apply check_ok; lia). done.
Qed.

Lemma for64_rule {S} (I : nat -> S -> st -> Prop) E lo hi n (body : Z -> S -> M S) x s :
  Z.to_nat (hi - lo) = n -> I O x s ->
  (forall k x s, (k < n)%nat -> I k x s ->
     wp (body (lo + Z.of_nat k) x) E s (I (Datatypes.S k))) ->
  wp (for64 lo hi body x) E s (I n).
Proof. intros <- H0 Hs. unfold for64. by apply iter_rule. Qed.

Lemma for32_rule {S} (I : nat -> S -> st -> Prop) E lo hi n (body : Z -> S -> M S) x s :
  Z.to_nat (hi - lo) = n -> hi <= INT_MAX -> I O x s ->
  (forall k x s, (k < n)%nat -> I k x s ->
     wp (body (lo + Z.of_nat k) x) E s (I (Datatypes.S k))) ->
  wp (for32 lo hi body x) E s (I n).
Proof.
  intros <- Hh H0 Hs. unfold for32. apply iter_rule; [done|].
  intros k y s' Hk HI. apply wp_bind. eapply wp_mono; [by apply Hs|].
  intros z s'' HI'. apply wp_check; [lia|]. by apply wp_ret.
Qed.

(** [iter_ret] where the body never returns early *)
Lemma iter_ret_rule {S R} (I : nat -> S -> st -> Prop) E n i0
    (body : Z -> S -> M (ctl S R)) x s :
  I O x s ->
  (forall k x s, (k < n)%nat -> I k x s ->
     wp (body (i0 + Z.of_nat k) x) E s
        (fun c s' => exists x', c = Next x' /\ I (Datatypes.S k) x' s')) ->
  wp (iter_ret n i0 body x) E s (fun c s' => exists x', c = Next x' /\ I n x' s').
Proof.
  revert I i0 x s. induction n as [|n IH]; intros I i0 x s H0 Hs; simpl.
  - apply wp_ret. eauto.
  - apply wp_bind. eapply wp_mono.
    + specialize (Hs O x s ltac:(lia) H0). by rewrite Z.add_0_r in Hs.
    + intros c s' (y & -> & Hy). apply (IH (fun k => I (Datatypes.S k))); [done|].
      intros k z s'' Hk Hz. specialize (Hs (Datatypes.S k) z s'' ltac:(lia) Hz).
      replace (i0 + 1 + Z.of_nat k) with (i0 + Z.of_nat (Datatypes.S k)) by lia. done.
Qed.

(** General rule with an early exit *)
Lemma iter_ret_rule_gen {S R} (I : nat -> S -> st -> Prop) (J : R -> st -> Prop) E n i0
    (body : Z -> S -> M (ctl S R)) x s :
  I O x s ->
  (forall k x s, (k < n)%nat -> I k x s ->
     wp (body (i0 + Z.of_nat k) x) E s
        (fun c s' => match c with Next x' => I (Datatypes.S k) x' s' | Return r => J r s' end)) ->
  wp (iter_ret n i0 body x) E s
     (fun c s' => match c with Next x' => I n x' s' | Return r => J r s' end).
Proof.
  revert I i0 x s. induction n as [|n IH]; intros I i0 x s H0 Hs; simpl.
  - by apply wp_ret.
  - apply wp_bind. eapply wp_mono.
    + specialize (Hs O x s ltac:(lia) H0). by rewrite Z.add_0_r in Hs.
    + intros c s' Hc. destruct c as [y|r]; [|by apply wp_ret].
      apply (IH (fun k => I (Datatypes.S k))); [done|].
      intros k z s'' Hk Hz. specialize (Hs (Datatypes.S k) z s'' ltac:(lia) Hz).
      replace (i0 + 1 + Z.of_nat k) with (i0 + Z.of_nat (Datatypes.S k)) by lia. done.
Qed.

Lemma iter_ret_pure {S R} (f : nat -> S) E n i0 (body : Z -> S -> M (ctl S R)) x s :
  f O = x ->
  (forall k, (k < n)%nat ->
     body (i0 + Z.of_nat k) (f k) E s = Done (Next (f (Datatypes.S k))) s) ->
  iter_ret n i0 body x E s = Done (Next (f n)) s.
Proof.
  revert f i0 x. induction n as [|n IH]; intros f i0 x H0 Hs; simpl.
  - by subst.
  - erewrite bind_done.
    2:{ rewrite <-H0. specialize (Hs O ltac:(lia)). by rewrite Z.add_0_r in Hs. }
    cbv beta match. apply (IH (fun k => f (Datatypes.S k))); [done|].
    intros k Hk. specialize (Hs (Datatypes.S k) ltac:(lia)).
    replace (i0 + 1 + Z.of_nat k) with (i0 + Z.of_nat (Datatypes.S k)) by lia. done.
Qed.

(** Early exit at step [j]. *)
Lemma iter_ret_exit {S R} (f : nat -> S) (r : R) E n i0 j (body : Z -> S -> M (ctl S R)) x s :
  f O = x -> (j < n)%nat ->
  (forall k, (k < j)%nat ->
     body (i0 + Z.of_nat k) (f k) E s = Done (Next (f (Datatypes.S k))) s) ->
  body (i0 + Z.of_nat j) (f j) E s = Done (Return r) s ->
  iter_ret n i0 body x E s = Done (Return r) s.
Proof.
  revert f i0 x j. induction n as [|n IH]; intros f i0 x j H0 Hj Hs Hr; [lia|].
  simpl. destruct j as [|j].
  - rewrite Z.add_0_r, H0 in Hr. erewrite bind_done by done. done.
  - erewrite bind_done.
    2:{ rewrite <-H0. specialize (Hs O ltac:(lia)). by rewrite Z.add_0_r in Hs. }
    cbv beta match. apply (IH (fun k => f (Datatypes.S k)) _ _ j); [done|lia| |].
    + intros k Hk. specialize (Hs (Datatypes.S k) ltac:(lia)).
      replace (i0 + 1 + Z.of_nat k) with (i0 + Z.of_nat (Datatypes.S k)) by lia. done.
    + replace (i0 + 1 + Z.of_nat j) with (i0 + Z.of_nat (Datatypes.S j)) by lia. done.
Qed.

(** Downward loops: [f k] is the variable before handling index [k-1]. *)
Lemma iter_down_pure {S} (f : nat -> S) E n (body : Z -> S -> M S) x s :
  f n = x ->
  (forall k, (k < n)%nat -> body (Z.of_nat k) (f (Datatypes.S k)) E s = Done (f k) s) ->
  iter_down n body x E s = Done (f O) s.
Proof.
  revert x. induction n as [|n IH]; intros x H0 Hs; simpl.
  - by subst.
  - erewrite bind_done.
    2:{ rewrite <-H0. apply Hs. lia. }
    apply IH; [done|]. intros k Hk. apply Hs. lia.
Qed.

(** ** Heap *)
Lemma wf_fresh s b : wf s -> (ctr s <= b)%nat -> heap s !! b = None.
Proof.
  intros H Hb. destruct (heap s !! b) eqn:Hx; [|done].
  specialize (H b ltac:(eauto)). lia.
Qed.

(** The state after writing content [c] into block [b]. *)
Definition upd (s : st) (b : nat) (x : block) : st :=
  St (<[b := x]> (heap s)) (ctr s) (rpos s).

Lemma deref_ok s b x E : heap s !! b = Some x -> deref (HPtr b) E s = Done x s.
Proof. intros H. simpl. by rewrite H. Qed.
Lemma touch_ok s b E : is_Some (heap s !! b) -> touch (HPtr b) E s = Done tt s.
Proof. intros [x H]. unfold touch. by erewrite bind_done by (by apply deref_ok). Qed.

Lemma set_content_ok s b tg c0 c E :
  heap s !! b = Some (Blk tg c0) ->
  set_content (HPtr b) c E s = Done tt (upd s b (Blk tg c)).
Proof.
  intros H. unfold set_content. erewrite bind_done by (by apply deref_ok). done.
Qed.

Lemma get_bytes_ok s b tg l E :
  heap s !! b = Some (Blk tg (CData l)) -> get_bytes (HPtr b) E s = Done l s.
Proof. intros H. unfold get_bytes. by erewrite bind_done by (by apply deref_ok). Qed.
Lemma get_ints_ok s b tg l E :
  heap s !! b = Some (Blk tg (CInts l)) -> get_ints (HPtr b) E s = Done l s.
Proof. intros H. unfold get_ints. by erewrite bind_done by (by apply deref_ok). Qed.
Lemma get_timpl_ok s b tg l E :
  heap s !! b = Some (Blk tg (CTensor l)) -> get_timpl (HPtr b) E s = Done l s.
Proof. intros H. unfold get_timpl. by erewrite bind_done by (by apply deref_ok). Qed.
Lemma get_simpl_ok s b tg l E :
  heap s !! b = Some (Blk tg (CStorage l)) -> get_simpl (HPtr b) E s = Done l s.
Proof. intros H. unfold get_simpl. by erewrite bind_done by (by apply deref_ok). Qed.

(** Allocation: either fails or yields the block [ctr s]. *)
Definition st_alloc (s : st) (x : block) : st :=
  St (<[ctr s := x]> (heap s)) (S (ctr s)) (rpos s).
Definition st_fail (s : st) : st := St (heap s) (S (ctr s)) (rpos s).

Lemma raw_alloc_cases n c E s : 0 <= n <= PTRDIFF_MAX ->
  raw_alloc n c E s = Done (HPtr (ctr s)) (st_alloc s (Blk (e_alloc E) (c n))) \/
  (~ alloc_all E /\ raw_alloc n c E s = Done HNull (st_fail s)).
Proof.
  intros Hn. unfold raw_alloc, alloc_tag.
  replace (to_size n) with n.
  2:{ unfold to_size. rewrite Z.mod_small; [done|].
      unfold PTRDIFF_MAX, SIZE_MOD in *. lia. }
  replace (n <=? PTRDIFF_MAX) with true by lia. simpl.
  destruct (e_alloc_ok E (e_alloc E) (ctr s) n) eqn:Ho; [left; done|right].
  split; [|done]. intros H. rewrite H in Ho. done.
Qed.

Lemma raw_alloc_ok n c E s : alloc_all E -> 0 <= n <= PTRDIFF_MAX ->
  raw_alloc n c E s = Done (HPtr (ctr s)) (st_alloc s (Blk (e_alloc E) (c n))).
Proof. intros HE Hn. destruct (raw_alloc_cases n c E s Hn) as [|[? _]]; [done|done]. Qed.

Lemma libc_malloc_ok n c E s : alloc_all E -> 0 <= n <= PTRDIFF_MAX ->
  libc_malloc n c E s = Done (HPtr (ctr s)) (st_alloc s (Blk 0 (c n))).
Proof.
  intros HE Hn. unfold libc_malloc, alloc_tag.
  replace (to_size n) with n.
  2:{ unfold to_size. rewrite Z.mod_small; [done|].
      unfold PTRDIFF_MAX, SIZE_MOD in *. lia. }
  replace (n <=? PTRDIFF_MAX) with true by lia. simpl. by rewrite HE.
Qed.

Definition st_free (s : st) (b : nat) : st := St (delete b (heap s)) (ctr s) (rpos s).

Lemma raw_dealloc_ok s b x E : heap s !! b = Some x -> b_tag x = e_dealloc E ->
  raw_dealloc (HPtr b) E s = Done tt (st_free s b).
Proof.
  intros H Ht. unfold raw_dealloc, free_tag. rewrite H.
  by rewrite bool_decide_eq_true_2.
Qed.
Lemma libc_free_ok s b x E : heap s !! b = Some x -> b_tag x = 0%nat ->
  libc_free (HPtr b) E s = Done tt (st_free s b).
Proof.
  intros H Ht. unfold libc_free, free_tag. rewrite H.
  by rewrite bool_decide_eq_true_2.
Qed.

(** ** Typed memory *)
Lemma tsz_pos t : (0 < tsz t)%nat.
Proof. destruct t; simpl; lia. Qed.
Lemma tsz_range t : (1 <= tsz t <= 8)%nat.
Proof. destruct t; simpl; lia. Qed.

Lemma encode_length t v : length (encode t v) = tsz t.
Proof. destruct v; simpl; rewrite ?fmap_length, ?seq_length, ?replicate_length; done. Qed.

Lemma cells_length t vs : length (cells t vs) = (length vs * tsz t)%nat.
Proof.
  unfold cells. induction vs as [|v vs IH]; [done|].
  cbn [mbind list_bind length]. rewrite app_length, encode_length, IH. lia.
Qed.
Lemma cells_app t vs ws : cells t (vs ++ ws) = cells t vs ++ cells t ws.
Proof. unfold cells. by rewrite bind_app. Qed.
Lemma cells_cons t v vs : cells t (v :: vs) = encode t v ++ cells t vs.
Proof. done. Qed.
Lemma cells_nil t : cells t [] = [].
Proof. done. Qed.

Lemma cells_replicate_VU t n : cells t (replicate n VU) = replicate (n * tsz t) MU.
Proof.
  induction n as [|n IH]; [done|].
  cbn [replicate]. rewrite cells_cons, IH. cbn [encode].
  rewrite <-replicate_add. f_equal.
Qed.

Lemma decode_encode t v : decode t (encode t v) = Some v.
Proof.
  destruct v as [z|f|].
  - assert (encode t (VI z) = MF t (VI z) 0 :: tail (encode t (VI z))) as Heq
      by (destruct t; done).
    unfold decode. rewrite Heq at 1. by rewrite bool_decide_eq_true_2.
  - assert (encode t (VF f) = MF t (VF f) 0 :: tail (encode t (VF f))) as Heq
      by (destruct t; done).
    unfold decode. rewrite Heq at 1. by rewrite bool_decide_eq_true_2.
  - destruct t; done.
Qed.

Lemma cells_split t vs i v ex :
  vs !! i = Some v ->
  cells t vs ++ ex = cells t (take i vs) ++ encode t v ++ cells t (drop (S i) vs) ++ ex.
Proof.
  intros H. rewrite <-(take_drop_middle vs i v H) at 1.
  rewrite cells_app, cells_cons, <-!app_assoc. done.
Qed.

Lemma load_cells s b tg t vs ex i v off E :
  heap s !! b = Some (Blk tg (CData (cells t vs ++ ex))) ->
  vs !! i = Some v -> off = Z.of_nat i * Z.of_nat (tsz t) ->
  load (HPtr b) t off E s = Done v s.
Proof.
  intros Hb Hv ->. pose proof (lookup_lt_Some _ _ _ Hv) as Hi.
  unfold load. erewrite bind_done by (by eapply get_bytes_ok).
  erewrite bind_done.
  2:{ apply check_ok. rewrite app_length, cells_length. nia. }
  apply opt_ok.
  rewrite (cells_split t vs i v ex Hv).
  replace (Z.to_nat (Z.of_nat i * Z.of_nat (tsz t))) with (length (cells t (take i vs))).
  2:{ rewrite cells_length, take_length. nia. }
  rewrite drop_app. rewrite take_app_alt by (by rewrite encode_length).
  apply decode_encode.
Qed.

Lemma loadi_cells s b tg t vs ex i v E :
  heap s !! b = Some (Blk tg (CData (cells t vs ++ ex))) ->
  vs !! i = Some v ->
  loadi (HPtr b) t (Z.of_nat i) E s = Done v s.
Proof. intros Hb Hv. unfold loadi. by eapply load_cells. Qed.

Lemma store_cells s b tg t vs ex i v off E :
  heap s !! b = Some (Blk tg (CData (cells t vs ++ ex))) ->
  (i < length vs)%nat -> off = Z.of_nat i * Z.of_nat (tsz t) ->
  store (HPtr b) t off v E s
  = Done tt (upd s b (Blk tg (CData (cells t (<[i := v]> vs) ++ ex)))).
Proof.
  intros Hb Hi ->. unfold store, store_bytes.
  erewrite bind_done by (by eapply get_bytes_ok).
  rewrite encode_length.
  erewrite bind_done.
  2:{ apply check_ok. rewrite app_length, cells_length. nia. }
  erewrite set_content_ok by done. do 4 f_equal.
  destruct (lookup_lt_is_Some_2 vs i Hi) as [w Hw].
  rewrite (cells_split t vs i w ex Hw).
  assert (length (cells t (take i vs)) = Z.to_nat (Z.of_nat i * Z.of_nat (tsz t))) as Hl.
  { rewrite cells_length, take_length. nia. }
  rewrite <-Hl. rewrite take_app.
  rewrite app_assoc, (app_assoc (cells t (take i vs)) (encode t w)).
  rewrite drop_app_alt.
  2:{ rewrite app_length, encode_length. done. }
  rewrite insert_take_drop by done.
  rewrite cells_app, cells_cons, <-!app_assoc. done.
Qed.

Lemma storei_cells s b tg t vs ex i v E :
  heap s !! b = Some (Blk tg (CData (cells t vs ++ ex))) ->
  (i < length vs)%nat ->
  storei (HPtr b) t (Z.of_nat i) v E s
  = Done tt (upd s b (Blk tg (CData (cells t (<[i := v]> vs) ++ ex)))).
Proof. intros Hb Hi. unfold storei. by eapply store_cells. Qed.
