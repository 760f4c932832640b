(** * ProofKernel2: odometers, loops that carry state while filling, tables *)
From stdpp Require Import gmap list.
From Coq Require Import ZArith Lia.
From Coq Require Import ZifyBool ZifyNat.
From Verif Require Import Base Mem Spec ModelCore Logic ProofCore ProofCore2 ProofKernel ProofIndex.
Open Scope Z_scope.

Ltac Zify.zify_post_hook ::= Z.div_mod_to_equations.

(** ** Odometers *)
Lemma unravel_snoc es d k : Forall (fun d => 0 < d) es -> 0 < d ->
  unravel (es ++ [d]) k = unravel es (k / d) ++ [k mod d].
Proof.
  intros He Hd. rewrite unravel_app by (done || by repeat constructor).
  cbn [unravel]. rewrite prodZ_cons, prodZ_nil, Z.mul_1_r, Z.div_1_r. done.
Qed.

(** [R c] is the loop's representation of the counter value [c]. *)
Lemma odometer {A} (R : list Z -> A) es (body : Z -> A -> M (A * bool)) k E s :
  Forall (fun d => 0 < d) es ->
  (forall i d c x, es !! i = Some d -> in_box es c -> c !! i = Some x ->
     body (Z.of_nat i) (R c) E s
     = Done (if x + 1 <? d then (R (<[i := x + 1]> c), false)
             else (R (<[i := 0]> c), true)) s) ->
  iter_down_break (length es) body (R (unravel es k)) E s = Done (R (unravel es (k + 1))) s.
Proof.
  intros He. revert R k. induction es as [|d es IH] using rev_ind; intros R k Hb.
  - done.
  - apply Forall_app in He as [He Hd]. apply Forall_cons in Hd as [Hd _].
    rewrite !unravel_snoc by done. rewrite app_length, Nat.add_1_r. cbn [iter_down_break].
    pose proof (unravel_length es (k / d)) as Hl.
    pose proof (unravel_in_box es (k / d) He) as Hbox.
    assert (0 <= k mod d < d) as Hm by (apply Z.mod_pos_bound; lia).
    erewrite bind_done.
    2:{ apply (Hb (length es) d _ (k mod d)).
        - by rewrite lookup_app_r, Nat.sub_diag by lia.
        - apply Forall2_app; [done|]. constructor; [done|constructor].
        - rewrite lookup_app_r by lia. by rewrite Hl, Nat.sub_diag. }
    assert (forall y, <[length es := y]> (unravel es (k / d) ++ [k mod d])
                      = unravel es (k / d) ++ [y]) as Hi.
    { intros y. rewrite insert_app_r_alt by lia. by rewrite Hl, Nat.sub_diag. }
    rewrite !Hi. destruct (Z.ltb_spec (k mod d + 1) d) as [Hlt|Hge].
    + unfold ret. f_equal. f_equal. f_equal.
      * f_equal. apply Z.div_unique with (k mod d + 1); [lia|].
        pose proof (Z.div_mod k d ltac:(lia)). lia.
      * f_equal. apply Z.mod_unique with (k / d); [lia|].
        pose proof (Z.div_mod k d ltac:(lia)). lia.
    + assert ((k + 1) / d = k / d + 1 /\ (k + 1) mod d = 0) as [-> ->].
      { pose proof (Z.div_mod k d ltac:(lia)). split.
        - symmetry. apply Z.div_unique with 0; [lia|]. nia.
        - symmetry. apply Z.mod_unique with (k / d + 1); [lia|]. nia. }
      apply (IH He (fun c => R (c ++ [0]))).
      intros i d' c x Hi' Hc Hx. pose proof (lookup_lt_Some _ _ _ Hx) as Hic.
      erewrite Hb.
      * rewrite !insert_app_l by done. done.
      * by rewrite lookup_app_l by (by eapply lookup_lt_Some).
      * apply Forall2_app; [done|]. constructor; [lia|constructor].
      * by rewrite lookup_app_l.
Qed.

(** ** Filling loops that carry a state [g k] *)
Section wp_fill_acc.
Context {E : env} {tag lo : nat} {base : gmap nat block} {s : st} {p pd pm ps px : nat}
  {t : tcode} {dev : device} {dims : list Z} {S : Type}
  (n : nat) (f : nat -> val) (g : nat -> S) {hi : Z}
  {body : Z -> S -> M S} {B : Type} {x0 : S} {k0 : S -> M B} {Q : B -> st -> Prop}.
Let T s' vs := tnew tag lo base s' p pd pm ps px (dtype_of t) dev dims (cells t vs).
Let bodyok := forall k vs s', (k < n)%nat -> length vs = n -> T s' vs -> rpos s' = rpos s -> 
     body (Z.of_nat k) (g k) E s'
     = Done (g (Datatypes.S k)) (upd s' px (Blk tag (CData (cells t (<[k := f k]> vs))))).
Lemma wp_fill64_acc :
  T s (replicate n VU) -> x0 = g 0%nat -> hi = Z.of_nat n -> bodyok ->
  (forall s', T s' (f <$> seq 0 n) -> rpos s' = rpos s -> wp (k0 (g n)) E s' Q) ->
  wp (bind (for64 0 hi body x0) k0) E s Q.
Proof using Type.
  intros H1 -> -> H3 H4. apply wp_bind. eapply wp_mono.
  - apply (for64_rule (fun k x s' => x = g k /\ rpos s' = rpos s /\
      T s' ((f <$> seq 0 k) ++ replicate (n - k) VU)) _ _ _ n); [lia| |].
    + split_and!; [done|done|]. cbn. by rewrite Nat.sub_0_r.
    + intros k x s' Hk (-> & Hr & HT). rewrite Z.add_0_l.
      eapply wp_intro; [apply H3; [done| |exact HT|done]|].
      * apply fill_length. lia.
      * split_and!; [done|done|]. rewrite fill_step by done. by eapply tnew_upd.
  - intros x s' (-> & Hr & HT). rewrite Nat.sub_diag, app_nil_r in HT. by apply H4.
Qed.
Lemma wp_fill32_acc :
  T s (replicate n VU) -> x0 = g 0%nat -> hi = Z.of_nat n -> Z.of_nat n <= INT_MAX -> bodyok ->
  (forall s', T s' (f <$> seq 0 n) -> rpos s' = rpos s -> wp (k0 (g n)) E s' Q) ->
  wp (bind (for32 0 hi body x0) k0) E s Q.
Proof using Type.
  intros H1 -> -> Hn H3 H4. apply wp_bind. eapply wp_mono.
  - apply (for32_rule (fun k x s' => x = g k /\ rpos s' = rpos s /\
      T s' ((f <$> seq 0 k) ++ replicate (n - k) VU)) _ _ _ n); [lia|lia| |].
    + split_and!; [done|done|]. cbn. by rewrite Nat.sub_0_r.
    + intros k x s' Hk (-> & Hr & HT). rewrite Z.add_0_l.
      eapply wp_intro; [apply H3; [done| |exact HT|done]|].
      * apply fill_length. lia.
      * split_and!; [done|done|]. rewrite fill_step by done. by eapply tnew_upd.
  - intros x s' (-> & Hr & HT). rewrite Nat.sub_diag, app_nil_r in HT. by apply H4.
Qed.
End wp_fill_acc.

(** ** The linear index as a dot product with the suffix products *)
Definition suffs (dims : list Z) : list Z :=
  (fun k => prodZ (drop (S k) dims)) <$> seq 0 (length dims).
Lemma suffs_length dims : length (suffs dims) = length dims.
Proof. unfold suffs. by rewrite fmap_length, seq_length. Qed.
Lemma suffs_lookup dims k : (k < length dims)%nat ->
  suffs dims !! k = Some (prodZ (drop (S k) dims)).
Proof. intros Hk. unfold suffs. by rewrite list_lookup_fmap, lookup_seq_lt. Qed.
Lemma suffs_cons d dims : suffs (d :: dims) = prodZ dims :: suffs dims.
Proof.
  unfold suffs. cbn [length seq fmap list_fmap drop]. f_equal. rewrite <-fmap_S_seq.
  change (list_fmap nat Z) with (@fmap list _ nat Z). by rewrite <-list_fmap_compose.
Qed.

Lemma ravel_drop dims idx k d x : dims !! k = Some d -> idx !! k = Some x ->
  ravel (drop k dims) (drop k idx)
  = x * prodZ (drop (S k) dims) + ravel (drop (S k) dims) (drop (S k) idx).
Proof.
  intros Hd Hx. rewrite (drop_lookup dims k d Hd), (drop_lookup idx k x Hx). done.
Qed.

Lemma linear_loop dims idx offs n E s :
  in_box dims idx -> offs = suffs dims -> n = Z.of_nat (length dims) -> n <= INT_MAX ->
  prodZ dims <= INT64_MAX ->
  for32 0 n (fun i lin =>
    let* x := aget idx i in
    let* f := aget offs i in
    let* m := ck64 (x * f) in
    ck64 (lin + m)) 0 E s = Done (ravel dims idx) s.
Proof.
  intros Hb -> -> Hn Hp. pose proof (in_box_length _ _ Hb) as Hl.
  rewrite (for32_pure (fun k => ravel dims idx - ravel (drop k dims) (drop k idx)) _ _ _ (length dims)).
  - rewrite !drop_ge by lia. cbn. f_equal. lia.
  - rewrite !drop_0. lia.
  - lia.
  - lia.
  - intros k Hk. rewrite Z.add_0_l.
    destruct (lookup_lt_is_Some_2 dims k Hk) as [d Hd].
    destruct (lookup_lt_is_Some_2 idx k) as [x Hx]; [lia|].
    pose proof (ravel_drop _ _ _ _ _ Hd Hx) as Hr.
    pose proof (ravel_bound _ _ Hb) as H1.
    pose proof (ravel_bound _ _ (drop_box _ _ (S k) Hb)) as H2.
    pose proof (ravel_bound _ _ (drop_box _ _ k Hb)) as H3.
    assert (0 <= x) as Hx0.
    { pose proof (Forall2_lookup_lr _ _ _ _ _ _ Hb Hd Hx) as H. cbn in H. lia. }
    assert (ravel (drop k dims) (drop k idx) <= ravel dims idx) as Hle.
    { rewrite <-(take_drop k dims) at 2. rewrite <-(take_drop k idx) at 2.
      rewrite ravel_app by (rewrite !take_length; lia).
      pose proof (ravel_bound _ _ (take_box _ _ k Hb)).
      pose proof (in_box_pos _ _ (drop_box _ _ k Hb)) as Hpos. apply prodZ_pos in Hpos. nia. }
    assert (0 <= x * prodZ (drop (S k) dims)) as Hxp.
    { pose proof (in_box_pos _ _ (drop_box _ _ (S k) Hb)) as Hpos. apply prodZ_pos in Hpos. nia. }
    erewrite bind_done by (by apply aget_nat).
    erewrite bind_done by (apply aget_nat; by apply suffs_lookup).
    erewrite bind_done by (apply ck64_ok; llia).
    rewrite ck64_ok by llia. f_equal. lia.
Qed.

(** ** Tables *)
Lemma tab_length dims f : length (tab dims f) = Z.to_nat (prodZ dims).
Proof. unfold tab. by rewrite fmap_length, seq_length. Qed.
Lemma tab_valid t dev dims f : fits (tsz t) dims -> valid (AT t dev dims (tab dims f)).
Proof.
  intros Hf. split; [done|]. cbn. rewrite tab_length. pose proof (fits_nonneg _ _ Hf). lia.
Qed.
Lemma tab_lookup dims f k : (k < Z.to_nat (prodZ dims))%nat ->
  tab dims f !! k = Some (f (unravel dims (Z.of_nat k))).
Proof. intros H. unfold tab. by rewrite list_lookup_fmap, lookup_seq_lt. Qed.
(** A table holds [f c] at every coordinate [c] of the box. *)
Lemma at_tab t dev dims f c : in_box dims c -> at_ (AT t dev dims (tab dims f)) c = f c.
Proof.
  intros Hc. pose proof (ravel_bound _ _ Hc). unfold at_. cbn [a_vals a_dims].
  rewrite tab_lookup by lia. cbn. rewrite Z2Nat.id by lia. by rewrite unravel_ravel.
Qed.
Lemma at_lookup T k : valid T -> (k < length (a_vals T))%nat ->
  at_ T (unravel (a_dims T) (Z.of_nat k)) = default VU (a_vals T !! k).
Proof.
  intros HT Hk. pose proof (valid_len _ HT). unfold at_.
  rewrite ravel_unravel.
  - by rewrite Nat2Z.id.
  - apply prodZ_pos_inv; [apply HT|lia].
  - lia.
Qed.
Lemma tab_at T : valid T -> tab (a_dims T) (at_ T) = a_vals T.
Proof.
  intros HT. apply list_eq. intros k. pose proof (valid_len _ HT).
  destruct (decide (k < length (a_vals T))%nat) as [Hk|Hk].
  - rewrite tab_lookup by lia. rewrite at_lookup by done.
    destruct (lookup_lt_is_Some_2 _ _ Hk) as [x ->]. done.
  - rewrite !lookup_ge_None_2; [done|lia|rewrite tab_length; lia].
Qed.
Lemma tab_ext dims f g : (forall c, in_box dims c -> f c = g c) ->
  Forall (fun d => 0 <= d) dims -> tab dims f = tab dims g.
Proof.
  intros H Hd. unfold tab. apply list_fmap_ext. intros i k Hk.
  apply lookup_seq in Hk as [-> Hk]. apply H. apply unravel_in_box.
  apply prodZ_pos_inv; [done|]. lia.
Qed.
