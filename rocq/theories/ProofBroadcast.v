(** * ProofBroadcast: aitisa_broadcast_array *)
From stdpp Require Import gmap list.
From Coq Require Import ZArith Lia.
From Coq Require Import ZifyBool ZifyNat.
From Verif Require Import Base Mem Spec ModelCore ModelBasic Logic ProofCore.
Open Scope Z_scope.

Definition bok (a b : Z) : bool := (a =? 1) || (b =? 1) || (a =? b).
Definition zmax (a b : Z) : Z := if b <? a then a else b.

(** What the code computes, innermost extent first. *)
Fixpoint craw (l k : list Z) : option (list Z) :=
  match l, k with
  | [], _ => Some k
  | _, [] => Some l
  | a :: l, b :: k => if bok a b then (fun r => zmax a b :: r) <$> craw l k else None
  end.

Lemma craw_bcast l k : Forall (fun d => 0 < d) l -> Forall (fun d => 0 < d) k ->
  craw l k = bcast_rev l k.
Proof.
  revert k. induction l as [|a l IH]; intros [|b k] Hl Hk; try done.
  inversion_clear Hl. inversion_clear Hk. cbn [craw bcast_rev]. rewrite <-IH by done.
  unfold bok, bdim, zmax. destruct (Z.eqb_spec a b) as [->|Hab].
  - rewrite orb_true_r, Z.ltb_irrefl. by destruct (craw l k).
  - destruct (Z.eqb_spec a 1) as [->|]; [|destruct (Z.eqb_spec b 1) as [->|]]; cbn.
    + replace (b <? 1) with false by lia. by destruct (craw l k).
    + replace (1 <? a) with true by lia. by destruct (craw l k).
    + done.
Qed.

Lemma craw_length l k r : craw l k = Some r -> length r = Nat.max (length l) (length k).
Proof.
  revert k r. induction l as [|a l IH]; intros [|b k] r; cbn; try (intros [= <-]; done).
  destruct (bok a b); [|done]. intros (r' & Hr' & ->)%fmap_Some. cbn. f_equal. by apply IH.
Qed.

Lemma craw_split l k : (forall j a b, l !! j = Some a -> k !! j = Some b -> bok a b = true) ->
  craw l k = Some (zip_with zmax l k ++ drop (length k) l ++ drop (length l) k).
Proof.
  revert k. induction l as [|a l IH]; intros [|b k] H; try done.
  - cbn. by rewrite app_nil_r.
  - cbn [craw zip_with length drop app]. rewrite (H 0%nat a b) by done. rewrite IH; [done|].
    intros j. apply (H (S j)).
Qed.

Lemma craw_fail l k j a b : l !! j = Some a -> k !! j = Some b -> bok a b = false -> craw l k = None.
Proof.
  revert k j. induction l as [|a' l IH]; intros [|b' k] [|j] Hl Hk Hb; try done; cbn in *.
  - simplify_eq. by rewrite Hb.
  - rewrite (IH k j) by done. by destruct (bok a' b').
Qed.

(** The first incompatible pair, if any. *)
Lemma first_bad (l k : list Z) :
  (forall j a b, l !! j = Some a -> k !! j = Some b -> bok a b = true) \/
  (exists j a b, l !! j = Some a /\ k !! j = Some b /\ bok a b = false /\
     forall i a b, (i < j)%nat -> l !! i = Some a -> k !! i = Some b -> bok a b = true).
Proof.
  revert k. induction l as [|a l IH]; intros [|b k]; [by left|by left|left; intros ? ? ? ? ?; done|].
  destruct (bok a b) eqn:Hb.
  - destruct (IH k) as [H|(j & a' & b' & H1 & H2 & H3 & H4)].
    + left. intros [|j] a' b' Ha Hb'; cbn in *; [simplify_eq; done|by eapply H].
    + right. exists (S j), a', b'. split_and!; [done|done|done|].
      intros [|i] x y Hi Hx Hy; cbn in *; [simplify_eq; done|eapply H4; [|done|done]; lia].
  - right. exists 0%nat, a, b. split_and!; try done. lia.
Qed.

Lemma rev_lookup {A} (l : list A) (i : nat) : (i < length l)%nat ->
  rev l !! i = l !! (length l - S i)%nat.
Proof. intros. rewrite <-reverse_lookup by done. f_equal. unfold reverse. by rewrite rev_alt. Qed.

Lemma rev_insert {A} (l : list A) (i : nat) x : (i < length l)%nat ->
  <[(length l - S i)%nat := x]> l = rev (<[i := x]> (rev l)).
Proof.
  intros Hi. apply list_eq. intros j.
  destruct (decide (j < length l)%nat) as [Hj|Hj].
  - rewrite rev_lookup by (rewrite insert_length, rev_length; lia).
    rewrite insert_length, rev_length.
    destruct (decide (j = length l - S i)%nat) as [->|Hne].
    + rewrite list_lookup_insert by lia.
      replace (length l - S (length l - S i))%nat with i by lia.
      by rewrite list_lookup_insert by (rewrite rev_length; lia).
    + rewrite list_lookup_insert_ne by done.
      rewrite list_lookup_insert_ne by lia.
      rewrite rev_lookup by lia. f_equal. lia.
  - rewrite !lookup_ge_None_2; [done|rewrite rev_length, insert_length, rev_length; lia|
      rewrite insert_length; lia].
Qed.

(** Writing position [i] from the right when the [i] rightmost entries are [A]. *)
Lemma aset_right {T} (A R : list T) (i : nat) n x E s :
  length A = i -> (i < length R)%nat -> n = Z.of_nat (length R) ->
  aset (rev (A ++ drop i R)) (n - Z.of_nat i - 1) x E s = Done (rev ((A ++ [x]) ++ drop (S i) R)) s.
Proof.
  intros HA Hi ->.
  assert (length (A ++ drop i R) = length R) as Hl by (rewrite app_length, drop_length; lia).
  rewrite aset_Z by (rewrite rev_length, Hl; lia). f_equal.
  replace (Z.to_nat (Z.of_nat (length R) - Z.of_nat i - 1)) with (length R - S i)%nat by lia.
  rewrite <-Hl, <-(rev_length (A ++ drop i R)), rev_insert, rev_involutive
    by (rewrite rev_length; lia).
  f_equal. rewrite <-app_assoc. cbn.
  rewrite insert_app_r_alt, HA, Nat.sub_diag by lia. f_equal.
  destruct (lookup_lt_is_Some_2 R i Hi) as [y Hy]. by rewrite (drop_S R y i Hy).
Qed.

Lemma aget_right (l : list Z) (i : nat) n x E s : rev l !! i = Some x -> n = Z.of_nat (length l) ->
  aget l (n - Z.of_nat i - 1) E s = Done x s.
Proof.
  intros Hx ->. pose proof (lookup_lt_Some _ _ _ Hx) as Hi. rewrite rev_length in Hi.
  rewrite rev_lookup in Hx by done. apply aget_Z; [lia|].
  rewrite <-Hx. f_equal. lia.
Qed.

Lemma zip_with_take_S {A B C} (f : A -> B -> C) l k i a b :
  l !! i = Some a -> k !! i = Some b ->
  zip_with f (take (S i) l) (take (S i) k) = zip_with f (take i l) (take i k) ++ [f a b].
Proof.
  revert k i. induction l as [|x l IH]; intros [|y k] [|i] Hl Hk; try done; cbn in *.
  - simplify_eq. done.
  - f_equal. by apply IH.
Qed.

Lemma zip_with_take_min {A B C} (f : A -> B -> C) l k :
  zip_with f (take (Nat.min (length l) (length k)) l) (take (Nat.min (length l) (length k)) k)
  = zip_with f l k.
Proof.
  revert k. induction l as [|x l IH]; intros [|y k]; try done. cbn. f_equal. apply IH.
Qed.

Lemma broadcast_craw d1 d2 out E s :
  length out = Nat.max (length d1) (length d2) ->
  exists out', aitisa_broadcast_array d1 (Z.of_nat (length d1)) d2 (Z.of_nat (length d2)) out
      (Z.of_nat (length out)) E s
    = Done (match craw (rev d1) (rev d2) with
            | Some r => (SUCCESS, Some <$> rev r)
            | None => (DIMENSIONS_MISMATCH, out') end) s.
Proof.
  intros Hout. set (l := rev d1). set (k := rev d2). set (R := rev out).
  assert (length l = length d1) as Hl by apply rev_length.
  assert (length k = length d2) as Hk by apply rev_length.
  assert (length R = length out) as HR by apply rev_length.
  set (m := Nat.min (length l) (length k)).
  set (f := fun i => rev ((Some <$> zip_with zmax (take i l) (take i k)) ++ drop i R)).
  assert (f 0%nat = out) as Hf0 by apply rev_involutive.
  unfold aitisa_broadcast_array.
  replace (Z.to_nat (Z.min (Z.of_nat (length d1)) (Z.of_nat (length d2)))) with m by lia.
  assert (forall i, (i < m)%nat -> exists a b, l !! i = Some a /\ k !! i = Some b) as Hlk.
  { intros i Hi.
    destruct (lookup_lt_is_Some_2 l i ltac:(lia)) as [a Ha].
    destruct (lookup_lt_is_Some_2 k i ltac:(lia)) as [b Hb]. eauto. }
  assert (forall i a b, l !! i = Some a -> k !! i = Some b -> bok a b = true ->
    (let* a := aget d1 (Z.of_nat (length d1) - Z.of_nat i - 1) in
      let* b := aget d2 (Z.of_nat (length d2) - Z.of_nat i - 1) in
      if (a =? 1) || (b =? 1) || (a =? b)
      then let* out := aset (f i) (Z.of_nat (length out) - Z.of_nat i - 1) (Some (if b <? a then a else b)) in
           ret (Next out)
      else ret (Return (DIMENSIONS_MISMATCH, f i))) E s = Done (Next (f (S i))) s) as Hstep.
  { intros i a b Ha Hb Hok.
    pose proof (lookup_lt_Some _ _ _ Ha). pose proof (lookup_lt_Some _ _ _ Hb).
    erewrite bind_done by (by apply aget_right).
    erewrite bind_done by (by apply aget_right).
    fold (bok a b). rewrite Hok. unfold f at 1.
    erewrite bind_done.
    2:{ apply aset_right; [|lia|by rewrite HR].
        rewrite fmap_length, zip_with_length, !take_length. lia. }
    unfold ret. do 2 f_equal. unfold f. f_equal. f_equal.
    rewrite (zip_with_take_S _ _ _ _ a b) by done. by rewrite fmap_app. }
  destruct (first_bad l k) as [Hall|(j & a & b & Ha & Hb & Hbad & Hbefore)].
  - exists []. rewrite (craw_split _ _ Hall).
    erewrite bind_done.
    2:{ apply (iter_ret_pure f); [done|]. intros i Hi. rewrite Z.add_0_l.
        destruct (Hlk i Hi) as (a & b & Ha & Hb). apply Hstep with a b; [done|done|]. by eapply Hall. }
    cbv beta match.
    set (zs := zip_with zmax l k).
    assert (length zs = m) as Hzs by (apply zip_with_length).
    assert (f m = rev ((Some <$> zs) ++ drop m R)) as Hfm.
    { unfold f, m. by rewrite (zip_with_take_min zmax l k). }
    rewrite Hfm.
    set (g := fun t => rev ((Some <$> (zs ++ take t (drop m l))) ++ drop (m + t) R)).
    erewrite bind_done.
    2:{ apply (for64_pure g _ _ _ (length l - m)).
        - unfold g. rewrite take_0, app_nil_r, Nat.add_0_r. done.
        - lia.
        - intros t Ht. replace (Z.max 0 _ + Z.of_nat t) with (Z.of_nat (m + t)) by lia.
          destruct (lookup_lt_is_Some_2 l (m + t)%nat ltac:(lia)) as [a Ha].
          erewrite bind_done by (by apply aget_right).
          unfold g at 1. rewrite aset_right; [|rewrite fmap_length, app_length, take_length, drop_length; lia|lia|by rewrite HR].
          unfold g. f_equal. f_equal. rewrite <-Nat.add_succ_r. f_equal.
          rewrite (take_S_r (drop m l) t a) by (by rewrite lookup_drop).
          rewrite !fmap_app, <-!app_assoc. done. }
    set (g2 := fun t => rev ((Some <$> (zs ++ drop m l ++ take t (drop m k))) ++ drop (Nat.max m (length l) + t) R)).
    erewrite bind_done.
    2:{ apply (for64_pure g2 _ _ _ (length k - Nat.max m (length l))).
        - unfold g2, g. rewrite take_0, app_nil_r, Nat.add_0_r.
          rewrite (take_ge (drop m l)) by (rewrite drop_length; lia). do 2 f_equal. f_equal. lia.
        - lia.
        - intros t Ht. replace (Z.max (Z.max 0 _) _ + Z.of_nat t) with (Z.of_nat (Nat.max m (length l) + t)) by lia.
          assert (m = length l) as Hm by lia.
          destruct (lookup_lt_is_Some_2 k (Nat.max m (length l) + t)%nat ltac:(lia)) as [b Hb].
          erewrite bind_done by (by apply aget_right).
          unfold g2 at 1. rewrite aset_right; [|rewrite fmap_length, !app_length, take_length, !drop_length; lia|lia|by rewrite HR].
          unfold g2. f_equal. f_equal. rewrite <-Nat.add_succ_r. f_equal.
          rewrite (take_S_r (drop m k) t b) by (rewrite lookup_drop, <-Hb; f_equal; lia).
          rewrite !fmap_app, <-!app_assoc. done. }
    unfold ret. do 2 f_equal. unfold g2.
    rewrite (drop_ge R) by lia. rewrite app_nil_r.
    assert (forall {A B} (h : A -> B) (x : list A), rev (h <$> x) = h <$> rev x) as Hrf.
    { intros A B h x. symmetry. apply map_rev. }
    rewrite Hrf. do 2 f_equal. unfold zs. f_equal.
    destruct (Nat.le_gt_cases (length l) (length k)).
    + replace m with (length l) by lia. rewrite (drop_ge l) by lia. 
      rewrite (drop_ge l (length k)) by lia. cbn. rewrite take_ge by (rewrite drop_length; lia). done.
    + replace m with (length k) by lia. rewrite (drop_ge k (length k)) by lia. 
      rewrite (drop_ge k (length l)) by lia. by rewrite take_nil.
  - exists (f j). rewrite (craw_fail _ _ _ _ _ Ha Hb Hbad).
    pose proof (lookup_lt_Some _ _ _ Ha). pose proof (lookup_lt_Some _ _ _ Hb).
    erewrite bind_done.
    2:{ apply (iter_ret_exit f (DIMENSIONS_MISMATCH, f j) _ _ _ j); [done|lia| |].
        - intros i Hi. rewrite Z.add_0_l.
          destruct (Hlk i ltac:(lia)) as (a' & b' & Ha' & Hb'). apply Hstep with a' b'; [done|done|].
          by eapply Hbefore.
        - rewrite Z.add_0_l.
          erewrite bind_done by (by apply aget_right).
          erewrite bind_done by (by apply aget_right).
          fold (bok a b). by rewrite Hbad. }
    done.
Qed.

(** ** Laws of the specification *)
Lemma bdim_comm a b : bdim a b = bdim b a.
Proof.
  unfold bdim. rewrite (Z.eqb_sym b a). destruct (Z.eqb_spec a b) as [->|]; [done|].
  destruct (Z.eqb_spec a 1), (Z.eqb_spec b 1); subst; try done.
Qed.
Lemma bcast_rev_comm l k : bcast_rev l k = bcast_rev k l.
Proof.
  revert k. induction l as [|a l IH]; intros [|b k]; try done.
  cbn. by rewrite bdim_comm, IH.
Qed.
Lemma bcast_comm l k : bcast l k = bcast k l.
Proof. unfold bcast. by rewrite bcast_rev_comm. Qed.

Lemma bdim_assoc a b c :
  (bdim a b ≫= fun x => bdim x c) = (bdim b c ≫= fun y => bdim a y).
Proof.
  unfold bdim.
  destruct (Z.eqb_spec a b), (Z.eqb_spec a 1), (Z.eqb_spec b 1), (Z.eqb_spec b c),
    (Z.eqb_spec c 1), (Z.eqb_spec a c); cbn; try congruence;
  repeat match goal with
  | |- context [?x =? ?y] => destruct (Z.eqb_spec x y); cbn
  end; try congruence; lia.
Qed.
Lemma bcast_rev_assoc a b c :
  (bcast_rev a b ≫= fun x => bcast_rev x c) = (bcast_rev b c ≫= fun y => bcast_rev a y).
Proof.
  revert b c. induction a as [|x a IH]; intros [|y b] [|z c]; cbn [bcast_rev mbind option_bind]; try done.
  - by destruct (bdim y z), (bcast_rev b c).
  - by destruct (bdim x y), (bcast_rev a b).
  - pose proof (bdim_assoc x y z) as Hd. specialize (IH b c).
    destruct (bdim x y) as [u|], (bcast_rev a b) as [r|], (bdim y z) as [v|], (bcast_rev b c) as [q|];
      cbn in *; try done; try (rewrite <-?Hd, <-?IH); try done;
      repeat match goal with
      | H : _ = None |- _ => rewrite H
      | H : None = _ |- _ => rewrite <-H
      | |- context [match ?x with _ => _ end] => destruct x
      end; done.
Qed.
Lemma bcast_assoc a b c :
  (bcast a b ≫= fun x => bcast x c) = (bcast b c ≫= fun y => bcast a y).
Proof.
  unfold bcast. pose proof (bcast_rev_assoc (rev a) (rev b) (rev c)) as H.
  destruct (bcast_rev (rev a) (rev b)) as [x|], (bcast_rev (rev b) (rev c)) as [y|];
    cbn in *; rewrite ?rev_involutive; rewrite ?H; try done.
  - by rewrite <-H.
Qed.
Lemma bcast_refl a : bcast a a = Some a.
Proof.
  assert (forall l, bcast_rev l l = Some l) as H.
  { induction l as [|x l IH]; [done|]. cbn. unfold bdim. by rewrite Z.eqb_refl, IH. }
  unfold bcast. by rewrite H, rev_involutive.
Qed.
