(** * ProofProduct: matrix products on every pair of operands of ranks 1 and 2 *)
From stdpp Require Import gmap list.
From Coq Require Import ZArith Lia Floats.SpecFloat.
From Coq Require Import ZifyBool ZifyNat.
From Verif Require Import Base Mem Spec SpecProduct SpecReal ModelCore ModelBasic ModelMath Logic ProofCore ProofCore2 ProofCore3
  ProofKernel ProofBasic ProofIndex ProofKernel2 ProofSlice ProofFrame ProofFloat2 ProofCast ProofSqrt ProofMatmul
  ProofExact ProofDot.
Open Scope Z_scope.

Ltac Zify.zify_post_hook ::= Z.div_mod_to_equations.

(** ** Loops in which some round is undefined *)
Definition some_bad (bad : nat -> bool) (n : nat) : bool := existsb bad (seq 0 n) || (INT_MAX <? Z.of_nat n).
Lemma some_bad_true bad n : some_bad bad n = true <-> (exists k, (k < n)%nat /\ bad k = true) \/ INT_MAX < Z.of_nat n.
Proof.
  unfold some_bad. rewrite orb_true_iff, existsb_exists. split.
  - intros [(k & Hk & Hb)|H]; [left|right; lia]. apply in_seq in Hk. exists k. split; [lia|done].
  - intros [(k & Hk & Hb)|H]; [left|right; lia]. exists k. split; [apply in_seq; lia|done].
Qed.
Lemma some_bad_false bad n : some_bad bad n = false -> (forall k, (k < n)%nat -> bad k = false) /\ Z.of_nat n <= INT_MAX.
Proof.
  intros H. split.
  - intros k Hk. destruct (bad k) eqn:Hb; [|done]. assert (some_bad bad n = true); [|congruence].
    apply some_bad_true. eauto.
  - destruct (decide (Z.of_nat n <= INT_MAX)); [done|]. assert (some_bad bad n = true); [|congruence].
    apply some_bad_true. right. lia.
Qed.

Lemma for32_all (I : nat -> st -> Prop) (bad : nat -> bool) n hi body E s :
  hi = Z.of_nat n -> I O s ->
  (forall k s', (k < n)%nat -> I k s' ->
     if bad k then body (Z.of_nat k) tt E s' = UB UB_overflow else wp (body (Z.of_nat k) tt) E s' (fun _ s'' => I (S k) s'')) ->
  if some_bad bad n then for32 0 hi body tt E s = UB UB_overflow else wp (for32 0 hi body tt) E s (fun _ s' => I n s').
Proof.
  intros -> H0 Hb. unfold for32. rewrite Z.sub_0_r, Nat2Z.id. assert (0 <= INT_MAX) as Himax by done.
  destruct (some_bad bad n) eqn:Hs.
  - apply some_bad_true in Hs.
    destruct (first_index (fun k => bad k || (Z.of_nat k =? INT_MAX)) n) as [Hno|(j & Hj & Hbj & Hbefore)].
    { exfalso. destruct Hs as [(k & Hk & Hbk)|Hbig].
      - specialize (Hno k Hk). rewrite Hbk in Hno. done.
      - specialize (Hno (Z.to_nat INT_MAX) ltac:(lia)). lia. }
    apply (iter_ub (fun k (_ : unit) s' => I k s') _ _ _ _ _ _ j); [done|done| |].
    + intros k [] s' Hk HI. pose proof Hbefore as Hbefore0. specialize (Hbefore k Hk). apply orb_false_iff in Hbefore as [Hbk Hnk].
      assert (Z.of_nat k < INT_MAX) as Hlt.
      { destruct (decide (Z.of_nat k < INT_MAX)); [done|]. exfalso.
        specialize (Hbefore0 (Z.to_nat INT_MAX) ltac:(lia)). lia. }
      rewrite Z.add_0_l. apply wp_bind. specialize (Hb k s' ltac:(lia) HI). rewrite Hbk in Hb.
      eapply wp_mono; [exact Hb|]. intros [] s'' HI'. apply wp_check; [lia|]. by apply wp_ret.
    + intros [] s' HI. rewrite Z.add_0_l. specialize (Hb j s' Hj HI). destruct (bad j).
      * by apply bind_UB.
      * apply wp_elim in Hb as ([] & s'' & Hd & _). erewrite bind_done by exact Hd.
        cbn [orb] in Hbj. apply Z.eqb_eq in Hbj. rewrite Hbj, Z.ltb_irrefl. done.
  - apply some_bad_false in Hs as [Hs Hn].
    apply (iter_rule (fun k (_ : unit) s' => I k s')); [done|].
    intros k [] s' Hk HI. rewrite Z.add_0_l. apply wp_bind. specialize (Hb k s' Hk HI). rewrite Hs in Hb by done.
    eapply wp_mono; [exact Hb|]. intros [] s'' HI'. apply wp_check; [lia|]. by apply wp_ret.
Qed.

Definition none {A} (o : option A) : bool := match o with Some _ => false | None => true end.
Lemma psum_none t f g k : existsb (fun q => none (psum t f g (S q))) (seq 0 k) = none (psum t f g k).
Proof.
  destruct (psum t f g k) as [w|] eqn:Hw; cbn [none].
  - destruct (existsb _ _) eqn:Hx; [|done]. apply existsb_exists in Hx as (q & Hq & Hn). apply in_seq in Hq.
    destruct (psum_le _ _ _ _ _ Hw (S q) ltac:(lia)) as [v Hv]. by rewrite Hv in Hn.
  - apply existsb_exists. destruct k as [|k]; [done|]. exists k. split; [apply in_seq; lia|]. by rewrite Hw.
Qed.
Lemma lin_inj n i j i' j' : (j < n)%nat -> (j' < n)%nat -> (i * n + j = i' * n + j')%nat -> i = i' /\ j = j'.
Proof.
  intros Hj Hj' H. assert (n <> 0)%nat as Hn by lia.
  destruct (Nat.div_mod_unique n i i' j j' Hj Hj') as [-> ->]; [lia|done].
Qed.

Lemma psum_ext t f g f' g' k : (forall q, f q = f' q) -> (forall q, g q = g' q) -> psum t f g k = psum t f' g' k.
Proof. intros Hf Hg. induction k as [|k IH]; [done|]. rewrite !psum_S, IH, Hf, Hg. done. Qed.

Section cells.
Context (t : tcode).
(** [x] cells of the matrix at [c0] computed *)
Definition upto (vs vs' : list val) (c0 m n x : nat) (F : nat -> nat -> option val) : Prop :=
  length vs' = length vs /\ (forall c, (c < c0)%nat -> vs' !! c = vs !! c) /\
  (forall i j, (i < m)%nat -> (j < n)%nat -> (i * n + j < x)%nat -> vs' !! (c0 + i * n + j)%nat = F i j) /\
  (forall c, (c0 + x <= c)%nat -> (c < length vs)%nat -> vs' !! c = Some (zero_val t)).
Lemma upto_step vs vs' c0 m n x F i j w : upto vs vs' c0 m n x F -> x = (i * n + j)%nat -> (j < n)%nat ->
  (c0 + x < length vs)%nat -> F i j = Some w -> upto vs (<[(c0 + i * n + j)%nat := w]> vs') c0 m n (S x) F.
Proof using Type.
  intros (H1 & H2 & H3 & H4) -> Hj Hx Hw. split_and!.
  - by rewrite insert_length.
  - intros c Hc. rewrite list_lookup_insert_ne by lia. by apply H2.
  - intros i' j' Hi' Hj' Hl. destruct (decide (i' * n + j' = i * n + j)%nat) as [Heq|Hne].
    + destruct (lin_inj n i' j' i j Hj' Hj Heq) as [-> ->]. rewrite Hw. apply list_lookup_insert. lia.
    + rewrite list_lookup_insert_ne by lia. apply H3; lia.
  - intros c Hc1 Hc2. rewrite list_lookup_insert_ne by lia. apply H4; lia.
Qed.

Definition cell_bad (f g : nat -> nat -> Z -> val) (k i j : nat) : bool :=
  none (psum t (f i j) (g i j) k) || (INT_MAX <? Z.of_nat k).
Definition all_bad (f g : nat -> nat -> Z -> val) (m k n : nat) : bool :=
  some_bad (fun i => some_bad (cell_bad f g k i) n) m.

Lemma all_bad_false f g m k n : all_bad f g m k n = false <->
  Z.of_nat m <= INT_MAX /\ ((0 < m)%nat -> Z.of_nat n <= INT_MAX) /\
  forall i j, (i < m)%nat -> (j < n)%nat -> Z.of_nat k <= INT_MAX /\ is_Some (psum t (f i j) (g i j) k).
Proof using Type.
  split.
  - intros H. apply some_bad_false in H as [H Hm]. split_and!; [done| |].
    + intros H0. specialize (H 0%nat H0). by apply some_bad_false in H as [_ ?].
    + intros i j Hi Hj. specialize (H i Hi). apply some_bad_false in H as [H _]. specialize (H j Hj).
      unfold cell_bad in H. apply orb_false_iff in H as [H1 H2]. split; [lia|].
      destruct (psum _ _ _ _); [eauto|done].
  - intros (Hm & Hn & Hc). unfold all_bad. destruct (some_bad _ m) eqn:H; [|done]. exfalso.
    apply some_bad_true in H as [(i & Hi & H)|?]; [|lia].
    apply some_bad_true in H as [(j & Hj & H)|?]; [|lia].
    destruct (Hc i j Hi Hj) as [H1 [w H2]]. unfold cell_bad in H. rewrite H2 in H. cbn [none orb] in H. lia.
Qed.
End cells.

Section prod.
Context {E : env} {tag lo : nat} {base : gmap nat block} {p pd pm ps px : nat}
  {t : tcode} {dev : device} {dims : list Z}.
Let T s' vs := tnew tag lo base s' p pd pm ps px (dtype_of t) dev dims (cells t vs).
Context {bA tgA bB tgB : nat} {vA vB : list val} {exA exB : list mv}.
Context (HA : base !! bA = Some (Blk tgA (CData (cells t vA ++ exA))))
        (HB : base !! bB = Some (Blk tgB (CData (cells t vB ++ exB)))).

Lemma mac_stuck s vs (ia ib c : nat) a b v oa ai ob bi oc ci :
  T s vs -> vA !! ia = Some a -> vB !! ib = Some b -> vs !! c = Some v -> mac_val t v a b = None ->
  oa + ai * Z.of_nat (tsz t) = Z.of_nat ia * Z.of_nat (tsz t) ->
  ob + bi * Z.of_nat (tsz t) = Z.of_nat ib * Z.of_nat (tsz t) ->
  oc + ci * Z.of_nat (tsz t) = Z.of_nat c * Z.of_nat (tsz t) ->
  mac t (HPtr bA) oa ai (HPtr bB) ob bi (HPtr px) oc ci E s = UB UB_overflow.
Proof using HA HB.
  intros HT Ha Hb Hc Hw Hia Hib Hic. unfold mac. cbv zeta.
  erewrite bind_done.
  2:{ rewrite Hic. change (load ?p t _) with (loadi p t (Z.of_nat c)). by eapply tnew_loadi. }
  erewrite bind_done by (eapply load_cells; [eapply tnew_lookup; [exact HT|exact HA]|exact Ha|exact Hia]).
  erewrite bind_done by (eapply load_cells; [eapply tnew_lookup; [exact HT|exact HB]|exact Hb|exact Hib]).
  apply bind_UB. rewrite Hw. done.
Qed.

Lemma acc_all s r vs (c k : nat) hi f g oa ob oc (ai bi : Z -> Z) ci (ia ib : nat -> nat) :
  T s vs -> rpos s = r -> hi = Z.of_nat k -> vs !! c = Some (zero_val t) ->
  (forall q, (q < k)%nat -> vA !! ia q = Some (f (Z.of_nat q))) ->
  (forall q, (q < k)%nat -> vB !! ib q = Some (g (Z.of_nat q))) ->
  (forall q, (q < k)%nat -> oa + ai (Z.of_nat q) * Z.of_nat (tsz t) = Z.of_nat (ia q) * Z.of_nat (tsz t)) ->
  (forall q, (q < k)%nat -> ob + bi (Z.of_nat q) * Z.of_nat (tsz t) = Z.of_nat (ib q) * Z.of_nat (tsz t)) ->
  oc + ci * Z.of_nat (tsz t) = Z.of_nat c * Z.of_nat (tsz t) ->
  if none (psum t f g k) || (INT_MAX <? Z.of_nat k)
  then for32 0 hi (fun q _ => mac t (HPtr bA) oa (ai q) (HPtr bB) ob (bi q) (HPtr px) oc ci) tt E s = UB UB_overflow
  else wp (for32 0 hi (fun q _ => mac t (HPtr bA) oa (ai q) (HPtr bB) ob (bi q) (HPtr px) oc ci) tt) E s
     (fun _ s' => exists w, psum t f g k = Some w /\ T s' (<[c := w]> vs) /\ rpos s' = r).
Proof using HA HB.
  intros HT Hr Hhi Hc Hf Hg Hai Hbi Hci. rewrite <-psum_none.
  apply (for32_all (fun q s' => exists w, psum t f g q = Some w /\ T s' (<[c := w]> vs) /\ rpos s' = r)
    (fun q => none (psum t f g (S q)))); [done| |].
  - exists (zero_val t). split_and!; [done| |done]. by rewrite list_insert_id.
  - intros q s' Hq (v & Hv & HT' & Hr').
    assert (c < length vs)%nat as Hcl by (by eapply lookup_lt_Some).
    assert (<[c := v]> vs !! c = Some v) as Hcv by (by apply list_lookup_insert).
    destruct (psum t f g (S q)) as [w|] eqn:Hw; cbn [none]; rewrite psum_S, Hv in Hw; cbn in Hw.
    + eapply wp_intro.
      * eapply mac_ok; [exact HA|exact HB|exact HT'|by apply Hf|by apply Hg|exact Hcv|exact Hw|by apply Hai|by apply Hbi|exact Hci].
      * exists w. split_and!; [done| |done].
        replace (<[c := w]> vs) with (<[c := w]> (<[c := v]> vs)) by apply list_insert_insert.
        eapply tnew_upd. exact HT'.
    + eapply mac_stuck; [exact HT'|by apply Hf|by apply Hg|exact Hcv|exact Hw|by apply Hai|by apply Hbi|exact Hci].
Qed.

Lemma mm_all s r vs (a0 b0 c0 m k n : nat) oa ob oc (f g : nat -> nat -> Z -> val) :
  T s vs -> rpos s = r -> (forall c, (c0 <= c)%nat -> (c < length vs)%nat -> vs !! c = Some (zero_val t)) ->
  (c0 + m * n <= length vs)%nat ->
  oa = Z.of_nat a0 * Z.of_nat (tsz t) -> ob = Z.of_nat b0 * Z.of_nat (tsz t) ->
  oc = Z.of_nat c0 * Z.of_nat (tsz t) ->
  (forall i j q, (i < m)%nat -> (j < n)%nat -> (q < k)%nat ->
     vA !! (a0 + i * k + q)%nat = Some (f i j (Z.of_nat q)) /\
     vB !! (b0 + q * n + j)%nat = Some (g i j (Z.of_nat q))) ->
  if all_bad t f g m k n
  then mm_kernel t (HPtr bA) oa (HPtr bB) ob (HPtr px) oc (Z.of_nat m) (Z.of_nat k) (Z.of_nat n) E s = UB UB_overflow
  else wp (mm_kernel t (HPtr bA) oa (HPtr bB) ob (HPtr px) oc (Z.of_nat m) (Z.of_nat k) (Z.of_nat n)) E s
     (fun _ s' => exists vs', T s' vs' /\ rpos s' = r /\ upto t vs vs' c0 m n (m * n) (fun i j => psum t (f i j) (g i j) k)).
Proof using HA HB.
  intros HT Hr Hz Hlen -> -> -> Hops. unfold mm_kernel.
  set (F := fun i j => psum t (f i j) (g i j) k).
  apply (for32_all (fun i s' => exists vs', T s' vs' /\ rpos s' = r /\ upto t vs vs' c0 m n (i * n) F)); [done| |].
  { exists vs. split_and!; [done|done|]. split_and!; [done|done| |].
    - intros i j _ _ Hl. lia.
    - intros c Hc1 Hc2. apply Hz; lia. }
  intros i s1 Hi (vs1 & HT1 & Hr1 & Hu1).
  pose proof (for32_all (fun j s' => exists vs', T s' vs' /\ rpos s' = r /\ upto t vs vs' c0 m n (i * n + j) F)
    (cell_bad t f g k i) n (Z.of_nat n) (fun j (_ : unit) =>
      for32 0 (Z.of_nat k) (fun q (_ : unit) =>
        mac t (HPtr bA) (Z.of_nat a0 * Z.of_nat (tsz t)) (Z.of_nat i * Z.of_nat k + q) (HPtr bB) (Z.of_nat b0 * Z.of_nat (tsz t))
          (q * Z.of_nat n + j) (HPtr px) (Z.of_nat c0 * Z.of_nat (tsz t)) (Z.of_nat i * Z.of_nat n + j)) tt) E s1 eq_refl) as Hrow.
  specialize (Hrow ltac:(exists vs1; rewrite Nat.add_0_r; done)).
  assert (forall j s', (j < n)%nat -> (exists vs', T s' vs' /\ rpos s' = r /\ upto t vs vs' c0 m n (i * n + j) F) ->
    if cell_bad t f g k i j
    then for32 0 (Z.of_nat k) (fun q (_ : unit) =>
        mac t (HPtr bA) (Z.of_nat a0 * Z.of_nat (tsz t)) (Z.of_nat i * Z.of_nat k + q) (HPtr bB) (Z.of_nat b0 * Z.of_nat (tsz t))
          (q * Z.of_nat n + Z.of_nat j) (HPtr px) (Z.of_nat c0 * Z.of_nat (tsz t)) (Z.of_nat i * Z.of_nat n + Z.of_nat j)) tt E s' = UB UB_overflow
    else wp (for32 0 (Z.of_nat k) (fun q (_ : unit) =>
        mac t (HPtr bA) (Z.of_nat a0 * Z.of_nat (tsz t)) (Z.of_nat i * Z.of_nat k + q) (HPtr bB) (Z.of_nat b0 * Z.of_nat (tsz t))
          (q * Z.of_nat n + Z.of_nat j) (HPtr px) (Z.of_nat c0 * Z.of_nat (tsz t)) (Z.of_nat i * Z.of_nat n + Z.of_nat j)) tt) E s'
      (fun _ s'' => exists vs', T s'' vs' /\ rpos s'' = r /\ upto t vs vs' c0 m n (i * n + S j) F)) as Hcell.
  { intros j s' Hj (vs2 & HT2 & Hr2 & Hu2).
    assert (i * n + j < m * n)%nat as Hc by nia.
    pose proof (acc_all s' r vs2 (c0 + i * n + j) k (Z.of_nat k) (f i j) (g i j) (Z.of_nat a0 * Z.of_nat (tsz t))
      (Z.of_nat b0 * Z.of_nat (tsz t)) (Z.of_nat c0 * Z.of_nat (tsz t)) (fun q => Z.of_nat i * Z.of_nat k + q)
      (fun q => q * Z.of_nat n + Z.of_nat j) (Z.of_nat i * Z.of_nat n + Z.of_nat j)
      (fun q => (a0 + i * k + q)%nat) (fun q => (b0 + q * n + j)%nat) HT2 Hr2 eq_refl) as Ha.
    specialize (Ha ltac:(apply Hu2; destruct Hu2; lia)).
    specialize (Ha ltac:(intros q Hq; by apply Hops) ltac:(intros q Hq; by apply Hops)).
    specialize (Ha ltac:(intros q Hq; cbv beta; nia) ltac:(intros q Hq; cbv beta; nia) ltac:(nia)).
    unfold cell_bad. destruct (none _ || _); [exact Ha|]. eapply wp_mono; [exact Ha|].
    intros [] s3 (w & Hw & HT3 & Hr3). exists (<[(c0 + i * n + j)%nat := w]> vs2). split_and!; [done|done|].
    rewrite Nat.add_succ_r. eapply upto_step; [exact Hu2|done|done|lia|exact Hw]. }
  specialize (Hrow Hcell). destruct (some_bad (cell_bad t f g k i) n); [exact Hrow|].
  eapply wp_mono; [exact Hrow|]. intros [] s2 (vs2 & HT2 & Hr2 & Hu2). exists vs2.
  replace (S i * n)%nat with (i * n + n)%nat by lia. done.
Qed.

Lemma mv_all s r vs (m k : nat) (f g : nat -> nat -> Z -> val) :
  T s vs -> rpos s = r -> (forall c, (c < length vs)%nat -> vs !! c = Some (zero_val t)) ->
  (m <= length vs)%nat ->
  (forall i q, (i < m)%nat -> (q < k)%nat ->
     vA !! (i * k + q)%nat = Some (f i 0%nat (Z.of_nat q)) /\ vB !! q = Some (g i 0%nat (Z.of_nat q))) ->
  if all_bad t f g m k 1
  then mv_kernel t (HPtr bA) (HPtr bB) (HPtr px) (Z.of_nat m) (Z.of_nat k) E s = UB UB_overflow
  else wp (mv_kernel t (HPtr bA) (HPtr bB) (HPtr px) (Z.of_nat m) (Z.of_nat k)) E s
     (fun _ s' => exists vs', T s' vs' /\ rpos s' = r /\ upto t vs vs' 0 m 1 (m * 1) (fun i j => psum t (f i j) (g i j) k)).
Proof using HA HB.
  intros HT Hr Hz Hlen Hops. unfold mv_kernel.
  set (F := fun i j => psum t (f i j) (g i j) k).
  apply (for32_all (fun i s' => exists vs', T s' vs' /\ rpos s' = r /\ upto t vs vs' 0 m 1 (i * 1) F)); [done| |].
  { exists vs. split_and!; [done|done|]. split_and!; [done|done| |].
    - intros i j _ _ Hl. lia.
    - intros c Hc1 Hc2. by apply Hz. }
  intros i s1 Hi (vs1 & HT1 & Hr1 & Hu1).
  assert (some_bad (cell_bad t f g k i) 1 = cell_bad t f g k i 0) as ->.
  { unfold some_bad. cbn [seq existsb]. by rewrite !orb_false_r. }
  pose proof (acc_all s1 r vs1 i k (Z.of_nat k) (f i 0%nat) (g i 0%nat) 0 0 0 (fun q => Z.of_nat i * Z.of_nat k + q)
      (fun q => q) (Z.of_nat i) (fun q => (i * k + q)%nat) (fun q => q) HT1 Hr1 eq_refl) as Ha.
  specialize (Ha ltac:(apply Hu1; destruct Hu1; lia)).
  specialize (Ha ltac:(intros q Hq; by apply Hops) ltac:(intros q Hq; by apply Hops)).
  specialize (Ha ltac:(intros q Hq; cbv beta; nia) ltac:(intros q Hq; cbv beta; nia) ltac:(nia)).
  unfold cell_bad. destruct (none _ || _); [exact Ha|]. eapply wp_mono; [exact Ha|].
  intros [] s3 (w & Hw & HT3 & Hr3). exists (<[(0 + i * 1 + 0)%nat := w]> vs1).
  replace (<[i := w]> vs1) with (<[(0 + i * 1 + 0)%nat := w]> vs1) in HT3 by (f_equal; lia).
  split_and!; [done|done|].
  replace (S i * 1)%nat with (S (i * 1)) by lia.
  eapply upto_step; [exact Hu1|lia|lia|lia|exact Hw].
Qed.

End prod.

Lemma all_bad_ok t f g (m k n : Z) A B : 0 <= m -> 0 <= k -> 0 <= n ->
  (forall i j, (i < Z.to_nat m)%nat -> (j < Z.to_nat n)%nat ->
     (forall q, f i j q = A (Z.of_nat i) q) /\ (forall q, g i j q = B q (Z.of_nat j))) ->
  m * n <= INT_MAX -> all_bad t f g (Z.to_nat m) (Z.to_nat k) (Z.to_nat n) = false <-> product_ok t m k n A B.
Proof.
  intros Hm Hk Hn Hfg Hmn. rewrite all_bad_false. unfold product_ok.
  assert (forall i j, 0 <= i < m -> 0 <= j < n ->
    inner t k (fun q => A i q) (fun q => B q j) = psum t (f (Z.to_nat i) (Z.to_nat j)) (g (Z.to_nat i) (Z.to_nat j)) (Z.to_nat k)) as Hps.
  { intros i j Hi Hj. rewrite inner_psum. destruct (Hfg (Z.to_nat i) (Z.to_nat j)) as [Hf Hg]; [lia|lia|].
    rewrite Z2Nat.id in Hf, Hg by lia. by apply psum_ext. }
  split.
  - intros (H1 & H2 & H3). split_and!; [lia|done| |].
    + intros Hpos. assert (0 < m /\ 0 < n) as [] by nia. destruct (H3 0%nat 0%nat) as [Hk1 _]; lia.
    + intros i j Hi Hj. rewrite Hps by done. apply H3; lia.
  - intros (H1 & H2 & H3 & H4). split_and!; [lia|nia|]. intros i j Hi Hj. split.
    + assert (0 < m * n) by nia. lia.
    + specialize (H4 (Z.of_nat i) (Z.of_nat j) ltac:(lia) ltac:(lia)). rewrite Hps in H4 by lia.
      by rewrite !Nat2Z.id in H4.
Qed.

(** ** Ranks 1 and 2 *)
Lemma zeros_done p1 T1 dims nd o E s :
  wf s -> alloc_all E -> holds (heap s) p1 T1 -> fits (tsz (a_type T1)) dims -> prodZ dims <= INT_MAX ->
  nd = Z.of_nat (length dims) ->
  exists s' q pd pm ps px, zeros_like (HPtr p1) dims nd o E s = Done (SUCCESS, HPtr q) s' /\
     tnew (e_alloc E) (ctr s) (heap s) s' q pd pm ps px (dtype_of (a_type T1)) (a_dev T1) dims
       (cells (a_type T1) (replicate (Z.to_nat (prodZ dims)) (zero_val (a_type T1)))) /\
     rpos s' = rpos s.
Proof.
  intros Hwf HA H1 Hfit Hmax Hnd.
  assert (wp (zeros_like (HPtr p1) dims nd o) E s (fun r s' => exists q pd pm ps px, r = (SUCCESS, HPtr q) /\
     tnew (e_alloc E) (ctr s) (heap s) s' q pd pm ps px (dtype_of (a_type T1)) (a_dev T1) dims
       (cells (a_type T1) (replicate (Z.to_nat (prodZ dims)) (zero_val (a_type T1)))) /\
     rpos s' = rpos s)) as Hw.
  { eapply zeros_rule; [done|exact H1|done|done|done| |].
    - intros s' q pd pm ps px Ht Hr. exists q, pd, pm, ps, px. done.
    - intros s' Hn. by destruct Hn. }
  apply wp_elim in Hw as (r & s' & Hd & q & pd & pm & ps & px & -> & Ht & Hr).
  exists s', q, pd, pm, ps, px. done.
Qed.
Lemma zeros_big p1 T1 dims nd o E s :
  wf s -> alloc_all E -> holds (heap s) p1 T1 -> fits (tsz (a_type T1)) dims -> INT_MAX < prodZ dims ->
  nd = Z.of_nat (length dims) -> zeros_like (HPtr p1) dims nd o E s = UB UB_overflow.
Proof.
  intros Hwf HA (HvT & bx & tg & ex & Hv & Hx) Hfit Hbig ->. unfold zeros_like.
  erewrite bind_done by (by eapply tensor_dtype_ok).
  erewrite bind_done by (by eapply tensor_device_ok).
  eapply full_too_big; [done|done|done|apply of_double_zero|done].
Qed.

(** The values of a finished matrix *)
Lemma upto_full t (dims : list Z) z vs' m n F : (0 <= m)%Z -> (0 <= n)%Z -> prodZ dims = m * n ->
  upto t (replicate (Z.to_nat (prodZ dims)) z) vs' 0 (Z.to_nat m) (Z.to_nat n) (Z.to_nat m * Z.to_nat n) F ->
  Z.of_nat (length vs') = prodZ dims /\
  forall i j, 0 <= i < m -> 0 <= j < n -> vs' !! Z.to_nat (i * n + j) = F (Z.to_nat i) (Z.to_nat j).
Proof.
  intros Hm Hn Hp (H1 & _ & H3 & _). rewrite replicate_length in H1. split; [nia|].
  intros i j Hi Hj. rewrite <-H3 by nia. f_equal. nia.
Qed.

Section rank12.
Context (p1 p2 : nat) (T1 T2 : atensor) (o : hval) (E : env) (s : st).
Context (Hwf : wf s) (HA : alloc_all E) (H1 : holds (heap s) p1 T1) (H2 : holds (heap s) p2 T2)
  (Hty : a_type T2 = a_type T1)
  (Hc1 : dev_type (a_dev T1) = 0) (Hc2 : dev_type (a_dev T2) = 0).
Let t := a_type T1.

(** What follows the creation of the zeroed result *)
Let rest (template : dtype -> hval -> hval -> hval -> M status) (r : status * hval) : M (status * hval) :=
  let '(s, o) := r in
  if negb (bool_decide (s = SUCCESS)) then ret (s, o)
  else
    let* dt := tensor_dtype (HPtr p1) in
    let* x := tensor_data (HPtr p1) in
    let* y := tensor_data (HPtr p2) in
    let* z := tensor_data o in
    let* s := template dt x y z in
    ret (s, o).

Lemma rest_all (dims : list Z) nd (template : dtype -> hval -> hval -> hval -> M status)
    (kernel : hval -> hval -> hval -> M unit) (m k n : Z) (A B : Z -> Z -> val) (f g : nat -> nat -> Z -> val) :
  fits (tsz t) dims -> nd = Z.of_nat (length dims) -> prodZ dims = m * n -> 0 <= m -> 0 <= k -> 0 <= n ->
  (forall x y z, template (dtype_of t) x y z = (kernel x y z ;;; ret SUCCESS)) ->
  (forall i j, (i < Z.to_nat m)%nat -> (j < Z.to_nat n)%nat ->
     (forall q, f i j q = A (Z.of_nat i) q) /\ (forall q, g i j q = B q (Z.of_nat j))) ->
  (forall tag lo q pd pm ps px b1 tg1 ex1 b2 tg2 ex2 s',
     heap s !! b1 = Some (Blk tg1 (CData (cells t (a_vals T1) ++ ex1))) ->
     heap s !! b2 = Some (Blk tg2 (CData (cells t (a_vals T2) ++ ex2))) ->
     let vs := replicate (Z.to_nat (prodZ dims)) (zero_val t) in
     tnew tag lo (heap s) s' q pd pm ps px (dtype_of t) (a_dev T1) dims (cells t vs) ->
     if all_bad t f g (Z.to_nat m) (Z.to_nat k) (Z.to_nat n)
     then kernel (HPtr b1) (HPtr b2) (HPtr px) E s' = UB UB_overflow
     else wp (kernel (HPtr b1) (HPtr b2) (HPtr px)) E s' (fun _ s'' => exists vs',
       tnew tag lo (heap s) s'' q pd pm ps px (dtype_of t) (a_dev T1) dims (cells t vs') /\ rpos s'' = rpos s' /\
       upto t vs vs' 0 (Z.to_nat m) (Z.to_nat n) (Z.to_nat m * Z.to_nat n)
         (fun i j => psum t (f i j) (g i j) (Z.to_nat k)))) ->
  let run := bind (zeros_like (HPtr p1) dims nd o) (rest template) in
  (product_ok t m k n A B -> exists vs, makes run E s (AT t (a_dev T1) dims vs) /\
     forall i j, 0 <= i < m -> 0 <= j < n -> inner t k (fun q => A i q) (fun q => B q j) = vs !! Z.to_nat (i * n + j)) /\
  (~ product_ok t m k n A B -> run E s = UB UB_overflow).
Proof using Hwf HA H1 H2 Hty.
  intros Hfit Hnd Hp Hm Hk Hn Htem Hfg Hker run. unfold run.
  open_holds H1 Hv1 Hx1. open_holds H2 Hv2 Hx2. rewrite Hty in Hv2, Hx2. fold t in Hv1, Hx1, Hv2, Hx2.
  destruct (decide (m * n <= INT_MAX)) as [Hmax|Hbig].
  2:{ split; [intros (_ & ? & _); lia|]. intros _. apply bind_UB. eapply zeros_big; [done|done|exact H1|done|lia|done]. }
  destruct (zeros_done p1 T1 dims nd o E s) as (s' & q & pd & pm & ps & px & Hz & Ht & Hr); [done|done|done|done|lia|done|].
  fold t in Ht.
  pose proof (view_mono _ _ _ _ _ _ _ _ (tnew_base _ _ Ht) Hv1) as Hv1'.
  pose proof (view_mono _ _ _ _ _ _ _ _ (tnew_base _ _ Ht) Hv2) as Hv2'.
  pose proof (all_bad_ok t f g m k n A B Hm Hk Hn Hfg Hmax) as Hbad.
  specialize (Hker _ _ _ _ _ _ _ _ _ _ _ _ _ _ Hx1 Hx2 Ht).
  assert (bind (zeros_like (HPtr p1) dims nd o) (rest template) E s
    = bind (bind (kernel (HPtr x) (HPtr x2) (HPtr px)) (fun _ => ret SUCCESS)) (fun s => ret (s, HPtr q)) E s') as Heq.
  { erewrite bind_done by exact Hz. unfold rest. rewrite bool_decide_eq_true_2 by done. cbn [negb].
    erewrite bind_done by (by eapply tensor_dtype_ok).
    erewrite bind_done by (by eapply tensor_data_ok).
    erewrite bind_done by (by eapply tensor_data_ok).
    erewrite bind_done by (by eapply tensor_data_ok, tnew_view).
    by rewrite Htem. }
  destruct (all_bad t f g _ _ _) eqn:Hab.
  - split; [intros Hok; apply Hbad in Hok; done|]. intros _. rewrite Heq. apply bind_UB, bind_UB. exact Hker.
  - split; [|intros Hno; by destruct Hno; apply Hbad]. intros Hok.
    apply wp_elim in Hker as ([] & s2 & Hd & vs' & Ht' & Hr' & Hup).
    apply (upto_full t dims _ vs' m n) in Hup as [Hlen Hvals]; [|done|done|done].
    exists vs'. split.
    + exists s2, q. split.
      * rewrite Heq. erewrite bind_done; [reflexivity|]. erewrite bind_done by exact Hd. reflexivity.
      * eapply tnew_makes; [done| |exact Ht'|congruence]. split; [exact Hfit|exact Hlen].
    + intros i j Hi Hj. rewrite Hvals by done. rewrite inner_psum.
      destruct (Hfg (Z.to_nat i) (Z.to_nat j)) as [Hf Hg]; [lia|lia|].
      rewrite Z2Nat.id in Hf, Hg by lia. by apply psum_ext.
Qed.

Lemma nonneg1 : Forall (fun d => 0 <= d) (a_dims T1).
Proof using H1. apply (valid_fits _ (proj1 H1)). Qed.
Lemma nonneg2 : Forall (fun d => 0 <= d) (a_dims T2).
Proof using H2. apply (valid_fits _ (proj1 H2)). Qed.
Lemma vv_eq k : a_dims T1 = [k] -> a_dims T2 = [k] ->
  aitisa_matmul (HPtr p1) (HPtr p2) o E s = bind (zeros_like (HPtr p1) [1] 1 o) (rest (fun dt x y z => vv_template dt x y z k)) E s.
Proof using H1 H2 Hc1 Hc2.
  intros D1 D2. match goal with |- _ = ?r => set (R := r) end.
  unfold aitisa_matmul.
  open_holds H1 Hv1 Hx1. open_holds H2 Hv2 Hx2. rewrite D1 in Hv1. rewrite D2 in Hv2.
  erewrite bind_done by (by eapply tensor_device_ok).
  erewrite bind_done by (by eapply tensor_device_ok).
  unfold not_cpu. rewrite Hc1, Hc2. cbn [DEVICE_CPU negb orb Z.eqb].
  erewrite bind_done by (by eapply tensor_ndim_ok).
  erewrite bind_done by (by eapply tensor_ndim_ok). cbn [length].
  change (Z.of_nat 1) with 1. change (Z.of_nat 2) with 2. cbn [andb Z.eqb Pos.eqb].
  unfold matmul_vv.
  erewrite bind_done by (by eapply tensor_dim_ok). erewrite bind_done by (by eapply tensor_dim_ok). 
  rewrite Z.eqb_refl. reflexivity.
Qed.
Lemma mv_eq m k : a_dims T1 = [m; k] -> a_dims T2 = [k] ->
  aitisa_matmul (HPtr p1) (HPtr p2) o E s = bind (zeros_like (HPtr p1) [m] 1 o) (rest (fun dt x y z => mv_template dt x y z m k)) E s.
Proof using H1 H2 Hc1 Hc2.
  intros D1 D2. match goal with |- _ = ?r => set (R := r) end.
  unfold aitisa_matmul.
  open_holds H1 Hv1 Hx1. open_holds H2 Hv2 Hx2. rewrite D1 in Hv1. rewrite D2 in Hv2.
  erewrite bind_done by (by eapply tensor_device_ok).
  erewrite bind_done by (by eapply tensor_device_ok).
  unfold not_cpu. rewrite Hc1, Hc2. cbn [DEVICE_CPU negb orb Z.eqb].
  erewrite bind_done by (by eapply tensor_ndim_ok).
  erewrite bind_done by (by eapply tensor_ndim_ok). cbn [length].
  change (Z.of_nat 1) with 1. change (Z.of_nat 2) with 2. cbn [andb Z.eqb Pos.eqb].
  unfold matmul_mv.
  erewrite bind_done by (by eapply tensor_dim_ok). erewrite bind_done by (by eapply tensor_dim_ok). erewrite bind_done by (by eapply tensor_dim_ok). 
  rewrite Z.eqb_refl. reflexivity.
Qed.
Lemma mm_eq m k n : a_dims T1 = [m; k] -> a_dims T2 = [k; n] ->
  aitisa_matmul (HPtr p1) (HPtr p2) o E s = bind (zeros_like (HPtr p1) [m; n] 2 o) (rest (fun dt x y z => mm_template dt x y z m k n)) E s.
Proof using H1 H2 Hc1 Hc2.
  intros D1 D2. match goal with |- _ = ?r => set (R := r) end.
  unfold aitisa_matmul.
  open_holds H1 Hv1 Hx1. open_holds H2 Hv2 Hx2. rewrite D1 in Hv1. rewrite D2 in Hv2.
  erewrite bind_done by (by eapply tensor_device_ok).
  erewrite bind_done by (by eapply tensor_device_ok).
  unfold not_cpu. rewrite Hc1, Hc2. cbn [DEVICE_CPU negb orb Z.eqb].
  erewrite bind_done by (by eapply tensor_ndim_ok).
  erewrite bind_done by (by eapply tensor_ndim_ok). cbn [length].
  change (Z.of_nat 1) with 1. change (Z.of_nat 2) with 2. cbn [andb Z.eqb Pos.eqb].
  unfold matmul_mm.
  erewrite bind_done by (by eapply tensor_dim_ok). erewrite bind_done by (by eapply tensor_dim_ok). erewrite bind_done by (by eapply tensor_dim_ok). erewrite bind_done by (by eapply tensor_dim_ok). 
  rewrite Z.eqb_refl. reflexivity.
Qed.
Lemma vm_eq k n : a_dims T1 = [k] -> a_dims T2 = [k; n] ->
  aitisa_matmul (HPtr p1) (HPtr p2) o E s = bind (zeros_like (HPtr p1) [n] 1 o) (rest (fun dt x y z => mm_template dt x y z 1 k n)) E s.
Proof using H1 H2 Hc1 Hc2.
  intros D1 D2. match goal with |- _ = ?r => set (R := r) end.
  unfold aitisa_matmul.
  open_holds H1 Hv1 Hx1. open_holds H2 Hv2 Hx2. rewrite D1 in Hv1. rewrite D2 in Hv2.
  erewrite bind_done by (by eapply tensor_device_ok).
  erewrite bind_done by (by eapply tensor_device_ok).
  unfold not_cpu. rewrite Hc1, Hc2. cbn [DEVICE_CPU negb orb Z.eqb].
  erewrite bind_done by (by eapply tensor_ndim_ok).
  erewrite bind_done by (by eapply tensor_ndim_ok). cbn [length].
  change (Z.of_nat 1) with 1. change (Z.of_nat 2) with 2. cbn [andb Z.eqb Pos.eqb].
  unfold matmul_vm.
  erewrite bind_done by (by eapply tensor_dim_ok). erewrite bind_done by (by eapply tensor_dim_ok). erewrite bind_done by (by eapply tensor_dim_ok). 
  rewrite Z.eqb_refl. reflexivity.
Qed.

Definition good (m k n : Z) (A B : Z -> Z -> val) (dims : list Z) (vs : list val) : Prop :=
  makes (aitisa_matmul (HPtr p1) (HPtr p2) o) E s (AT t (a_dev T1) dims vs) /\
     forall i j, 0 <= i < m -> 0 <= j < n -> inner t k (fun q => A i q) (fun q => B q j) = vs !! Z.to_nat (i * n + j).
Lemma mm_outcome m k n : a_dims T1 = [m; k] -> a_dims T2 = [k; n] -> fits (tsz t) [m; n] ->
  (product_ok t m k n (fun i q => at_ T1 [i; q]) (fun q j => at_ T2 [q; j]) -> exists vs,
     good m k n (fun i q => at_ T1 [i; q]) (fun q j => at_ T2 [q; j]) [m; n] vs) /\
  (~ product_ok t m k n (fun i q => at_ T1 [i; q]) (fun q j => at_ T2 [q; j]) ->
     aitisa_matmul (HPtr p1) (HPtr p2) o E s = UB UB_overflow).
Proof using All.
  intros D1 D2 Hfit. pose proof nonneg1 as N1. pose proof nonneg2 as N2. rewrite D1 in N1. rewrite D2 in N2.
  apply Forall_cons in N1 as [Hm N1]. apply Forall_cons in N1 as [Hk _]. apply Forall_cons in N2 as [_ N2].
  apply Forall_cons in N2 as [Hn _].
  unfold good, makes, makes_k. rewrite (mm_eq m k n D1 D2).
  apply (rest_all [m; n] 2 _ (fun x y z => mm_kernel t x 0 y 0 z 0 m k n) m k n _ _
    (fun i j q => at_ T1 [Z.of_nat i; q]) (fun i j q => at_ T2 [q; Z.of_nat j])); try done.
  - unfold prodZ. cbn. lia.
  - intros x y z. unfold mm_template. by rewrite dispatch_all_t.
  - intros tag lo q pd pm ps px b1 tg1 ex1 b2 tg2 ex2 s' Hx1 Hx2 vs Ht.
    assert (prodZ [m; n] = m * n) as Hp by (unfold prodZ; cbn; lia).
    pose proof (mm_all (E := E) Hx1 Hx2 s' (rpos s') vs 0 0 0 (Z.to_nat m) (Z.to_nat k) (Z.to_nat n) 0 0 0
      (fun i j q => at_ T1 [Z.of_nat i; q]) (fun i j q => at_ T2 [q; Z.of_nat j]) Ht eq_refl) as Hall.
    rewrite !Z2Nat.id in Hall by done. apply Hall; try done.
    + intros c _ Hc. unfold vs in *. rewrite replicate_length in Hc. by apply lookup_replicate_2.
    + unfold vs. rewrite replicate_length, Hp. nia.
    + intros i j q' Hi Hj Hq. split.
      * by eapply (at_mat T1 m k); [apply H1| | |].
      * by eapply (at_mat T2 k n); [apply H2| | |].
Qed.
Lemma vm_outcome k n : a_dims T1 = [k] -> a_dims T2 = [k; n] -> fits (tsz t) [n] ->
  (product_ok t 1 k n (fun i q => at_ T1 [q]) (fun q j => at_ T2 [q; j]) -> exists vs,
     good 1 k n (fun i q => at_ T1 [q]) (fun q j => at_ T2 [q; j]) [n] vs) /\
  (~ product_ok t 1 k n (fun i q => at_ T1 [q]) (fun q j => at_ T2 [q; j]) ->
     aitisa_matmul (HPtr p1) (HPtr p2) o E s = UB UB_overflow).
Proof using All.
  intros D1 D2 Hfit. pose proof nonneg2 as N2. rewrite D2 in N2.
  apply Forall_cons in N2 as [Hk N2]. apply Forall_cons in N2 as [Hn _].
  unfold good, makes, makes_k. rewrite (vm_eq k n D1 D2).
  apply (rest_all [n] 1 _ (fun x y z => mm_kernel t x 0 y 0 z 0 1 k n) 1 k n _ _
    (fun i j q => at_ T1 [q]) (fun i j q => at_ T2 [q; Z.of_nat j])); try done.
  - unfold prodZ. cbn. lia.
  - intros x y z. unfold mm_template. by rewrite dispatch_all_t.
  - intros tag lo q pd pm ps px b1 tg1 ex1 b2 tg2 ex2 s' Hx1 Hx2 vs Ht.
    assert (prodZ [n] = n) as Hp by (unfold prodZ; cbn; lia).
    pose proof (mm_all (E := E) Hx1 Hx2 s' (rpos s') vs 0 0 0 (Z.to_nat 1) (Z.to_nat k) (Z.to_nat n) 0 0 0
      (fun i j q => at_ T1 [q]) (fun i j q => at_ T2 [q; Z.of_nat j]) Ht eq_refl) as Hall.
    rewrite !Z2Nat.id in Hall by done. apply Hall; try done.
    + intros c _ Hc. unfold vs in *. rewrite replicate_length in Hc. by apply lookup_replicate_2.
    + unfold vs. rewrite replicate_length, Hp. lia.
    + intros i j q' Hi Hj Hq. split.
      * replace (0 + i * Z.to_nat k + q')%nat with q' by nia. by eapply (at_vec T1 k); [apply H1| |].
      * by eapply (at_mat T2 k n); [apply H2| | |].
Qed.
Lemma mv_outcome m k : a_dims T1 = [m; k] -> a_dims T2 = [k] -> fits (tsz t) [m] ->
  (product_ok t m k 1 (fun i q => at_ T1 [i; q]) (fun q j => at_ T2 [q]) -> exists vs,
     good m k 1 (fun i q => at_ T1 [i; q]) (fun q j => at_ T2 [q]) [m] vs) /\
  (~ product_ok t m k 1 (fun i q => at_ T1 [i; q]) (fun q j => at_ T2 [q]) ->
     aitisa_matmul (HPtr p1) (HPtr p2) o E s = UB UB_overflow).
Proof using All.
  intros D1 D2 Hfit. pose proof nonneg1 as N1. rewrite D1 in N1.
  apply Forall_cons in N1 as [Hm N1]. apply Forall_cons in N1 as [Hk _].
  unfold good, makes, makes_k. rewrite (mv_eq m k D1 D2).
  apply (rest_all [m] 1 _ (fun x y z => mv_kernel t x y z m k) m k 1 _ _
    (fun i j q => at_ T1 [Z.of_nat i; q]) (fun i j q => at_ T2 [q])); try done.
  - intros x y z. unfold mv_template. by rewrite dispatch_all_t.
  - intros tag lo q pd pm ps px b1 tg1 ex1 b2 tg2 ex2 s' Hx1 Hx2 vs Ht.
    assert (prodZ [m] = m) as Hp by (unfold prodZ; cbn; lia).
    pose proof (mv_all (E := E) Hx1 Hx2 s' (rpos s') vs (Z.to_nat m) (Z.to_nat k)
      (fun i j q => at_ T1 [Z.of_nat i; q]) (fun i j q => at_ T2 [q]) Ht eq_refl) as Hall.
    rewrite !Z2Nat.id in Hall by done. apply Hall; try done.
    + intros c Hc. unfold vs in *. rewrite replicate_length in Hc. by apply lookup_replicate_2.
    + unfold vs. rewrite replicate_length, Hp. lia.
    + intros i q' Hi Hq. split.
      * by eapply (at_mat T1 m k); [apply H1| | |].
      * by eapply (at_vec T2 k); [apply H2| |].
Qed.
Lemma vv_outcome k : a_dims T1 = [k] -> a_dims T2 = [k] ->
  (product_ok t 1 k 1 (fun i q => at_ T1 [q]) (fun q j => at_ T2 [q]) -> exists vs,
     good 1 k 1 (fun i q => at_ T1 [q]) (fun q j => at_ T2 [q]) [1] vs) /\
  (~ product_ok t 1 k 1 (fun i q => at_ T1 [q]) (fun q j => at_ T2 [q]) ->
     aitisa_matmul (HPtr p1) (HPtr p2) o E s = UB UB_overflow).
Proof using All.
  intros D1 D2. pose proof nonneg1 as N1. rewrite D1 in N1. apply Forall_cons in N1 as [Hk _].
  unfold good, makes, makes_k. rewrite (vv_eq k D1 D2).
  apply (rest_all [1] 1 _ (fun x y z => vv_kernel t x y z k) 1 k 1 _ _
    (fun i j q => at_ T1 [q]) (fun i j q => at_ T2 [q])); try done.
  - clear. unfold fits. split_and!; [by repeat constructor|done|]. by destruct t.
  - intros x y z. unfold vv_template. by rewrite dispatch_all_t.
  - intros tag lo q pd pm ps px b1 tg1 ex1 b2 tg2 ex2 s' Hx1 Hx2 vs Ht.
    assert (vs = [zero_val t]) as Hvs by done.
    pose proof (acc_all (E := E) Hx1 Hx2 s' (rpos s') vs 0 (Z.to_nat k) k (fun q => at_ T1 [q]) (fun q => at_ T2 [q])
      0 0 0 (fun i => i) (fun i => i) 0 (fun q => q) (fun q => q) Ht eq_refl) as Ha.
    rewrite !Z2Nat.id in Ha by done. specialize (Ha eq_refl ltac:(by rewrite Hvs)).
    specialize (Ha ltac:(intros q' Hq; by eapply (at_vec T1 k); [apply H1| |])
      ltac:(intros q' Hq; by eapply (at_vec T2 k); [apply H2| |]) ltac:(done) ltac:(done) ltac:(done)).
    assert (all_bad t (fun (_ _ : nat) q => at_ T1 [q]) (fun (_ _ : nat) q => at_ T2 [q]) (Z.to_nat 1) (Z.to_nat k) (Z.to_nat 1)
      = none (psum t (fun q => at_ T1 [q]) (fun q => at_ T2 [q]) (Z.to_nat k)) || (INT_MAX <? k)) as ->.
    { unfold all_bad, some_bad, cell_bad. change (Z.to_nat 1) with 1%nat. cbn [seq existsb].
      rewrite !orb_false_r. by rewrite Z2Nat.id by done. }
    destruct (none _ || _); [exact Ha|]. eapply wp_mono; [exact Ha|].
    intros [] s2 (w & Hw & Ht2 & Hr2). exists (<[0%nat := w]> vs). split_and!; [done|done|].
    change (Z.to_nat 1) with 1%nat. apply (upto_step t vs vs 0 1 1 0 _ 0 0 w); [|done|lia|rewrite Hvs; cbn; lia|exact Hw].
    split_and!; [done|done| |].
    + intros i j _ _ Hl. lia.
    + intros c _ Hc. rewrite Hvs in *. cbn in Hc. by destruct c as [|c]; [|lia].
Qed.

(** Storing a 0 over the 0 changes nothing. *)
Lemma dot_is_matmul k1 k2 : a_dims T1 = [k1] -> a_dims T2 = [k2] ->
  aitisa_dot (HPtr p1) (HPtr p2) o E s = aitisa_matmul (HPtr p1) (HPtr p2) o E s.
Proof using Hwf H1 H2 Hty Hc1 Hc2.
  intros D1 D2. rewrite (dot_unfold p1 p2 T1 T2 o E s H1 H2 Hty Hc1 Hc2). rewrite D1, D2.
  transitivity (vector_vector_dot (HPtr p1) (HPtr p2) o E s); [done|].
  transitivity (matmul_vv (HPtr p1) (HPtr p2) o E s).
  2:{ symmetry. unfold aitisa_matmul. open_holds H1 Hv1 Hx1. open_holds H2 Hv2 Hx2. rewrite D1 in Hv1. rewrite D2 in Hv2.
    match goal with |- _ = ?r => set (R := r) end.
    erewrite bind_done by (by eapply tensor_device_ok).
    erewrite bind_done by (by eapply tensor_device_ok).
    unfold not_cpu. rewrite Hc1, Hc2. cbn [DEVICE_CPU negb orb Z.eqb].
    erewrite bind_done by (by eapply tensor_ndim_ok).
    erewrite bind_done by (by eapply tensor_ndim_ok). done. }
  open_holds H1 Hv1 Hx1. open_holds H2 Hv2 Hx2. rewrite Hty in Hv2, Hx2. rewrite D1 in Hv1. rewrite D2 in Hv2. fold t in Hv1, Hv2, Hx1, Hx2.
  assert (wp (zeros_like (HPtr p1) [1] 1 o) E s (fun r s' =>
    (exists q pd pm ps px, r = (SUCCESS, HPtr q) /\
       tnew (e_alloc E) (ctr s) (heap s) s' q pd pm ps px (dtype_of t) (a_dev T1) [1] (cells t [zero_val t])) \/
    r = (ALLOC_FAILED, o))) as Hw.
  { eapply zeros_rule; [done|exact H1| |done|done| |].
    - split_and!; [repeat constructor; lia|done|]. destruct (a_type T1); done.
    - intros s' q pd pm ps px Ht Hr. left. exists q, pd, pm, ps, px. done.
    - intros s' Hn Hk. by right. }
  apply wp_elim in Hw as (r & s' & Hz & Hr).
  unfold vector_vector_dot, matmul_vv.
  erewrite (bind_done (tensor_dim (HPtr p1) 0)) by (by eapply tensor_dim_ok).
  erewrite (bind_done (tensor_dim (HPtr p2) 0)) by (by eapply tensor_dim_ok). symmetry.
  erewrite (bind_done (tensor_dim (HPtr p1) 0)) by (by eapply tensor_dim_ok).
  erewrite (bind_done (tensor_dim (HPtr p2) 0)) by (by eapply tensor_dim_ok).
  destruct (k1 =? k2); [|done]. cbn [negb].
  erewrite bind_done by exact Hz. symmetry. erewrite bind_done by exact Hz.
  destruct Hr as [(q & pd & pm & ps & px & -> & Ht)| ->]; [|by rewrite bool_decide_eq_false_2].
  rewrite bool_decide_eq_true_2 by done. cbn [negb].
  pose proof (view_mono _ _ _ _ _ _ _ _ (tnew_base _ _ Ht) Hv1) as Hv1'.
  pose proof (view_mono _ _ _ _ _ _ _ _ (tnew_base _ _ Ht) Hv2) as Hv2'.
  match goal with |- _ = ?r => set (R := r) end.
  erewrite bind_done by (by eapply tensor_dtype_ok).
  erewrite bind_done by (by eapply tensor_data_ok).
  erewrite bind_done by (by eapply tensor_data_ok).
  erewrite bind_done by (by eapply tensor_size_ok).
  erewrite bind_done by (by eapply tensor_data_ok, tnew_view).
  unfold R. clear R. symmetry. match goal with |- _ = ?r => set (R := r) end.
  erewrite bind_done by (by eapply tensor_dtype_ok).
  erewrite bind_done by (by eapply tensor_data_ok).
  erewrite bind_done by (by eapply tensor_data_ok).
  erewrite bind_done by (by eapply tensor_data_ok, tnew_view).
  unfold R, vv_template. rewrite !dispatch_all_t. unfold dot_kernel, vv_kernel.
  assert (prodZ [k1] = k1) as -> by (unfold prodZ; cbn; lia).
  assert (storei (HPtr px) t 0 (zero_val t) E s' = Done tt s') as Hst.
  { change 0 with (Z.of_nat 0). rewrite (tnew_storei s' [zero_val t] 0 (zero_val t) Ht) by (cbn; lia).
    f_equal. change (<[0%nat := zero_val t]> [zero_val t]) with [zero_val t].
    pose proof (tnew_px _ _ Ht) as Hpx. unfold upd. rewrite insert_id by exact Hpx. by destruct s'. }
  unfold bind. by rewrite Hst.
Qed.
End rank12.

(** ** In terms of coordinates *)
Lemma good_at p1 p2 T1 o E s m k n A B dims vs i j c :
  product_ok (a_type T1) m k n A B -> good p1 p2 T1 o E s m k n A B dims vs -> 0 <= i < m -> 0 <= j < n ->
  (forall T, a_dims T = dims -> at_ T c = default VU (a_vals T !! Z.to_nat (i * n + j))) ->
  inner (a_type T1) k (fun q => A i q) (fun q => B q j) = Some (at_ (AT (a_type T1) (a_dev T1) dims vs) c).
Proof.
  intros (_ & _ & _ & Hok) [_ Hg] Hi Hj Hc. destruct (Hok i j Hi Hj) as [w Hw]. rewrite Hw. specialize (Hg i j Hi Hj).
  rewrite Hw in Hg. rewrite Hc by done. cbn [a_vals]. by rewrite <-Hg.
Qed.
Definition outcome (p1 p2 : nat) (T1 : atensor) (o : hval) (E : env) (s : st) (m k n : Z) (A B : Z -> Z -> val)
    (dims : list Z) (c : Z -> Z -> list Z) : Prop :=
  (product_ok (a_type T1) m k n A B -> exists T,
     makes (aitisa_matmul (HPtr p1) (HPtr p2) o) E s T /\ a_type T = a_type T1 /\ a_dev T = a_dev T1 /\ a_dims T = dims /\
     forall i j, 0 <= i < m -> 0 <= j < n -> inner (a_type T1) k (fun q => A i q) (fun q => B q j) = Some (at_ T (c i j))) /\
  (~ product_ok (a_type T1) m k n A B -> aitisa_matmul (HPtr p1) (HPtr p2) o E s = UB UB_overflow).
Lemma to_outcome p1 p2 T1 o E s m k n A B dims c :
  (product_ok (a_type T1) m k n A B -> exists vs, good p1 p2 T1 o E s m k n A B dims vs) /\
  (~ product_ok (a_type T1) m k n A B -> aitisa_matmul (HPtr p1) (HPtr p2) o E s = UB UB_overflow) ->
  (forall i j T, 0 <= i < m -> 0 <= j < n -> a_dims T = dims -> at_ T (c i j) = default VU (a_vals T !! Z.to_nat (i * n + j))) ->
  outcome p1 p2 T1 o E s m k n A B dims c.
Proof.
  intros [H1 H2] Hc. split; [|done]. intros Hok. destruct (H1 Hok) as [vs Hg].
  exists (AT (a_type T1) (a_dev T1) dims vs). split_and!; [apply Hg|done|done|done|].
  intros i j Hi Hj. eapply good_at; [done|done|done|done|]. intros T HT. by apply Hc.
Qed.
Section every.
Context (p1 p2 : nat) (T1 T2 : atensor) (o : hval) (E : env) (s : st).
Context (Hwf : wf s) (HA : alloc_all E) (H1 : holds (heap s) p1 T1) (H2 : holds (heap s) p2 T2)
  (Hty : a_type T2 = a_type T1)
  (Hc1 : dev_type (a_dev T1) = 0) (Hc2 : dev_type (a_dev T2) = 0).
Lemma mm_every m k n : a_dims T1 = [m; k] -> a_dims T2 = [k; n] -> fits (tsz (a_type T1)) [m; n] ->
  outcome p1 p2 T1 o E s m k n (fun i q => at_ T1 [i; q]) (fun q j => at_ T2 [q; j]) [m; n] (fun i j => [i; j]).
Proof using All.
  intros D1 D2 Hf. apply to_outcome; [by apply (mm_outcome p1 p2 T1 T2)|]. intros i j T _ _ HT. by apply (at_2 _ m).
Qed.
Lemma mv_every m k : a_dims T1 = [m; k] -> a_dims T2 = [k] -> fits (tsz (a_type T1)) [m] ->
  outcome p1 p2 T1 o E s m k 1 (fun i q => at_ T1 [i; q]) (fun q _ => at_ T2 [q]) [m] (fun i _ => [i]).
Proof using All.
  intros D1 D2 Hf. apply to_outcome; [by apply (mv_outcome p1 p2 T1 T2)|]. intros i j T _ Hj HT.
  replace (i * 1 + j) with i by lia. by apply (at_1 _ m).
Qed.
Lemma vm_every k n : a_dims T1 = [k] -> a_dims T2 = [k; n] -> fits (tsz (a_type T1)) [n] ->
  outcome p1 p2 T1 o E s 1 k n (fun _ q => at_ T1 [q]) (fun q j => at_ T2 [q; j]) [n] (fun _ j => [j]).
Proof using All.
  intros D1 D2 Hf. apply to_outcome; [by apply (vm_outcome p1 p2 T1 T2)|]. intros i j T Hi _ HT.
  assert (i = 0) as -> by lia. rewrite Z.mul_0_l, Z.add_0_l. by apply (at_1 _ n).
Qed.
Lemma vv_every k : a_dims T1 = [k] -> a_dims T2 = [k] ->
  outcome p1 p2 T1 o E s 1 k 1 (fun _ q => at_ T1 [q]) (fun q _ => at_ T2 [q]) [1] (fun _ _ => [0]).
Proof using All.
  intros D1 D2. apply to_outcome; [by apply (vv_outcome p1 p2 T1 T2)|]. intros i j T Hi Hj HT.
  replace (i * 1 + j) with 0 by lia. by apply (at_1 _ 1).
Qed.
End every.
