(** * ProofMatmul: matrix multiplication kernels and ranks 1 and 2 *)
From stdpp Require Import gmap list.
From Coq Require Import ZArith Lia Floats.SpecFloat.
From Coq Require Import ZifyBool ZifyNat.
From Verif Require Import Base Mem Spec SpecReal ModelCore ModelBasic ModelMath Logic ProofCore ProofCore2 ProofCore3
  ProofKernel ProofBasic ProofIndex ProofKernel2 ProofSlice ProofFrame ProofFloat2 ProofCast ProofSqrt.
Open Scope Z_scope.

Ltac Zify.zify_post_hook ::= Z.div_mod_to_equations.

(** ** Partial sums *)
Definition psum (t : tcode) (f g : Z -> val) (k : nat) : option val :=
  foldl (fun acc q => acc ≫= fun c => mac_val t c (f (Z.of_nat q)) (g (Z.of_nat q)))
    (Some (zero_val t)) (seq 0 k).
Lemma inner_psum t k f g : inner t k f g = psum t f g (Z.to_nat k). Proof. done. Qed.
Lemma psum_S t f g k : psum t f g (S k) = psum t f g k ≫= fun c => mac_val t c (f (Z.of_nat k)) (g (Z.of_nat k)).
Proof. unfold psum. rewrite seq_S, foldl_app. done. Qed.
Lemma psum_le t f g k w : psum t f g k = Some w -> forall q, (q <= k)%nat -> exists v, psum t f g q = Some v.
Proof.
  revert w. induction k as [|k IH]; intros w Hw q Hq.
  - replace q with 0%nat by lia. eauto.
  - destruct (decide (q = S k)) as [->|Hne]; [eauto|].
    rewrite psum_S in Hw. destruct (psum t f g k) as [v|] eqn:Hv; [|done]. apply (IH v); [done|lia].
Qed.

Lemma created_tnew {E s s' p T k} : wf s -> created_k E s s' p T k ->
  exists pd pm ps px,
    tnew (e_alloc E) (ctr s) (heap s) s' p pd pm ps px (dtype_of (a_type T)) (a_dev T) (a_dims T)
      (cells (a_type T) (a_vals T)).
Proof.
  intros Hwf (HT & new & (pd & pm & ps & px & Hnd & ->) & Hh & Hdj & Hlo & Hc & Hr).
  exists pd, pm, ps, px. split_and!; [done|done|done|done|].
  intros b Hb. apply Hwf in Hb. lia.
Qed.

(** ** Loops over a fresh tensor *)
Section acc.
Context {E : env} {tag lo : nat} {base : gmap nat block} {p pd pm ps px : nat}
  {t : tcode} {dev : device} {dims : list Z}.
Let T s' vs := tnew tag lo base s' p pd pm ps px (dtype_of t) dev dims (cells t vs).

(** [F k] is the content of the tensor before round [k]. *)
Lemma tnew_for32 (F : nat -> list val) n hi body s :
  T s (F 0%nat) -> hi = Z.of_nat n -> hi <= INT_MAX ->
  (forall k s', (k < n)%nat -> T s' (F k) -> rpos s' = rpos s ->
     wp (body (Z.of_nat k) tt) E s' (fun _ s'' => T s'' (F (S k)) /\ rpos s'' = rpos s)) ->
  wp (for32 0 hi body tt) E s (fun _ s' => T s' (F n) /\ rpos s' = rpos s).
Proof using Type.
  intros H0 -> Hmax Hb. unfold for32. rewrite Z.sub_0_r, Nat2Z.id.
  apply (iter_rule (fun k (_ : unit) s' => T s' (F k) /\ rpos s' = rpos s)); [done|].
  intros k [] s' Hk [HT Hr]. apply wp_bind. rewrite Z.add_0_l. eapply wp_mono; [by apply Hb|].
  intros [] s'' [HT' Hr']. apply wp_check; [lia|]. by apply wp_ret.
Qed.
Lemma tnew_for64 (F : nat -> list val) n hi body s :
  T s (F 0%nat) -> hi = Z.of_nat n ->
  (forall k s', (k < n)%nat -> T s' (F k) -> rpos s' = rpos s ->
     wp (body (Z.of_nat k) tt) E s' (fun _ s'' => T s'' (F (S k)) /\ rpos s'' = rpos s)) ->
  wp (for64 0 hi body tt) E s (fun _ s' => T s' (F n) /\ rpos s' = rpos s).
Proof using Type.
  intros H0 -> Hb. unfold for64. rewrite Z.sub_0_r, Nat2Z.id.
  apply (iter_rule (fun k (_ : unit) s' => T s' (F k) /\ rpos s' = rpos s)); [done|].
  intros k [] s' Hk [HT Hr]. rewrite Z.add_0_l. by apply Hb.
Qed.

Context {bA tgA bB tgB : nat} {vA vB : list val} {exA exB : list mv}.
Context (HA : base !! bA = Some (Blk tgA (CData (cells t vA ++ exA))))
        (HB : base !! bB = Some (Blk tgB (CData (cells t vB ++ exB)))).

Lemma mac_ok s vs (ia ib c : nat) a b v w oa ai ob bi oc ci :
  T s vs -> vA !! ia = Some a -> vB !! ib = Some b -> vs !! c = Some v -> mac_val t v a b = Some w ->
  oa + ai * Z.of_nat (tsz t) = Z.of_nat ia * Z.of_nat (tsz t) ->
  ob + bi * Z.of_nat (tsz t) = Z.of_nat ib * Z.of_nat (tsz t) ->
  oc + ci * Z.of_nat (tsz t) = Z.of_nat c * Z.of_nat (tsz t) ->
  mac t (HPtr bA) oa ai (HPtr bB) ob bi (HPtr px) oc ci E s
  = Done tt (upd s px (Blk tag (CData (cells t (<[c := w]> vs))))).
Proof using HA HB.
  intros HT Ha Hb Hc Hw Hia Hib Hic. unfold mac. cbv zeta.
  erewrite bind_done.
  2:{ rewrite Hic. change (load ?p t _) with (loadi p t (Z.of_nat c)). by eapply tnew_loadi. }
  erewrite bind_done by (eapply load_cells; [eapply tnew_lookup; [exact HT|exact HA]|exact Ha|exact Hia]).
  erewrite bind_done by (eapply load_cells; [eapply tnew_lookup; [exact HT|exact HB]|exact Hb|exact Hib]).
  erewrite bind_done by (by apply opt_ok).
  rewrite Hic. change (store ?p t _) with (storei p t (Z.of_nat c)).
  eapply tnew_storei; [exact HT|]. by eapply lookup_lt_Some.
Qed.

(** Accumulating one element *)
Lemma acc_loop s vs (c k : nat) hi w f g oa ob oc (ai bi : Z -> Z) ci (ia ib : nat -> nat) :
  T s vs -> hi = Z.of_nat k -> hi <= INT_MAX -> vs !! c = Some (zero_val t) ->
  psum t f g k = Some w ->
  (forall q, (q < k)%nat -> vA !! ia q = Some (f (Z.of_nat q))) ->
  (forall q, (q < k)%nat -> vB !! ib q = Some (g (Z.of_nat q))) ->
  (forall q, (q < k)%nat -> oa + ai (Z.of_nat q) * Z.of_nat (tsz t) = Z.of_nat (ia q) * Z.of_nat (tsz t)) ->
  (forall q, (q < k)%nat -> ob + bi (Z.of_nat q) * Z.of_nat (tsz t) = Z.of_nat (ib q) * Z.of_nat (tsz t)) ->
  oc + ci * Z.of_nat (tsz t) = Z.of_nat c * Z.of_nat (tsz t) ->
  wp (for32 0 hi (fun q _ => mac t (HPtr bA) oa (ai q) (HPtr bB) ob (bi q) (HPtr px) oc ci) tt) E s
     (fun _ s' => T s' (<[c := w]> vs) /\ rpos s' = rpos s).
Proof using HA HB.
  intros HT Hhi Hmax Hc Hw Hf Hg Hai Hbi Hci.
  set (F := fun q => <[c := default VU (psum t f g q)]> vs).
  eapply wp_mono.
  - eapply (tnew_for32 F k); [|done|done|].
    + unfold F. cbn. by rewrite list_insert_id.
    + intros q s' Hq HT' Hr'.
      destruct (psum_le _ _ _ _ _ Hw q ltac:(lia)) as [v Hv].
      destruct (psum_le _ _ _ _ _ Hw (S q) ltac:(lia)) as [v' Hv'].
      pose proof Hv' as Hm. rewrite psum_S, Hv in Hm. cbn in Hm.
      assert (c < length vs)%nat as Hcl by (by eapply lookup_lt_Some).
      eapply wp_intro.
      * eapply mac_ok; [exact HT'|by apply Hf|by apply Hg| |exact Hm|by apply Hai|by apply Hbi|exact Hci].
        unfold F. rewrite Hv. by apply list_lookup_insert.
      * split; [|done].
        replace (F (S q)) with (<[c := v']> (F q)).
        2:{ unfold F. rewrite Hv'. apply list_insert_insert. }
        eapply tnew_upd. exact HT'.
  - intros [] s' [HT' Hr']. split; [|done]. unfold F in HT'. by rewrite Hw in HT'.
Qed.
End acc.

(** ** Filling a result element by element *)
Definition prog (z : val) (ws : list val) (c : nat) : list val := take c ws ++ replicate (length ws - c) z.
Lemma prog_0 z ws : prog z ws 0 = replicate (length ws) z.
Proof. unfold prog. by rewrite take_0, Nat.sub_0_r. Qed.
Lemma prog_full z ws c : (length ws <= c)%nat -> prog z ws c = ws.
Proof. intros H. unfold prog. rewrite take_ge by done. replace (length ws - c)%nat with 0%nat by lia. apply app_nil_r. Qed.
Lemma prog_lookup z ws c : (c < length ws)%nat -> prog z ws c !! c = Some z.
Proof.
  intros H. unfold prog. rewrite lookup_app_r by (rewrite take_length; lia).
  rewrite take_length. replace (c - c `min` length ws)%nat with 0%nat by lia.
  rewrite lookup_replicate. split; [done|lia].
Qed.
Lemma prog_step z ws c w : ws !! c = Some w -> <[c := w]> (prog z ws c) = prog z ws (S c).
Proof.
  intros H. pose proof (lookup_lt_Some _ _ _ H). unfold prog. rewrite (take_S_r _ _ _ H).
  rewrite insert_app_r_alt by (rewrite take_length; lia). rewrite take_length.
  replace (c - c `min` length ws)%nat with 0%nat by lia.
  replace (length ws - c)%nat with (S (length ws - S c)) by lia. cbn. by rewrite <-app_assoc.
Qed.

Section mm.
Context {E : env} {tag lo : nat} {base : gmap nat block} {p pd pm ps px : nat}
  {t : tcode} {dev : device} {dims : list Z}.
Let T s' vs := tnew tag lo base s' p pd pm ps px (dtype_of t) dev dims (cells t vs).
Context {bA tgA bB tgB : nat} {vA vB : list val} {exA exB : list mv}.
Context (HA : base !! bA = Some (Blk tgA (CData (cells t vA ++ exA))))
        (HB : base !! bB = Some (Blk tgB (CData (cells t vB ++ exB)))).

(** Matrices at element offsets a0, b0, c0 of the three buffers. *)
Lemma mm_kernel_ok s ws (a0 b0 c0 m k n : nat) oa ob oc (f g : nat -> nat -> Z -> val) :
  T s (prog (zero_val t) ws c0) -> (c0 + m * n <= length ws)%nat ->
  Z.of_nat m <= INT_MAX -> Z.of_nat k <= INT_MAX -> Z.of_nat n <= INT_MAX ->
  oa = Z.of_nat a0 * Z.of_nat (tsz t) -> ob = Z.of_nat b0 * Z.of_nat (tsz t) ->
  oc = Z.of_nat c0 * Z.of_nat (tsz t) ->
  (forall i j q, (i < m)%nat -> (j < n)%nat -> (q < k)%nat ->
     vA !! (a0 + i * k + q)%nat = Some (f i j (Z.of_nat q)) /\
     vB !! (b0 + q * n + j)%nat = Some (g i j (Z.of_nat q))) ->
  (forall i j, (i < m)%nat -> (j < n)%nat ->
     psum t (f i j) (g i j) k = ws !! (c0 + i * n + j)%nat) ->
  wp (mm_kernel t (HPtr bA) oa (HPtr bB) ob (HPtr px) oc (Z.of_nat m) (Z.of_nat k) (Z.of_nat n)) E s
     (fun _ s' => T s' (prog (zero_val t) ws (c0 + m * n)) /\ rpos s' = rpos s).
Proof using HA HB.
  intros HT Hlen Hm Hk Hn -> -> -> Hops Hws. unfold mm_kernel.
  apply (tnew_for32 (fun i => prog (zero_val t) ws (c0 + i * n)) m); [|done|done|].
  { by rewrite Nat.mul_0_l, Nat.add_0_r. }
  intros i s1 Hi HT1 Hr1.
  eapply wp_mono.
  - eapply (tnew_for32 (fun j => prog (zero_val t) ws (c0 + i * n + j)) n); [|done|done|].
    { by rewrite Nat.add_0_r. }
    intros j s2 Hj HT2 Hr2.
    assert (i * n + j < m * n)%nat as Hc by nia.
    destruct (lookup_lt_is_Some_2 ws (c0 + i * n + j)) as [w Hw]; [lia|].
    eapply wp_mono.
    + eapply (acc_loop HA HB s2 _ (c0 + i * n + j) k _ w (f i j) (g i j) _ _ _ _ _ _
        (fun q => (a0 + i * k + q)%nat) (fun q => (b0 + q * n + j)%nat)).
      * exact HT2.
      * done.
      * done.
      * apply prog_lookup. lia.
      * by rewrite Hws.
      * intros q Hq. by apply Hops.
      * intros q Hq. by apply Hops.
      * intros q Hq. cbv beta. nia.
      * intros q Hq. cbv beta. nia.
      * nia.
    + intros [] s3 [HT3 Hr3]. rewrite (prog_step _ _ _ w) in HT3 by done.
      rewrite Nat.add_succ_r. split; [done|congruence].
  - intros [] s2 [HT2 Hr2]. split; [|congruence].
    replace (c0 + S i * n)%nat with (c0 + i * n + n)%nat by lia. done.
Qed.

Lemma mv_kernel_ok s ws (m k : nat) (f g : nat -> Z -> val) :
  T s (replicate m (zero_val t)) -> length ws = m ->
  Z.of_nat m <= INT_MAX -> Z.of_nat k <= INT_MAX ->
  (forall i q, (i < m)%nat -> (q < k)%nat ->
     vA !! (i * k + q)%nat = Some (f i (Z.of_nat q)) /\ vB !! q = Some (g i (Z.of_nat q))) ->
  (forall i, (i < m)%nat -> psum t (f i) (g i) k = ws !! i) ->
  wp (mv_kernel t (HPtr bA) (HPtr bB) (HPtr px) (Z.of_nat m) (Z.of_nat k)) E s
     (fun _ s' => T s' ws /\ rpos s' = rpos s).
Proof using HA HB.
  intros HT Hlen Hm Hk Hops Hws. unfold mv_kernel. eapply wp_mono.
  - eapply (tnew_for32 (fun i => prog (zero_val t) ws i) m); [|done|done|].
    { by rewrite prog_0, Hlen. }
    intros i s1 Hi HT1 Hr1.
    destruct (lookup_lt_is_Some_2 ws i) as [w Hw]; [lia|].
    eapply wp_mono.
    + eapply (acc_loop HA HB s1 _ i k _ w (f i) (g i) 0 0 0 _ _ _ (fun q => (i * k + q)%nat) (fun q => q)).
      * exact HT1.
      * done.
      * done.
      * apply prog_lookup. lia.
      * by rewrite Hws.
      * intros q Hq. by apply Hops.
      * intros q Hq. by apply (Hops i q).
      * intros q Hq. cbv beta. nia.
      * intros q Hq. cbv beta. nia.
      * nia.
    + intros [] s3 [HT3 Hr3]. rewrite (prog_step _ _ _ w) in HT3 by done. split; [done|congruence].
  - intros [] s1 [HT1 Hr1]. rewrite prog_full in HT1 by lia. done.
Qed.

Lemma vv_kernel_ok s w (k : nat) (f g : Z -> val) :
  T s [zero_val t] -> Z.of_nat k <= INT_MAX ->
  (forall q, (q < k)%nat -> vA !! q = Some (f (Z.of_nat q)) /\ vB !! q = Some (g (Z.of_nat q))) ->
  psum t f g k = Some w ->
  wp (vv_kernel t (HPtr bA) (HPtr bB) (HPtr px) (Z.of_nat k)) E s
     (fun _ s' => T s' [w] /\ rpos s' = rpos s).
Proof using HA HB.
  intros HT Hk Hops Hw. unfold vv_kernel.
  eapply (acc_loop HA HB s [zero_val t] 0 k _ w f g 0 0 0 _ _ _ (fun q => q) (fun q => q));
    [exact HT|done|done|done|done| | | | |]; try (intros q Hq; by apply (Hops q)); intros; lia.
Qed.
End mm.

(** ** The zeroed output *)
Lemma of_double_zero t : of_double t fzero = Some (zero_val t).
Proof. by destruct t. Qed.

Lemma zeros_rule p1 T1 dims nd o E s (Q : status * hval -> st -> Prop) :
  wf s -> holds (heap s) p1 T1 -> fits (tsz (a_type T1)) dims -> prodZ dims <= INT_MAX ->
  nd = Z.of_nat (length dims) ->
  (forall s' q pd pm ps px,
     tnew (e_alloc E) (ctr s) (heap s) s' q pd pm ps px (dtype_of (a_type T1)) (a_dev T1) dims
       (cells (a_type T1) (replicate (Z.to_nat (prodZ dims)) (zero_val (a_type T1)))) ->
     rpos s' = rpos s -> Q (SUCCESS, HPtr q) s') ->
  (forall s', ~ alloc_all E -> keeps s s' -> Q (ALLOC_FAILED, o) s') ->
  wp (zeros_like (HPtr p1) dims nd o) E s Q.
Proof.
  intros Hwf (HvT & bx & tg & ex & Hv & Hx) Hfit Hmax -> HQ HN. unfold zeros_like.
  eapply wp_step; [by eapply tensor_dtype_ok|].
  eapply wp_step; [by eapply tensor_device_ok|].
  destruct (full_rule (a_type T1) (a_dev T1) dims fzero _ o E s Hwf Hfit Hmax (of_double_zero _))
    as [(s' & q & Hm & Hc)|(Hn & s' & Hm & Hk)].
  - eapply wp_intro; [exact Hm|].
    assert (rpos s' = rpos s) as Hr by (destruct Hc as (_ & ? & _ & _ & _ & _ & _ & ->); lia).
    destruct (created_tnew Hwf Hc) as (pd & pm & ps & px & Ht). by eapply HQ.
  - eapply wp_intro; [exact Hm|]. by apply HN.
Qed.

(** ** Elements by coordinates *)
Lemma at_1 T k i : a_dims T = [k] -> at_ T [i] = default VU (a_vals T !! Z.to_nat i).
Proof. intros H. unfold at_. rewrite H. cbn [ravel]. unfold prodZ. cbn [foldr]. by rewrite Z.mul_1_r, Z.add_0_r. Qed.
Lemma at_2 T m k i j : a_dims T = [m; k] -> at_ T [i; j] = default VU (a_vals T !! Z.to_nat (i * k + j)).
Proof.
  intros H. unfold at_. rewrite H. cbn [ravel]. unfold prodZ. cbn [foldr].
  by rewrite !Z.mul_1_r, Z.add_0_r.
Qed.
Lemma lookup_default {A} (l : list A) d k : (k < length l)%nat -> l !! k = Some (default d (l !! k)).
Proof. intros H. by destruct (lookup_lt_is_Some_2 l k H) as [x ->]. Qed.
Lemma at_vec T k q : valid T -> a_dims T = [k] -> (q < Z.to_nat k)%nat ->
  a_vals T !! q = Some (at_ T [Z.of_nat q]).
Proof.
  intros HT Hd Hq. rewrite (at_1 _ _ _ Hd), Nat2Z.id. apply lookup_default.
  pose proof (valid_len _ HT) as Hl. rewrite Hd in Hl. unfold prodZ in Hl. cbn in Hl. lia.
Qed.
Lemma at_mat T m k i q : valid T -> a_dims T = [m; k] -> (i < Z.to_nat m)%nat -> (q < Z.to_nat k)%nat ->
  a_vals T !! (i * Z.to_nat k + q)%nat = Some (at_ T [Z.of_nat i; Z.of_nat q]).
Proof.
  intros HT Hd Hi Hq. rewrite (at_2 _ _ _ _ _ Hd).
  replace (Z.to_nat (Z.of_nat i * k + Z.of_nat q)) with (i * Z.to_nat k + q)%nat by nia.
  apply lookup_default.
  pose proof (valid_len _ HT) as Hl. rewrite Hd in Hl. unfold prodZ in Hl. cbn in Hl. nia.
Qed.
Lemma at_eta T : AT (a_type T) (a_dev T) (a_dims T) (a_vals T) = T.
Proof. by destruct T. Qed.

Ltac open_holds H Hv Hx :=
  let HvT := fresh "HvT" in
  pose proof H as (HvT & ? & ? & ? & Hv & Hx).

(** ** Ranks 1 and 2 *)
Section rank12.
Context (p1 p2 : nat) (T1 T2 T3 : atensor) (o : hval) (E : env) (s : st).
Context (Hwf : wf s) (H1 : holds (heap s) p1 T1) (H2 : holds (heap s) p2 T2)
  (Hty : a_type T2 = a_type T1)
  (Hc1 : dev_type (a_dev T1) = 0) (Hc2 : dev_type (a_dev T2) = 0)
  (HT3 : valid T3) (Ht3 : a_type T3 = a_type T1) (Hd3 : a_dev T3 = a_dev T1)
  (Hmax : prodZ (a_dims T3) <= INT_MAX).
Let t := a_type T1.

Lemma matmul_vv_rule k :
  a_dims T1 = [k] -> a_dims T2 = [k] -> a_dims T3 = [1] -> k <= INT_MAX ->
  inner t k (fun q => at_ T1 [q]) (fun q => at_ T2 [q]) = Some (at_ T3 [0]) ->
  makes_or_nomem (aitisa_matmul (HPtr p1) (HPtr p2) o) E s o T3.
Proof using All.
  intros D1 D2 D3 Hk Hin. apply Qmakes_elim. unfold aitisa_matmul.
  open_holds H1 Hv1 Hx1. open_holds H2 Hv2 Hx2. rewrite Hty in *. rewrite D1 in Hv1. rewrite D2 in Hv2.
  eapply wp_step; [by eapply tensor_device_ok|].
  eapply wp_step; [by eapply tensor_device_ok|].
  unfold not_cpu. rewrite Hc1, Hc2. cbn [DEVICE_CPU negb orb Z.eqb].
  eapply wp_step; [by eapply tensor_ndim_ok|].
  eapply wp_step; [by eapply tensor_ndim_ok|]. cbn [length andb orb Z.eqb Z.of_nat Pos.eqb Pos.of_succ_nat Pos.succ].
  unfold matmul_vv.
  eapply wp_step; [by eapply tensor_dim_ok|].
  eapply wp_step; [by eapply tensor_dim_ok|]. rewrite Z.eqb_refl. cbn [negb].
  assert (fits (tsz (a_type T1)) [1]) as Hfit by (rewrite <-D3, <-Ht3; apply valid_fits, HT3).
  apply wp_bind. eapply zeros_rule; [done|exact H1|exact Hfit|rewrite <-D3; exact Hmax|done| |].
  2:{ intros s' Hn Hks. cbv beta match. rewrite bool_decide_eq_false_2 by done. apply wp_ret. right. done. }
  intros s' q pd pm ps px Ht Hr. cbv beta match. rewrite bool_decide_eq_true_2 by done. cbn [negb].
  pose proof (view_mono _ _ _ _ _ _ _ _ (tnew_base _ _ Ht) Hv1) as Hv1'.
  pose proof (view_mono _ _ _ _ _ _ _ _ (tnew_base _ _ Ht) Hv2) as Hv2'.
  eapply wp_step; [by eapply tensor_dtype_ok|].
  eapply wp_step; [by eapply tensor_data_ok|].
  eapply wp_step; [by eapply tensor_data_ok|].
  eapply wp_step; [by eapply tensor_data_ok, tnew_view|].
  unfold vv_template. rewrite dispatch_all_t. apply wp_bind. apply wp_bind.
  assert (0 <= k) as Hk0.
  { pose proof (valid_fits _ (proj1 H1)) as [HF _]. rewrite D1 in HF. by inversion HF. }
  rewrite <-(Z2Nat.id k) by done.
  eapply wp_mono.
  {
    eapply (vv_kernel_ok Hx1 Hx2 s' (at_ T3 [0]) (Z.to_nat k) (fun q => at_ T1 [q]) (fun q => at_ T2 [q]));
      [exact Ht|lia| |exact Hin].
    intros i Hi. split; [by eapply (at_vec T1 k); [apply H1| |]|by eapply (at_vec T2 k); [apply H2| |]]. }
  intros [] s2 [Ht2 Hr2]. apply wp_ret. apply wp_ret. left. exists q. split; [done|].
  rewrite <-(at_eta T3), Ht3, Hd3, D3.
  eapply tnew_makes; [done| | |congruence].
  - rewrite <-D3, <-Ht3, <-Hd3, at_eta. done.
  - replace (a_vals T3) with [at_ T3 [0]]; [exact Ht2|].
    pose proof (valid_len _ HT3) as Hl. rewrite D3 in Hl. unfold prodZ in Hl. cbn in Hl.
    rewrite (at_1 _ _ _ D3). destruct (a_vals T3) as [|y [|]]; cbn in Hl; [lia|done|lia].
Qed.

Lemma matmul_mv_rule m k :
  a_dims T1 = [m; k] -> a_dims T2 = [k] -> a_dims T3 = [m] -> k <= INT_MAX ->
  (forall i, 0 <= i < m ->
     inner t k (fun q => at_ T1 [i; q]) (fun q => at_ T2 [q]) = Some (at_ T3 [i])) ->
  makes_or_nomem (aitisa_matmul (HPtr p1) (HPtr p2) o) E s o T3.
Proof using All.
  intros D1 D2 D3 Hk Hin. apply Qmakes_elim. unfold aitisa_matmul.
  open_holds H1 Hv1 Hx1. open_holds H2 Hv2 Hx2. rewrite Hty in *. rewrite D1 in Hv1. rewrite D2 in Hv2.
  eapply wp_step; [by eapply tensor_device_ok|].
  eapply wp_step; [by eapply tensor_device_ok|].
  unfold not_cpu. rewrite Hc1, Hc2. cbn [DEVICE_CPU negb orb Z.eqb].
  eapply wp_step; [by eapply tensor_ndim_ok|].
  eapply wp_step; [by eapply tensor_ndim_ok|]. cbn [length andb orb Z.eqb Z.of_nat Pos.eqb Pos.of_succ_nat Pos.succ].
  unfold matmul_mv.
  eapply wp_step; [by eapply tensor_dim_ok|].
  eapply wp_step; [by eapply tensor_dim_ok|].
  eapply wp_step; [by eapply tensor_dim_ok|]. rewrite Z.eqb_refl. cbn [negb].
  assert (fits (tsz (a_type T1)) [m]) as Hfit by (rewrite <-D3, <-Ht3; apply valid_fits, HT3).
  apply wp_bind. eapply zeros_rule; [done|exact H1|exact Hfit|rewrite <-D3; exact Hmax|done| |].
  2:{ intros s' Hn Hks. cbv beta match. rewrite bool_decide_eq_false_2 by done. apply wp_ret. right. done. }
  intros s' q pd pm ps px Ht Hr. cbv beta match. rewrite bool_decide_eq_true_2 by done. cbn [negb].
  pose proof (view_mono _ _ _ _ _ _ _ _ (tnew_base _ _ Ht) Hv1) as Hv1'.
  pose proof (view_mono _ _ _ _ _ _ _ _ (tnew_base _ _ Ht) Hv2) as Hv2'.
  eapply wp_step; [by eapply tensor_dtype_ok|].
  eapply wp_step; [by eapply tensor_data_ok|].
  eapply wp_step; [by eapply tensor_data_ok|].
  eapply wp_step; [by eapply tensor_data_ok, tnew_view|].
  unfold mv_template. rewrite dispatch_all_t. apply wp_bind. apply wp_bind.
  assert (0 <= m /\ 0 <= k) as [Hm0 Hk0].
  { pose proof (valid_fits _ (proj1 H1)) as [HF _]. rewrite D1 in HF.
    inversion HF as [|? ? ? HF']. by inversion HF'. }
  assert (prodZ [m] = m) as Hpm by (unfold prodZ; cbn; lia). rewrite Hpm in Ht.
  assert (length (a_vals T3) = Z.to_nat m) as Hl by (rewrite <-(valid_len_nat _ HT3), D3, Hpm; done).
  rewrite D3, Hpm in Hmax.
  rewrite <-(Z2Nat.id k), <-(Z2Nat.id m) by done.
  eapply wp_mono.
  {
    eapply (mv_kernel_ok Hx1 Hx2 s' (a_vals T3) (Z.to_nat m) (Z.to_nat k)
      (fun i q => at_ T1 [Z.of_nat i; q]) (fun i q => at_ T2 [q])); [exact Ht|done|lia|lia| |].
    - intros i j Hi Hj. split; [by eapply (at_mat T1 m k); [apply H1| | |]|by eapply (at_vec T2 k); [apply H2| |]].
    - intros i Hi. rewrite (at_vec T3 m) by done. rewrite <-inner_psum. apply Hin. lia. }
  intros [] s2 [Ht2 Hr2]. apply wp_ret. apply wp_ret. left. exists q. split; [done|].
  rewrite <-(at_eta T3), Ht3, Hd3, D3.
  eapply tnew_makes; [done| |exact Ht2|congruence].
  rewrite <-D3, <-Ht3, <-Hd3, at_eta. done.
Qed.

Lemma matmul_mm_rule m k n :
  a_dims T1 = [m; k] -> a_dims T2 = [k; n] -> a_dims T3 = [m; n] ->
  m <= INT_MAX -> k <= INT_MAX -> n <= INT_MAX ->
  (forall i j, 0 <= i < m -> 0 <= j < n ->
     inner t k (fun q => at_ T1 [i; q]) (fun q => at_ T2 [q; j]) = Some (at_ T3 [i; j])) ->
  makes_or_nomem (aitisa_matmul (HPtr p1) (HPtr p2) o) E s o T3.
Proof using All.
  intros D1 D2 D3 Hm Hk Hn Hin. apply Qmakes_elim. unfold aitisa_matmul.
  open_holds H1 Hv1 Hx1. open_holds H2 Hv2 Hx2. rewrite Hty in *. rewrite D1 in Hv1. rewrite D2 in Hv2.
  eapply wp_step; [by eapply tensor_device_ok|].
  eapply wp_step; [by eapply tensor_device_ok|].
  unfold not_cpu. rewrite Hc1, Hc2. cbn [DEVICE_CPU negb orb Z.eqb].
  eapply wp_step; [by eapply tensor_ndim_ok|].
  eapply wp_step; [by eapply tensor_ndim_ok|]. cbn [length andb orb Z.eqb Z.of_nat Pos.eqb Pos.of_succ_nat Pos.succ].
  unfold matmul_mm.
  eapply wp_step; [by eapply tensor_dim_ok|].
  eapply wp_step; [by eapply tensor_dim_ok|].
  eapply wp_step; [by eapply tensor_dim_ok|].
  eapply wp_step; [by eapply tensor_dim_ok|]. rewrite Z.eqb_refl. cbn [negb].
  assert (fits (tsz (a_type T1)) [m; n]) as Hfit by (rewrite <-D3, <-Ht3; apply valid_fits, HT3).
  apply wp_bind. eapply zeros_rule; [done|exact H1|exact Hfit|rewrite <-D3; exact Hmax|done| |].
  2:{ intros s' Hnm Hks. cbv beta match. rewrite bool_decide_eq_false_2 by done. apply wp_ret. right. done. }
  intros s' q pd pm ps px Ht Hr. cbv beta match. rewrite bool_decide_eq_true_2 by done. cbn [negb].
  pose proof (view_mono _ _ _ _ _ _ _ _ (tnew_base _ _ Ht) Hv1) as Hv1'.
  pose proof (view_mono _ _ _ _ _ _ _ _ (tnew_base _ _ Ht) Hv2) as Hv2'.
  eapply wp_step; [by eapply tensor_dtype_ok|].
  eapply wp_step; [by eapply tensor_data_ok|].
  eapply wp_step; [by eapply tensor_data_ok|].
  eapply wp_step; [by eapply tensor_data_ok, tnew_view|].
  unfold mm_template. rewrite dispatch_all_t. apply wp_bind. apply wp_bind.
  assert (0 <= m /\ 0 <= k) as [Hm0 Hk0].
  { pose proof (valid_fits _ (proj1 H1)) as [HF _]. rewrite D1 in HF.
    inversion HF as [|? ? ? HF']. by inversion HF'. }
  assert (0 <= n) as Hn0.
  { destruct Hfit as [HF _]. inversion HF as [|? ? ? HF']. by inversion HF'. }
  assert (prodZ [m; n] = m * n) as Hpm by (unfold prodZ; cbn; lia). rewrite Hpm in Ht.
  assert (length (a_vals T3) = Z.to_nat m * Z.to_nat n)%nat as Hl
    by (rewrite <-(valid_len_nat _ HT3), D3, Hpm; nia).
  rewrite <-(Z2Nat.id k), <-(Z2Nat.id m), <-(Z2Nat.id n) by done.
  eapply wp_mono.
  {
    eapply (mm_kernel_ok Hx1 Hx2 s' (a_vals T3) 0 0 0 (Z.to_nat m) (Z.to_nat k) (Z.to_nat n) 0 0 0
      (fun i j q => at_ T1 [Z.of_nat i; q]) (fun i j q => at_ T2 [q; Z.of_nat j]));
      [ |lia|lia|lia|lia|lia|lia|lia| |].
    - rewrite prog_0, Hl. replace (Z.to_nat m * Z.to_nat n)%nat with (Z.to_nat (m * n)) by nia. exact Ht.
    - intros i j y Hi Hj Hy. cbn [Nat.add].
      split; [by eapply (at_mat T1 m k); [apply H1| | |]|by eapply (at_mat T2 k n); [apply H2| | |]].
    - intros i j Hi Hj. cbn [Nat.add]. rewrite (at_mat T3 m n) by done. rewrite <-inner_psum. apply Hin; lia. }
  intros [] s2 [Ht2 Hr2]. apply wp_ret. apply wp_ret. left. exists q. split; [done|].
  rewrite <-(at_eta T3), Ht3, Hd3, D3. rewrite prog_full in Ht2 by lia.
  eapply tnew_makes; [done| |exact Ht2|congruence].
  rewrite <-D3, <-Ht3, <-Hd3, at_eta. done.
Qed.

Lemma matmul_vm_rule k n :
  a_dims T1 = [k] -> a_dims T2 = [k; n] -> a_dims T3 = [n] ->
  k <= INT_MAX ->
  (forall j, 0 <= j < n ->
     inner t k (fun q => at_ T1 [q]) (fun q => at_ T2 [q; j]) = Some (at_ T3 [j])) ->
  makes_or_nomem (aitisa_matmul (HPtr p1) (HPtr p2) o) E s o T3.
Proof using All.
  intros D1 D2 D3 Hk Hin. apply Qmakes_elim. unfold aitisa_matmul.
  open_holds H1 Hv1 Hx1. open_holds H2 Hv2 Hx2. rewrite Hty in *. rewrite D1 in Hv1. rewrite D2 in Hv2.
  eapply wp_step; [by eapply tensor_device_ok|].
  eapply wp_step; [by eapply tensor_device_ok|].
  unfold not_cpu. rewrite Hc1, Hc2. cbn [DEVICE_CPU negb orb Z.eqb].
  eapply wp_step; [by eapply tensor_ndim_ok|].
  eapply wp_step; [by eapply tensor_ndim_ok|]. cbn [length andb orb Z.eqb Z.of_nat Pos.eqb Pos.of_succ_nat Pos.succ].
  unfold matmul_vm.
  eapply wp_step; [by eapply tensor_dim_ok|].
  eapply wp_step; [by eapply tensor_dim_ok|].
  eapply wp_step; [by eapply tensor_dim_ok|]. rewrite Z.eqb_refl. cbn [negb].
  assert (fits (tsz (a_type T1)) [n]) as Hfit by (rewrite <-D3, <-Ht3; apply valid_fits, HT3).
  apply wp_bind. eapply zeros_rule; [done|exact H1|exact Hfit|rewrite <-D3; exact Hmax|done| |].
  2:{ intros s' Hnm Hks. cbv beta match. rewrite bool_decide_eq_false_2 by done. apply wp_ret. right. done. }
  intros s' q pd pm ps px Ht Hr. cbv beta match. rewrite bool_decide_eq_true_2 by done. cbn [negb].
  pose proof (view_mono _ _ _ _ _ _ _ _ (tnew_base _ _ Ht) Hv1) as Hv1'.
  pose proof (view_mono _ _ _ _ _ _ _ _ (tnew_base _ _ Ht) Hv2) as Hv2'.
  eapply wp_step; [by eapply tensor_dtype_ok|].
  eapply wp_step; [by eapply tensor_data_ok|].
  eapply wp_step; [by eapply tensor_data_ok|].
  eapply wp_step; [by eapply tensor_data_ok, tnew_view|].
  unfold mm_template. rewrite dispatch_all_t. apply wp_bind. apply wp_bind.
  assert (0 <= k) as Hk0.
  { pose proof (valid_fits _ (proj1 H1)) as [HF _]. rewrite D1 in HF. by inversion HF. }
  assert (0 <= n) as Hn0.
  { destruct Hfit as [HF _]. by inversion HF. }
  assert (prodZ [n] = n) as Hpm by (unfold prodZ; cbn; lia). rewrite Hpm in Ht.
  assert (length (a_vals T3) = Z.to_nat n)%nat as Hl
    by (rewrite <-(valid_len_nat _ HT3), D3, Hpm; nia).
  rewrite D3, Hpm in Hmax. assert (1 <= INT_MAX) by done.
  rewrite <-(Z2Nat.id k), <-(Z2Nat.id n) by done.
  eapply wp_mono.
  {
    eapply (mm_kernel_ok Hx1 Hx2 s' (a_vals T3) 0 0 0 1 (Z.to_nat k) (Z.to_nat n) 0 0 0
      (fun i j q => at_ T1 [q]) (fun i j q => at_ T2 [q; Z.of_nat j]));
      [ |lia|lia|lia|lia|lia|lia|lia| |].
    - rewrite prog_0, Hl. exact Ht.
    - intros i j y Hi Hj Hy. replace i with 0%nat by lia. cbn [Nat.add Nat.mul].
      split; [by eapply (at_vec T1 k); [apply H1| |]|by eapply (at_mat T2 k n); [apply H2| | |]].
    - intros i j Hi Hj. replace i with 0%nat by lia. cbn [Nat.add Nat.mul].
      rewrite (at_vec T3 n) by done. rewrite <-inner_psum. apply Hin; lia. }
  intros [] s2 [Ht2 Hr2]. apply wp_ret. apply wp_ret. left. exists q. split; [done|].
  rewrite <-(at_eta T3), Ht3, Hd3, D3. rewrite prog_full in Ht2 by lia.
  eapply tnew_makes; [done| |exact Ht2|congruence].
  rewrite <-D3, <-Ht3, <-Hd3, at_eta. done.
Qed.
End rank12.

(** ** Rejections *)
Lemma matmul_not_cpu p1 p2 T1 T2 o E s :
  holds (heap s) p1 T1 -> holds (heap s) p2 T2 ->
  dev_type (a_dev T1) <> 0 \/ dev_type (a_dev T2) <> 0 ->
  refuses (aitisa_matmul (HPtr p1) (HPtr p2) o) E s o NOT_SUPPORTED.
Proof.
  intros (_ & bx & tg & ex & Hv & Hx) (_ & bx2 & tg2 & ex2 & Hv2 & Hx2) Hc. unfold refuses, aitisa_matmul.
  erewrite bind_done by (by eapply tensor_device_ok).
  erewrite bind_done by (by eapply tensor_device_ok).
  replace (not_cpu (a_dev T1) (a_dev T2)) with true; [done|].
  unfold not_cpu, DEVICE_CPU. symmetry. apply orb_true_iff. lia.
Qed.

(** The contracted extent of each operand. *)
Definition k_of1 (dims : list Z) : Z := default 0 (last dims).
Definition k_of2 (dims : list Z) : Z :=
  match dims with [k] => k | _ => default 0 (dims !! (length dims - 2)%nat) end.

Lemma matmul_mismatch p1 p2 T1 T2 o E s :
  holds (heap s) p1 T1 -> holds (heap s) p2 T2 ->
  dev_type (a_dev T1) = 0 -> dev_type (a_dev T2) = 0 ->
  a_dims T1 <> [] -> a_dims T2 <> [] -> k_of1 (a_dims T1) <> k_of2 (a_dims T2) ->
  refuses (aitisa_matmul (HPtr p1) (HPtr p2) o) E s o DIMENSIONS_MISMATCH.
Proof.
  intros (_ & bx & tg & ex & Hv & Hx) (_ & bx2 & tg2 & ex2 & Hv2 & Hx2) Hc1 Hc2 N1 N2 Hk.
  unfold refuses, aitisa_matmul.
  erewrite bind_done by (by eapply tensor_device_ok).
  erewrite bind_done by (by eapply tensor_device_ok).
  unfold not_cpu. rewrite Hc1, Hc2. cbn [DEVICE_CPU negb orb Z.eqb].
  erewrite bind_done by (by eapply tensor_ndim_ok).
  erewrite bind_done by (by eapply tensor_ndim_ok).
  assert (forall i d, a_dims T1 !! i = Some d -> tensor_dim (HPtr p1) (Z.of_nat i) E s = Done d s) as G1.
  { intros i d Hd. eapply tensor_dim_ok; [done|lia|]. by rewrite Nat2Z.id. }
  assert (forall i d, a_dims T2 !! i = Some d -> tensor_dim (HPtr p2) (Z.of_nat i) E s = Done d s) as G2.
  { intros i d Hd. eapply tensor_dim_ok; [done|lia|]. by rewrite Nat2Z.id. }
  remember (a_dims T1) as d1. remember (a_dims T2) as d2.
  (* operands of rank >= 2 give their two last extents *)
  assert (forall ds : list Z, (2 <= length ds)%nat -> exists a b,
    ds !! (length ds - 2)%nat = Some a /\ ds !! (length ds - 1)%nat = Some b /\ last ds = Some b) as Hlast.
  { intros ds Hl. destruct (lookup_lt_is_Some_2 ds (length ds - 2)) as [a Ha]; [lia|].
    destruct (lookup_lt_is_Some_2 ds (length ds - 1)) as [b Hb]; [lia|].
    exists a, b. split_and!; [done|done|]. rewrite last_lookup. replace (pred (length ds)) with (length ds - 1)%nat by lia. done. }
  destruct (decide (length d1 = 1)%nat) as [L1|L1]; destruct (decide (length d2 = 1)%nat) as [L2|L2].
  - destruct d1 as [|k1 [|]]; [done| |done]. destruct d2 as [|k2 [|]]; [done| |done].
    cbn [length]. change (Z.of_nat 1 =? 1) with true. cbn [andb]. unfold matmul_vv.
    erewrite bind_done by (by apply (G1 0%nat)). erewrite bind_done by (by apply (G2 0%nat)).
    cbn in Hk. destruct (Z.eqb_spec k1 k2); [done|]. done.
  - destruct d1 as [|k1 [|]]; [done| |done].
    assert (2 <= length d2)%nat as L by (destruct d2 as [|? [|]]; cbn in *; [done|done|lia]).
    destruct (Hlast _ L) as (a & b & Ha & Hb & Hl).
    assert (k1 <> a) as Hne.
    { unfold k_of1, k_of2 in Hk. rewrite Ha in Hk. destruct d2 as [|? [|]]; [done|done|]. done. }
    cbn [length]. change (Z.of_nat 1 =? 1) with true. cbn [andb].
    replace (Z.of_nat (length d2) =? 1) with false by lia. cbn [andb].
    change (Z.of_nat 1 =? 2) with false. cbn [andb].
    destruct (Z.eqb_spec (Z.of_nat (length d2)) 2) as [L3|L3].
    + unfold matmul_vm. erewrite bind_done by (by apply (G1 0%nat)).
      replace (length d2 - 2)%nat with 0%nat in Ha by lia. replace (length d2 - 1)%nat with 1%nat in Hb by lia.
      erewrite bind_done by (by apply (G2 0%nat)). erewrite bind_done by (by apply (G2 1%nat)).
      destruct (Z.eqb_spec k1 a); [done|]. done.
    + change (3 <=? Z.of_nat 1) with false. cbn [andb].
      replace (3 <=? Z.of_nat (length d2)) with true by lia.
      unfold matmul_vt. erewrite bind_done by (by apply (G1 0%nat)).
      replace (Z.of_nat (length d2) - 2) with (Z.of_nat (length d2 - 2)) by lia.
      replace (Z.of_nat (length d2) - 1) with (Z.of_nat (length d2 - 1)) by lia.
      erewrite bind_done by (by apply G2). erewrite bind_done by (by apply G2).
      destruct (Z.eqb_spec k1 a); [done|]. done.
  - destruct d2 as [|k2 [|]]; [done| |done].
    assert (2 <= length d1)%nat as L by (destruct d1 as [|? [|]]; cbn in *; [done|done|lia]).
    destruct (Hlast _ L) as (a & b & Ha & Hb & Hl).
    assert (b <> k2) as Hne.
    { unfold k_of1, k_of2 in Hk. by rewrite Hl in Hk. }
    cbn [length]. change (Z.of_nat 1 =? 1) with true.
    replace (Z.of_nat (length d1) =? 1) with false by lia. rewrite ?andb_true_r. cbn [andb].
    destruct (Z.eqb_spec (Z.of_nat (length d1)) 2) as [L3|L3].
    + unfold matmul_mv.
      replace (length d1 - 2)%nat with 0%nat in Ha by lia. replace (length d1 - 1)%nat with 1%nat in Hb by lia.
      erewrite bind_done by (by apply (G1 0%nat)). erewrite bind_done by (by apply (G1 1%nat)).
      erewrite bind_done by (by apply (G2 0%nat)).
      destruct (Z.eqb_spec b k2); [done|]. done.
    + cbn [andb].
      replace (3 <=? Z.of_nat (length d1)) with true by lia.
      unfold matmul_tv.
      replace (Z.of_nat (length d1) - 2) with (Z.of_nat (length d1 - 2)) by lia.
      replace (Z.of_nat (length d1) - 1) with (Z.of_nat (length d1 - 1)) by lia.
      erewrite bind_done by (by apply G1). erewrite bind_done by (by apply G1).
      erewrite bind_done by (by apply (G2 0%nat)).
      destruct (Z.eqb_spec b k2); [done|]. done.
  - assert (2 <= length d1)%nat as La by (destruct d1 as [|? [|]]; cbn in *; [done|done|lia]).
    assert (2 <= length d2)%nat as Lb by (destruct d2 as [|? [|]]; cbn in *; [done|done|lia]).
    destruct (Hlast _ La) as (a & b & Ha & Hb & Hl).
    destruct (Hlast _ Lb) as (a' & b' & Ha' & Hb' & Hl').
    assert (b <> a') as Hne.
    { unfold k_of1, k_of2 in Hk. rewrite Hl, Ha' in Hk. destruct d2 as [|? [|]]; [done|done|]. done. }
    replace (Z.of_nat (length d1) =? 1) with false by lia.
    replace (Z.of_nat (length d2) =? 1) with false by lia. rewrite ?andb_false_r. cbn [andb].
    destruct (decide (length d1 = 2 /\ length d2 = 2)%nat) as [[L3 L4]|L3].
    + rewrite L3, L4 in *. change (Z.of_nat 2 =? 2) with true. cbn [andb]. unfold matmul_mm.
      erewrite bind_done by (by apply (G1 0%nat)). erewrite bind_done by (by apply (G1 1%nat)).
      erewrite bind_done by (by apply (G2 0%nat)). erewrite bind_done by (by apply (G2 1%nat)).
      destruct (Z.eqb_spec b a'); [done|]. done.
    + replace ((Z.of_nat (length d1) =? 2) && (Z.of_nat (length d2) =? 2)) with false by lia.
      replace ((3 <=? Z.of_nat (length d1)) && (2 <=? Z.of_nat (length d2))
       || (2 <=? Z.of_nat (length d1)) && (3 <=? Z.of_nat (length d2))) with true by lia.
      unfold matmul_tt.
      replace (Z.of_nat (length d1) - 2) with (Z.of_nat (length d1 - 2)) by lia.
      replace (Z.of_nat (length d1) - 1) with (Z.of_nat (length d1 - 1)) by lia.
      replace (Z.of_nat (length d2) - 2) with (Z.of_nat (length d2 - 2)) by lia.
      replace (Z.of_nat (length d2) - 1) with (Z.of_nat (length d2 - 1)) by lia.
      erewrite bind_done by (by apply G1). erewrite bind_done by (by apply G1).
      erewrite bind_done by (by apply G2). erewrite bind_done by (by apply G2).
      destruct (Z.eqb_spec b a'); [done|]. done.
Qed.

Lemma matmul_scalar p1 p2 T1 T2 o E s :
  holds (heap s) p1 T1 -> holds (heap s) p2 T2 ->
  dev_type (a_dev T1) = 0 -> dev_type (a_dev T2) = 0 ->
  a_dims T1 = [] \/ a_dims T2 = [] ->
  refuses (aitisa_matmul (HPtr p1) (HPtr p2) o) E s o INVALID_ARGUMENT.
Proof.
  intros (_ & bx & tg & ex & Hv & Hx) (_ & bx2 & tg2 & ex2 & Hv2 & Hx2) Hc1 Hc2 N.
  unfold refuses, aitisa_matmul.
  erewrite bind_done by (by eapply tensor_device_ok).
  erewrite bind_done by (by eapply tensor_device_ok).
  unfold not_cpu. rewrite Hc1, Hc2. cbn [DEVICE_CPU negb orb Z.eqb].
  erewrite bind_done by (by eapply tensor_ndim_ok).
  erewrite bind_done by (by eapply tensor_ndim_ok).
  assert (length (a_dims T1) = 0 \/ length (a_dims T2) = 0)%nat as L by (destruct N as [-> | ->]; auto).
  repeat match goal with |- context [if ?b then _ else _] => replace b with false by lia end. done.
Qed.

(** ** What the accumulated element is *)
Lemma wrap_eqm t z z' : z mod 2 ^ bits t = z' mod 2 ^ bits t -> wrap t z = wrap t z'.
Proof.
  intros H. unfold wrap. destruct (is_signed t); [|done].
  f_equal. rewrite <-(Zplus_mod_idemp_l z), <-(Zplus_mod_idemp_l z'). by rewrite H.
Qed.
Lemma int_op_congr t o x y r : is_float t = false -> int_op (promote t) o x y = Some r ->
  r mod 2 ^ bits t = op_int o x y mod 2 ^ bits t.
Proof.
  intros Ht Hr.
  assert ((if is_signed (promote t) then (if in_range (promote t) (op_int o x y) then Some (op_int o x y) else None)
    else Some (wrap (promote t) (op_int o x y))) = Some r) as Hr'.
  { unfold int_op in Hr. destruct o; try done. destruct (y =? 0); done. }
  clear Hr. generalize dependent (op_int o x y). intros z Hr.
  destruct t; try discriminate Ht; cbn [promote is_signed] in *; try (destruct (in_range _ _); congruence).
  - injection Hr as <-. apply wrap_congr.
  - injection Hr as <-. apply wrap_congr.
Qed.
Lemma sum_to_S h n : sum_to (S n) h = sum_to n h + h (Z.of_nat n).
Proof. unfold sum_to. rewrite seq_S, fmap_app, foldr_app. cbn. rewrite Z.add_0_r.
  generalize (h (Z.of_nat n)). induction (_ <$> seq 0 n) as [|x l IH]; intros y; cbn; [lia|]. rewrite IH. lia.
Qed.
Lemma inner_int t k (f g : Z -> Z) w : is_float t = false ->
  inner t k (fun q => VI (f q)) (fun q => VI (g q)) = Some w ->
  w = VI (wrap t (sum_to (Z.to_nat k) (fun q => f q * g q))).
Proof.
  intros Ht. rewrite inner_psum. generalize (Z.to_nat k) as n. intros n. revert w.
  induction n as [|n IH]; intros w.
  - cbn. intros [= <-]. unfold zero_val. rewrite Ht. by destruct t.
  - rewrite psum_S. destruct (psum t _ _ n) as [v|] eqn:Hv; [|done]. cbn [mbind option_bind].
    rewrite (IH v eq_refl). unfold mac_val. rewrite Ht.
    destruct (int_op (promote t) OpMul _ _) as [m|] eqn:Hm; [|done].
    destruct (int_op (promote t) OpAdd _ m) as [r|] eqn:Hr; [|done]. intros [= <-]. f_equal.
    apply int_op_congr in Hm; [|done]. apply int_op_congr in Hr; [|done]. apply wrap_eqm. cbn [op_int] in Hm, Hr.
    rewrite Hr, <-Zplus_mod_idemp_l, wrap_congr, Zplus_mod_idemp_l, <-Zplus_mod_idemp_r, Hm, Zplus_mod_idemp_r.
    by rewrite sum_to_S.
Qed.

Lemma mac_val_ok t c a b w : val_ok t c -> val_ok t a -> val_ok t b -> mac_val t c a b = Some w -> val_ok t w.
Proof.
  destruct c as [z|z|], a as [x|x|], b as [y|y|]; cbn [val_ok]; try done.
  - intros [Ht Hz] [_ Hx] [_ Hy]. unfold mac_val. rewrite Ht.
    destruct (int_op _ OpMul _ _) as [m|]; [|done]. destruct (int_op _ OpAdd _ _) as [r|]; [|done].
    intros [= <-]. split; [done|apply wrap_range].
  - intros [Ht Hz] [_ Hx] [_ Hy]. unfold mac_val. rewrite Ht. intros [= <-]. split; [done|].
    apply (flt_op_valid t OpAdd); [done|]. by apply (flt_op_valid t OpMul).
Qed.
Lemma zero_val_ok t : val_ok t (zero_val t).
Proof. by destruct t. Qed.
Lemma inner_ok t k f g w :
  (forall q, 0 <= q < k -> val_ok t (f q) /\ val_ok t (g q)) -> inner t k f g = Some w -> val_ok t w.
Proof.
  intros Hv. rewrite inner_psum. assert (Z.to_nat k <= Z.to_nat k)%nat as Hn by lia.
  revert Hn. generalize (Z.to_nat k) at 1 3 as n. intros n Hn. revert w.
  induction n as [|n IH]; intros w.
  - intros [= <-]. apply zero_val_ok.
  - rewrite psum_S. destruct (psum t f g n) as [v|] eqn:Hp; [|done]. cbn [mbind option_bind]. intros Hm.
    destruct (Hv (Z.of_nat n)) as [H1 H2]; [lia|].
    eapply mac_val_ok; [|exact H1|exact H2|exact Hm]. apply IH; [lia|done].
Qed.
(** int8, uint8, int16, uint32, uint64, float and double inner products are
    always defined. *)
Definition mac_total (t : tcode) : Prop := t ∈ [I8; U8; I16; U32; U64; F32; F64].
Lemma mac_val_total t c a b : mac_total t -> val_ok t c -> val_ok t a -> val_ok t b ->
  exists w, mac_val t c a b = Some w.
Proof.
  intros Hin. destruct c as [z|z|], a as [x|x|], b as [y|y|]; cbn [val_ok]; try done;
    try (intros [? _] [? _] [? _]; congruence).
  - intros [Ht Hz] [_ Hx] [_ Hy]. unfold mac_val. rewrite Ht. unfold mac_total in Hin.
    rewrite !elem_of_cons, elem_of_nil in Hin.
    assert (t = U32 \/ t = U64 \/ promote t = I32 /\
      (-32768 <= x <= 32767 /\ -32768 <= y <= 32767 /\ -32768 <= z <= 32767)) as [->|[->|[Hp (H1 & H2 & H3)]]].
    { unfold tmin, tmax in *; unfold bits in *.
      destruct Hin as [->|[->|[->|[->|[->|[->|[->|[]]]]]]]]; cbn in Hx, Hy, Hz; try done; auto; right; right;
        (split; [done|lia]). }
    + by eexists.
    + by eexists.
    + rewrite Hp. unfold int_op. cbn [is_signed].
      replace (in_range I32 (x * y)) with true.
      2:{ symmetry. apply in_range_spec. unfold tmin, tmax; unfold bits; cbn. nia. }
      replace (in_range I32 (z + x * y)) with true; [by eexists|].
      symmetry. apply in_range_spec. unfold tmin, tmax; unfold bits; cbn. nia.
  - intros [Ht Hz] _ _. unfold mac_val. rewrite Ht. by eexists.
Qed.
Lemma inner_total t k f g : mac_total t ->
  (forall q, 0 <= q < k -> val_ok t (f q) /\ val_ok t (g q)) -> exists w, inner t k f g = Some w.
Proof.
  intros Ht Hv. rewrite inner_psum. assert (Z.to_nat k <= Z.to_nat k)%nat as Hn by lia.
  revert Hn. generalize (Z.to_nat k) at 1 3 as n. intros n Hn.
  induction n as [|n IH]; [by eexists|].
  destruct IH as [v Hp]; [lia|]. rewrite psum_S, Hp. cbn [mbind option_bind].
  destruct (Hv (Z.of_nat n)) as [H1 H2]; [lia|]. apply mac_val_total; [done| |done|done].
  eapply (inner_ok t (Z.of_nat n) f g); [|by rewrite inner_psum, Nat2Z.id]. intros q Hq. apply Hv. lia.
Qed.
