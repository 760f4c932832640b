(** * ProofBatch: batched products outside their domain *)
From stdpp Require Import gmap list.
From Coq Require Import ZArith Lia Floats.SpecFloat.
From Coq Require Import ZifyBool ZifyNat.
From Verif Require Import Base Mem Spec SpecBatch ModelCore ModelBasic ModelMath Logic ProofCore ProofCore2 ProofCore3
  ProofKernel ProofBasic ProofIndex ProofLayout ProofBroadcast ProofBasic2 ProofSqueeze ProofKernel2 ProofSlice ProofFrame ProofMatmul
  ProofMatmul2 ProofMatmul3 ProofExact ProofProduct.
Open Scope Z_scope.

Ltac Zify.zify_post_hook ::= Z.div_mod_to_equations.

(** ** Steps of a run that ends in undefined behaviour *)
Lemma ub_step {A B} (m : M A) (k : A -> M B) E s a s' u : m E s = Done a s' -> k a E s' = UB u -> bind m k E s = UB u.
Proof. intros H1 H2. by erewrite bind_done by exact H1. Qed.
Lemma scratch_all E s n : alloc_all E -> 0 <= n <= PTRDIFF_MAX ->
  scratch n E s = Done (HPtr (ctr s)) (st_alloc s (Blk (e_alloc E) (CRaw n))).
Proof.
  intros HA Hn. unfold scratch. destruct (raw_alloc_cases n CRaw E s Hn) as [Ha|[Hna _]]; [done|]. by destruct Hna.
Qed.
Section ub_frame.
Context {E : env} {lo : nat} {base h : gmap nat block} {s : st} {p pd pm ps px : nat} {t : dtype} {dev : device} {dims : list Z} {l : list mv}.
Let T h s := tnew (e_alloc E) lo h s p pd pm ps px t dev dims l.
Lemma ub_scr {B} L n (k : hval -> M B) u :
  alloc_all E -> 0 <= n <= PTRDIFF_MAX -> T h s -> frame (e_alloc E) L base h ->
  (forall b h' s', T h' s' -> frame (e_alloc E) (b :: L) base h' -> rpos s' = rpos s -> h ⊆ h' -> k (HPtr b) E s' = UB u) ->
  bind (scratch n) k E s = UB u.
Proof using Type.
  intros HA Hn HT HF Hk. eapply ub_step; [by apply scratch_all|].
  apply (Hk (ctr s) (<[ctr s := Blk (e_alloc E) (CRaw n)]> h)).
  - by apply tnew_alloc.
  - apply frame_alloc; [done| |done]. by eapply tnew_fresh.
  - done.
  - apply insert_subseteq. by eapply tnew_fresh.
Qed.
End ub_frame.
Lemma ub_scr0 {E : env} {base : gmap nat block} {s : st} {B} L n (k : hval -> M B) u :
  alloc_all E -> 0 <= n <= PTRDIFF_MAX -> wf s -> frame (e_alloc E) L base (heap s) ->
  (forall b s', wf s' -> frame (e_alloc E) (b :: L) base (heap s') -> rpos s' = rpos s ->
     (ctr s <= ctr s')%nat -> heap s ⊆ heap s' -> k (HPtr b) E s' = UB u) ->
  bind (scratch n) k E s = UB u.
Proof.
  intros HA Hn Hwf HF Hk. eapply ub_step; [by apply scratch_all|]. apply Hk.
  - by apply wf_alloc.
  - cbn. apply frame_alloc; [done| |done]. by apply wf_fresh.
  - done.
  - cbn. lia.
  - cbn. apply insert_subseteq. by apply wf_fresh.
Qed.

(** ** The loop over the batches, up to the first bad one *)
Section batches.
Context {E : env} {lo : nat} {base : gmap nat block} {q pd pm ps px : nat}
  {t : tcode} {dev : device} {dims : list Z}.
Let TN h s' vs := tnew (e_alloc E) lo h s' q pd pm ps px (dtype_of t) dev dims (cells t vs).
Context {p1 p2 bA tgA bB tgB : nat} {dt2 : dtype} {dev1 dev2 : device} {dims1 dims2 ord1 ord2 : list Z}
  {vA vB : list val} {exA exB : list mv}.
Context (HV1 : view base p1 (dtype_of t) dev1 dims1 ord1 bA)
        (HV2 : view base p2 dt2 dev2 dims2 ord2 bB)
        (HA : base !! bA = Some (Blk tgA (CData (cells t vA ++ exA))))
        (HB : base !! bB = Some (Blk tgB (CData (cells t vB ++ exB)))).

Lemma batches_stuck (s : st) (h : gmap nat block) L N (nb m k n : nat) mat1 mat2 mat3 offs (x1 x2 : nat -> nat)
    (f g : nat -> nat -> nat -> Z -> val) j :
  alloc_all E ->
  TN h s (replicate N (zero_val t)) -> frame (e_alloc E) L base h ->
  N = (nb * (m * n))%nat -> Z.of_nat N * 8 <= INT64_MAX -> 8 * Z.of_nat nb <= PTRDIFF_MAX ->
  mat3 = Z.of_nat (m * n) -> 0 <= mat1 -> 0 <= mat2 ->
  (forall b s', (b < nb)%nat -> offs (Z.of_nat b) E s' = Done (Z.of_nat (x1 b), Z.of_nat (x2 b)) s') ->
  (forall b, (b < nb)%nat -> Z.of_nat (x1 b) * mat1 * Z.of_nat (tsz t) <= INT64_MAX /\
                             Z.of_nat (x2 b) * mat2 * Z.of_nat (tsz t) <= INT64_MAX) ->
  (forall b i j y, (b < nb)%nat -> (i < m)%nat -> (j < n)%nat -> (y < k)%nat ->
     vA !! (x1 b * Z.to_nat mat1 + i * k + y)%nat = Some (f b i j (Z.of_nat y)) /\
     vB !! (x2 b * Z.to_nat mat2 + y * n + j)%nat = Some (g b i j (Z.of_nat y))) ->
  (j < nb)%nat -> all_bad t (f j) (g j) m k n = true -> (forall b, (b < j)%nat -> all_bad t (f b) (g b) m k n = false) ->
  matmul_batches (HPtr p1) (HPtr p2) (HPtr q) (Z.of_nat nb) (Z.of_nat m) (Z.of_nat k) (Z.of_nat n)
       offs mat1 mat2 mat3 E s = UB UB_overflow.
Proof using HV1 HV2 HA HB.
  intros HAl HT HF Hlen Hbytes Hnb -> Hm1 Hm2 Hoffs Hov Hops Hj Hbad Hgood.
  unfold matmul_batches.
  eapply ub_scr; [done|lia|exact HT|exact HF|]. clear HT HF. intros b1 h1 s1 HT1 HF1 Hr1 Hsub1.
  eapply ub_scr; [done|lia|exact HT1|exact HF1|]. clear HT1 HF1. intros b2 h2 s2 HT2 HF2 Hr2 Hsub2.
  eapply ub_scr; [done|lia|exact HT2|exact HF2|]. clear HT2 HF2. intros b3 h3 s3 HT3 HF3 Hr3 Hsub3.
  pose proof (frame_sub _ _ HF3) as Hb3.
  pose proof (view_mono _ _ _ _ _ _ _ _ Hb3 HV1) as Hv1. pose proof (view_mono _ _ _ _ _ _ _ _ Hb3 HV2) as Hv2.
  pose proof (view_mono _ _ _ _ _ _ _ _ (tnew_base _ _ HT3) Hv1) as Hv1'.
  pose proof (view_mono _ _ _ _ _ _ _ _ (tnew_base _ _ HT3) Hv2) as Hv2'.
  eapply ub_step; [by eapply tensor_data_ok|].
  eapply ub_step; [by eapply tensor_data_ok|].
  eapply ub_step; [by eapply tensor_data_ok, tnew_view|].
  eapply ub_step; [by eapply tensor_dtype_ok|].
  set (oA := fun b => Z.of_nat (x1 b) * mat1 * Z.of_nat (tsz t)).
  set (oB := fun b => Z.of_nat (x2 b) * mat2 * Z.of_nat (tsz t)).
  set (oC := fun b => Z.of_nat b * Z.of_nat (m * n) * Z.of_nat (tsz t)).
  assert (1 <= Z.of_nat (tsz t) <= 8) as Hsz by (destruct t; cbn; lia).
  match goal with |- bind ?l _ _ _ = _ => assert (wp l E s3 (fun x s' => x = (oA <$> seq 0 nb, oB <$> seq 0 nb, oC <$> seq 0 nb) /\ s' = s3)) as Hl end.
  { eapply (for64_rule (fun i x s' => x = (oA <$> seq 0 i, oB <$> seq 0 i, oC <$> seq 0 i) /\ s' = s3) _ _ _ nb);
      [lia|done|].
    intros i x s' Hi [-> ->].
    destruct (Hov i Hi) as [Ho1 Ho2].
    eapply wp_step; [rewrite Z.add_0_l; by apply Hoffs|]. cbv beta match.
    cbn [dtype_of d_size].
    eapply wp_step; [apply ck64_ok; unfold INT64_MIN; nia|].
    eapply wp_step; [eapply touch_frame; [exact HT3|exact HF3|set_solver]|].
    eapply wp_step; [apply ck64_ok; unfold INT64_MIN; nia|].
    eapply wp_step; [eapply touch_frame; [exact HT3|exact HF3|set_solver]|].
    eapply wp_step.
    { apply ck64_ok. rewrite Z.add_0_l. unfold INT64_MIN. split; [nia|].
      assert (Z.of_nat i * Z.of_nat (m * n) <= Z.of_nat N); [|nia].
      rewrite Hlen. nia. }
    eapply wp_step; [eapply touch_frame; [exact HT3|exact HF3|set_solver]|].
    apply wp_ret. split; [|done]. rewrite seq_S, !fmap_app. cbn [fmap list_fmap]. rewrite Z.add_0_l. done. }
  apply wp_elim in Hl as (x & s' & Hl & -> & ->). eapply ub_step; [exact Hl|]. cbv beta match.
  unfold batch_mm_template. rewrite dispatch_all_t. apply bind_UB. apply bind_UB.
  unfold batch_mm_kernel, for64. replace (Z.to_nat (Z.of_nat nb - 0)) with nb by lia.
  apply (iter_ub (fun b _ s' => exists vs, TN h3 s' vs /\ length vs = N /\
      forall c, (b * (m * n) <= c)%nat -> (c < N)%nat -> vs !! c = Some (zero_val t)) _ _ _ _ _ _ j); [done| | |].
  { exists (replicate N (zero_val t)). split_and!; [exact HT3|apply replicate_length|].
    intros c _ Hc. by apply lookup_replicate_2. }
  all: assert (forall o b s', (b < nb)%nat -> aget (o <$> seq 0 nb) (0 + Z.of_nat b) E s' = Done (o b : Z) s') as Hget
    by (intros o b s' Hb; apply aget_Z; [lia|];
        rewrite Z.add_0_l, Nat2Z.id, list_lookup_fmap, lookup_seq_lt by done; done).
  - intros b [] s' Hb (vs & HT' & Hlv & Hz).
    eapply wp_step; [apply Hget; lia|]. eapply wp_step; [apply Hget; lia|]. eapply wp_step; [apply Hget; lia|].
    assert (b * (m * n) + m * n <= nb * (m * n))%nat as Hbb by nia.
    pose proof (mm_all (E := E) (tag := e_alloc E) (lo := lo) (p := q) (pd := pd) (pm := pm) (ps := ps) (px := px) (dev := dev) (dims := dims) (t := t) (lookup_weaken _ _ _ _ HA Hb3) (lookup_weaken _ _ _ _ HB Hb3) s' (rpos s') vs
        (x1 b * Z.to_nat mat1) (x2 b * Z.to_nat mat2) (b * (m * n)) m k n (oA b) (oB b) (oC b) (f b) (g b) HT' eq_refl) as Hk.
    rewrite Hgood in Hk by done.
    eapply wp_mono; [apply Hk|].
    + intros c Hc1 Hc2. apply Hz; lia.
    + lia.
    + unfold oA. rewrite Nat2Z.inj_mul, Z2Nat.id by done. done.
    + unfold oB. rewrite Nat2Z.inj_mul, Z2Nat.id by done. done.
    + unfold oC. rewrite (Nat2Z.inj_mul b). done.
    + intros i j' y Hi Hj' Hy. apply Hops; lia.
    + intros [] s'' (vs' & HT'' & _ & Hu). destruct Hu as (U1 & _ & _ & U4). exists vs'. split_and!; [done|lia|].
      intros c Hc1 Hc2. apply U4; lia.
  - intros [] s' (vs & HT' & Hlv & Hz).
    eapply ub_step; [apply Hget; lia|]. eapply ub_step; [apply Hget; lia|]. eapply ub_step; [apply Hget; lia|].
    assert (j * (m * n) + m * n <= nb * (m * n))%nat as Hbb by nia.
    pose proof (mm_all (E := E) (tag := e_alloc E) (lo := lo) (p := q) (pd := pd) (pm := pm) (ps := ps) (px := px) (dev := dev) (dims := dims) (t := t) (lookup_weaken _ _ _ _ HA Hb3) (lookup_weaken _ _ _ _ HB Hb3) s' (rpos s') vs
        (x1 j * Z.to_nat mat1) (x2 j * Z.to_nat mat2) (j * (m * n)) m k n (oA j) (oB j) (oC j) (f j) (g j) HT' eq_refl) as Hk.
    rewrite Hbad in Hk. apply Hk.
    + intros c Hc1 Hc2. apply Hz; lia.
    + lia.
    + unfold oA. rewrite Nat2Z.inj_mul, Z2Nat.id by done. done.
    + unfold oB. rewrite Nat2Z.inj_mul, Z2Nat.id by done. done.
    + unfold oC. rewrite (Nat2Z.inj_mul j). done.
    + intros i j' y Hi Hj' Hy. apply Hops; lia.
Qed.
End batches.

(** A batch that is not in order *)
Lemma bad_batch t bd m k n A B (f g : nat -> nat -> nat -> Z -> val) :
  Forall (fun d => 0 < d) bd -> 0 < m -> 0 < k -> 0 < n -> prodZ bd * (m * n) <= INT_MAX -> ~ batch_ok t bd m k n A B ->
  (forall b i j q, f b i j q = A (unravel bd (Z.of_nat b)) (Z.of_nat i) q) ->
  (forall b i j q, g b i j q = B (unravel bd (Z.of_nat b)) q (Z.of_nat j)) ->
  exists j, (j < Z.to_nat (prodZ bd))%nat /\ all_bad t (f j) (g j) (Z.to_nat m) (Z.to_nat k) (Z.to_nat n) = true /\
    forall b, (b < j)%nat -> all_bad t (f b) (g b) (Z.to_nat m) (Z.to_nat k) (Z.to_nat n) = false.
Proof.
  intros Hbd Hm Hk Hn Hmax Hno Hf Hg.
  destruct (first_index (fun b => all_bad t (f b) (g b) (Z.to_nat m) (Z.to_nat k) (Z.to_nat n)) (Z.to_nat (prodZ bd))) as [Hall|Hex]; [|exact Hex].
  exfalso. apply Hno. pose proof (prodZ_pos _ Hbd) as Hp. split; [done|]. split.
  - specialize (Hall 0%nat ltac:(lia)). apply all_bad_false in Hall as (_ & _ & H). destruct (H 0%nat 0%nat); lia.
  - intros c i j Hc Hi Hj. pose proof (ravel_bound _ _ Hc) as Hr.
    specialize (Hall (Z.to_nat (ravel bd c)) ltac:(lia)). apply all_bad_false in Hall as (_ & _ & H).
    destruct (H (Z.to_nat i) (Z.to_nat j)) as [_ H']; [lia|lia|]. rewrite inner_psum.
    erewrite psum_ext; [exact H'| |]; intros q; cbv beta.
    + rewrite Hf, !Z2Nat.id by lia. by rewrite unravel_ravel.
    + rewrite Hg, !Z2Nat.id by lia. by rewrite unravel_ravel.
Qed.

Section batched.
Context (p1 p2 : nat) (T1 T2 : atensor) (o : hval) (E : env) (s : st).
Context (Hwf : wf s) (HAl : alloc_all E)
  (H1 : holds (heap s) p1 T1) (H2 : holds (heap s) p2 T2)
  (Hty : a_type T2 = a_type T1)
  (Hc1 : dev_type (a_dev T1) = 0) (Hc2 : dev_type (a_dev T2) = 0)
  (Hp1 : Forall (fun d => 0 < d) (a_dims T1)) (Hp2 : Forall (fun d => 0 < d) (a_dims T2)).
Let t := a_type T1.

Lemma matmul_tv_stuck b1 m k :
  b1 <> [] -> a_dims T1 = b1 ++ [m; k] -> a_dims T2 = [k] -> fits (tsz t) (b1 ++ [m]) ->
  ~ batch_ok t b1 m k 1 (fun c i q => at_ T1 (c ++ [i; q])) (fun c q _ => at_ T2 [q]) ->
  aitisa_matmul (HPtr p1) (HPtr p2) o E s = UB UB_overflow.
Proof using All.
  intros Hb1 D1 D2 Hf3 Hno. unfold t in *. unfold aitisa_matmul.
  open_holds H1 Hv1 Hx1. open_holds H2 Hv2 Hx2. rewrite Hty in *.
  pose proof (valid_fits _ HvT) as Hf1. pose proof (fits_len _ _ Hf1) as Hn1.
  rewrite D1 in *. rewrite D2 in *.
  assert (0 < Z.of_nat (length b1)) as Hlb by (destruct b1; cbn in *; [done|lia]).
  assert (Z.of_nat (length (b1 ++ [m; k])) = Z.of_nat (length b1) + 2) as Hnd by (rewrite app_length; cbn; lia).
  eapply ub_step; [by eapply tensor_device_ok|].
  eapply ub_step; [by eapply tensor_device_ok|].
  unfold not_cpu. rewrite Hc1, Hc2. cbn [DEVICE_CPU negb orb Z.eqb].
  eapply ub_step; [by eapply tensor_ndim_ok|].
  eapply ub_step; [by eapply tensor_ndim_ok|]. 
  change (Z.of_nat (length [k]) =? 1) with true. change (Z.of_nat (length [k]) =? 2) with false.
  rewrite Hnd in *.
  replace (Z.of_nat (length b1) + 2 =? 1) with false by lia. replace (Z.of_nat (length b1) + 2 =? 2) with false by lia.
  replace (3 <=? Z.of_nat (length b1) + 2) with true by lia. cbn [andb].
  apply Forall_app in Hp1 as [Hpb Hpm]. inversion_clear Hpm as [|? ? Hm Hpk]. inversion_clear Hpk as [|? ? Hk _].
  unfold matmul_tv.
  assert (forall i d, (b1 ++ [m; k]) !! i = Some d -> forall s', heap s ⊆ heap s' -> 
    tensor_dim (HPtr p1) (Z.of_nat i) E s' = Done d s') as G1.
  { intros i d Hd s' Hs. eapply tensor_dim_ok; [by eapply view_mono|lia|]. by rewrite Nat2Z.id. }
  eapply ub_step.
  { replace (Z.of_nat (length b1) + 2 - 2) with (Z.of_nat (length b1)) by lia. apply G1; [|done].
    by rewrite list_lookup_middle. }
  eapply ub_step.
  { replace (Z.of_nat (length b1) + 2 - 1) with (Z.of_nat (length b1 + 1)) by lia. apply G1; [|done].
    rewrite lookup_app_r by lia. by replace (length b1 + 1 - length b1)%nat with 1%nat by lia. }
  eapply ub_step; [by eapply tensor_dim_ok|]. rewrite Z.eqb_refl. cbn [negb].
  pose proof (frame_nil (tag := e_alloc E) (base := heap s)) as HF.
  assert (INT_MAX <= PTRDIFF_MAX) as HIP by done. assert (8 * INT_MAX <= PTRDIFF_MAX) as HIP8 by done.
  eapply ub_scr0; [done|lia|done|exact HF|]. clear HF. intros pp s1 Hwf1 HF1 Hr1 Hct1 Hsub1.
  eapply ub_step.
  { eapply (for64_pure (fun i => take i (b1 ++ [m])) E 0 _ (length b1 + 1)); [done|lia|].
    intros i Hi. destruct (lookup_lt_is_Some_2 (b1 ++ [m]) i) as [d Hd]; [rewrite app_length; cbn; lia|].
    erewrite bind_done.
    2:{ rewrite Z.add_0_l. apply G1; [|exact Hsub1].
        change [m; k] with ([m] ++ [k]). rewrite app_assoc. by apply lookup_app_l_Some. }
    erewrite bind_done by (eapply touch_frame0; [exact HF1|set_solver]).
    by rewrite (take_S_r _ _ _ Hd). }
  rewrite take_ge by (rewrite app_length; cbn; lia).
  destruct (decide (INT_MAX < prodZ (b1 ++ [m]))) as [Hbig|Hmax].
  { apply bind_UB. eapply zeros_big; [done|done|eapply holds_mono; [exact Hsub1|exact H1]|exact Hf3|done|rewrite app_length; cbn; lia]. }
  destruct (zeros_done p1 T1 (b1 ++ [m]) (Z.of_nat (length (b1 ++ [m]))) o E s1) as (s2 & q & pd & pm & ps & px & Hz & Ht & Hr2);
    [done|done|eapply holds_mono; [exact Hsub1|exact H1]|exact Hf3|lia|done|].
  eapply ub_step.
  { rewrite <-Hz. f_equal. rewrite app_length; cbn; lia. }
  cbv beta match. rewrite bool_decide_eq_true_2 by done. cbn [negb].
  pose proof (view_mono _ _ _ _ _ _ _ _ (tnew_base _ _ Ht) (view_mono _ _ _ _ _ _ _ _ Hsub1 Hv1)) as Hv1'.
  eapply ub_step; [by eapply tensor_dims_ok|].
  eapply ub_step.
  { replace (Z.of_nat (length b1) + 2 - 2) with (Z.of_nat (length b1)) by lia. apply size_to_dim_ok.
    - eapply fits_prefixes; [|exact Hf1]. destruct (a_type T1); cbn; lia.
    - rewrite app_length. lia.
    - lia. }
  rewrite take_app.
  pose proof Hpb as Hpb'. pose proof (prodZ_pos _ Hpb') as Hpp.
  pose proof (fits_bytes _ _ Hf1) as Hby. rewrite prodZ_app in Hby.
  assert (prodZ [m; k] = m * k) as Hmk by (rewrite !prodZ_cons, prodZ_nil; lia). rewrite Hmk in Hby.
  assert (1 <= Z.of_nat (tsz (a_type T1)) <= 8) as Hsz by (destruct (a_type T1); cbn; lia).
  rewrite prodZ_snoc in Hmax.
  assert (prodZ b1 <= INT_MAX) as Hpi by nia.
  assert (0 <= m * k <= INT64_MAX) as Hmk64.
  { split; [nia|]. assert (m * k <= prodZ b1 * (m * k)) by nia. nia. }
  eapply ub_step; [apply ck64_ok; unfold INT64_MIN; lia|].
  eapply ub_step; [apply ck64_ok; unfold INT64_MIN, INT64_MAX; unfold INT_MAX in *; nia|].
  destruct (bad_batch _ b1 m k 1 _ _ (fun b i j y => at_ T1 (unravel b1 (Z.of_nat b) ++ [Z.of_nat i; y])) (fun b i j y => at_ T2 [y])
    Hpb' ltac:(lia) ltac:(lia) ltac:(lia) ltac:(nia) Hno ltac:(done) ltac:(done)) as (jb & Hjb & Hbad & Hgood).
  rewrite <-(Z2Nat.id (prodZ b1)), <-(Z2Nat.id m), <-(Z2Nat.id k) at 1 by lia.
  change 1 with (Z.of_nat 1). apply bind_UB.
  eapply (batches_stuck Hv1 Hv2 Hx1 Hx2 s2 (heap s1) [pp] _ _ _ _ _ _ _ _ _
    (fun b => b) (fun _ => 0%nat)
    (fun b i j y => at_ T1 (unravel b1 (Z.of_nat b) ++ [Z.of_nat i; y])) (fun b i j y => at_ T2 [y])).
  - done.
  - exact Ht.
  - exact HF1.
  - rewrite prodZ_snoc. nia.
  - rewrite prodZ_snoc. unfold INT64_MAX; unfold INT_MAX in *; nia.
  - lia.
  - nia.
  - nia.
  - lia.
  - done.
  - intros b Hb. split; [|nia]. nia.
  - intros b i j y Hb Hi Hj Hy.
    pose proof (unravel_in_box b1 (Z.of_nat b) Hpb') as Hbox.
    pose proof (ravel_unravel b1 (Z.of_nat b) Hpb' ltac:(lia)) as Hru.
    split.
    + pose proof (at_mat_app T1 b1 _ m k i y HvT D1 Hbox Hi Hy) as Hat. rewrite Hru, Nat2Z.id in Hat.
      rewrite <-Hat. f_equal. nia.
    + assert (j = 0)%nat as -> by lia. rewrite <-(at_vec T2 k y HvT0 D2 Hy). f_equal. lia.
  - exact Hjb.
  - exact Hbad.
  - exact Hgood.
Qed.

Lemma matmul_vt_stuck b2 k n :
  b2 <> [] -> a_dims T1 = [k] -> a_dims T2 = b2 ++ [k; n] -> fits (tsz t) (b2 ++ [n]) ->
  ~ batch_ok t b2 1 k n (fun c _ q => at_ T1 [q]) (fun c q j => at_ T2 (c ++ [q; j])) ->
  aitisa_matmul (HPtr p1) (HPtr p2) o E s = UB UB_overflow.
Proof using All.
  intros Hb2 D1 D2 Hf3 Hno. unfold t in *. unfold aitisa_matmul.
  open_holds H1 Hv1 Hx1. open_holds H2 Hv2 Hx2. rewrite Hty in *.
  pose proof (valid_fits _ HvT0) as Hf2. rewrite Hty in Hf2. pose proof (fits_len _ _ Hf2) as Hn2.
  rewrite D1 in *. rewrite D2 in *.
  assert (0 < Z.of_nat (length b2)) as Hlb by (destruct b2; cbn in *; [done|lia]).
  assert (Z.of_nat (length (b2 ++ [k; n])) = Z.of_nat (length b2) + 2) as Hnd by (rewrite app_length; cbn; lia).
  eapply ub_step; [by eapply tensor_device_ok|].
  eapply ub_step; [by eapply tensor_device_ok|].
  unfold not_cpu. rewrite Hc1, Hc2. cbn [DEVICE_CPU negb orb Z.eqb].
  eapply ub_step; [by eapply tensor_ndim_ok|].
  eapply ub_step; [by eapply tensor_ndim_ok|]. 
  change (Z.of_nat (length [k]) =? 1) with true. change (Z.of_nat (length [k]) =? 2) with false.
  change (3 <=? Z.of_nat (length [k])) with false.
  rewrite Hnd in *.
  replace (Z.of_nat (length b2) + 2 =? 1) with false by lia. replace (Z.of_nat (length b2) + 2 =? 2) with false by lia.
  replace (3 <=? Z.of_nat (length b2) + 2) with true by lia. cbn [andb].
  apply Forall_app in Hp2 as [Hpb Hpm]. inversion_clear Hpm as [|? ? Hk Hpn]. inversion_clear Hpn as [|? ? Hn _].
  unfold matmul_vt. cbv zeta.
  assert (forall i d, (b2 ++ [k; n]) !! i = Some d -> forall s', heap s ⊆ heap s' -> 
    tensor_dim (HPtr p2) (Z.of_nat i) E s' = Done d s') as G2.
  { intros i d Hd s' Hs. eapply tensor_dim_ok; [by eapply view_mono|lia|]. by rewrite Nat2Z.id. }
  assert ((b2 ++ [k; n]) !! (length b2 + 1)%nat = Some n) as Gn.
  { rewrite lookup_app_r by lia. by replace (length b2 + 1 - length b2)%nat with 1%nat by lia. }
  replace (Z.of_nat (length b2) + 2 - 2) with (Z.of_nat (length b2)) by lia.
  replace (Z.of_nat (length b2) + 2 - 1) with (Z.of_nat (length b2 + 1)) by lia.
  eapply ub_step; [by eapply tensor_dim_ok|].
  eapply ub_step; [apply G2; [by rewrite list_lookup_middle|done]|].
  eapply ub_step; [by apply G2|]. rewrite Z.eqb_refl. cbn [negb].
  pose proof (frame_nil (tag := e_alloc E) (base := heap s)) as HF.
  assert (INT_MAX <= PTRDIFF_MAX) as HIP by done. assert (8 * INT_MAX <= PTRDIFF_MAX) as HIP8 by done.
  eapply ub_scr0; [done|lia|done|exact HF|]. clear HF. intros pp s1 Hwf1 HF1 Hr1 Hct1 Hsub1.
  eapply ub_step.
  { eapply (for64_pure (fun i => take i b2) E 0 _ (length b2)); [done|lia|].
    intros i Hi. destruct (lookup_lt_is_Some_2 b2 i) as [d Hd]; [lia|].
    erewrite bind_done.
    2:{ rewrite Z.add_0_l. apply G2; [|exact Hsub1]. by apply lookup_app_l_Some. }
    erewrite bind_done by (eapply touch_frame0; [exact HF1|set_solver]).
    by rewrite (take_S_r _ _ _ Hd). }
  rewrite take_ge by lia.
  eapply ub_step; [by apply G2|]. 
  eapply ub_step; [eapply touch_frame0; [exact HF1|set_solver]|].
  destruct (decide (INT_MAX < prodZ (b2 ++ [n]))) as [Hbig|Hmax].
  { apply bind_UB. eapply zeros_big; [done|done|eapply holds_mono; [exact Hsub1|exact H1]|exact Hf3|done|rewrite app_length; cbn; lia]. }
  destruct (zeros_done p1 T1 (b2 ++ [n]) (Z.of_nat (length (b2 ++ [n]))) o E s1) as (s2 & q & pd & pm & ps & px & Hz & Ht & Hr2);
    [done|done|eapply holds_mono; [exact Hsub1|exact H1]|exact Hf3|lia|done|].
  eapply ub_step.
  { rewrite <-Hz. f_equal. rewrite app_length; cbn; lia. }
  cbv beta match. rewrite bool_decide_eq_true_2 by done. cbn [negb].
  pose proof (view_mono _ _ _ _ _ _ _ _ (tnew_base _ _ Ht) (view_mono _ _ _ _ _ _ _ _ Hsub1 Hv2)) as Hv2'.
  eapply ub_step; [by eapply tensor_dims_ok|].
  eapply ub_step.
  { apply size_to_dim_ok.
    - eapply fits_prefixes; [|exact Hf2]. destruct (a_type T1); cbn; lia.
    - rewrite app_length. lia.
    - lia. }
  rewrite take_app.
  pose proof Hpb as Hpb'. pose proof (prodZ_pos _ Hpb') as Hpp.
  pose proof (fits_bytes _ _ Hf2) as Hby. rewrite prodZ_app in Hby.
  assert (prodZ [k; n] = k * n) as Hmk by (rewrite !prodZ_cons, prodZ_nil; lia). rewrite Hmk in Hby.
  assert (1 <= Z.of_nat (tsz (a_type T1)) <= 8) as Hsz by (destruct (a_type T1); cbn; lia).
  rewrite prodZ_snoc in Hmax.
  assert (prodZ b2 <= INT_MAX) as Hpi by nia.
  assert (0 <= k * n <= INT64_MAX) as Hmk64.
  { split; [nia|]. assert (k * n <= prodZ b2 * (k * n)) by nia. nia. }
  eapply ub_step; [apply ck64_ok; unfold INT64_MIN; lia|].
  eapply ub_step; [apply ck64_ok; unfold INT64_MIN, INT64_MAX; unfold INT_MAX in *; nia|].
  destruct (bad_batch _ b2 1 k n _ _ (fun b i j y => at_ T1 [y]) (fun b i j y => at_ T2 (unravel b2 (Z.of_nat b) ++ [y; Z.of_nat j]))
    Hpb' ltac:(lia) ltac:(lia) ltac:(lia) ltac:(nia) Hno ltac:(done) ltac:(done)) as (jb & Hjb & Hbad & Hgood).
  rewrite <-(Z2Nat.id (prodZ b2)), <-(Z2Nat.id n), <-(Z2Nat.id k) at 1 by lia.
  change 1 with (Z.of_nat 1). apply bind_UB.
  eapply (batches_stuck Hv1 Hv2 Hx1 Hx2 s2 (heap s1) [pp] _ _ _ _ _ _ _ _ _
    (fun b => 0%nat) (fun b => b)
    (fun b i j y => at_ T1 [y]) (fun b i j y => at_ T2 (unravel b2 (Z.of_nat b) ++ [y; Z.of_nat j]))).
  - done.
  - exact Ht.
  - exact HF1.
  - rewrite prodZ_snoc. nia.
  - rewrite prodZ_snoc. unfold INT64_MAX; unfold INT_MAX in *; nia.
  - lia.
  - nia.
  - nia.
  - lia.
  - done.
  - intros b Hb. split; [nia|]. nia.
  - intros b i j y Hb Hi Hj Hy.
    pose proof (unravel_in_box b2 (Z.of_nat b) Hpb') as Hbox.
    pose proof (ravel_unravel b2 (Z.of_nat b) Hpb' ltac:(lia)) as Hru.
    split.
    + assert (i = 0)%nat as -> by lia. by rewrite <-(at_vec T1 k y HvT D1 Hy).
    + pose proof (at_mat_app T2 b2 _ k n y j HvT0 D2 Hbox Hy Hj) as Hat. rewrite Hru, Nat2Z.id in Hat.
      rewrite <-Hat. f_equal. nia.
  - exact Hjb.
  - exact Hbad.
  - exact Hgood.
Qed.

Lemma matmul_tt_stuck b1 b2 bd m k n :
  bd <> [] -> a_dims T1 = b1 ++ [m; k] -> a_dims T2 = b2 ++ [k; n] -> bcast b1 b2 = Some bd -> fits (tsz t) (bd ++ [m; n]) ->
  ~ batch_ok t bd m k n (fun c i q => at_ T1 (bproj b1 c ++ [i; q])) (fun c q j => at_ T2 (bproj b2 c ++ [q; j])) ->
  aitisa_matmul (HPtr p1) (HPtr p2) o E s = UB UB_overflow.
Proof using All.
  intros Hbd D1 D2 HB Hf3 Hno. unfold t in *. unfold aitisa_matmul.
  open_holds H1 Hv1 Hx1. open_holds H2 Hv2 Hx2. rewrite Hty in *.
  pose proof (valid_fits _ HvT) as Hf1. pose proof (fits_len _ _ Hf1) as Hn1.
  pose proof (valid_fits _ HvT0) as Hf2. rewrite Hty in Hf2. pose proof (fits_len _ _ Hf2) as Hn2.
  rewrite D1 in *. rewrite D2 in *.
  (* the joint batch shape *)
  unfold bcast in HB. destruct (bcast_rev (rev b1) (rev b2)) as [rb|] eqn:HB'; [|done]. injection HB as <-.
  apply Forall_app in Hp1 as [Hpb1 Hpm]. inversion_clear Hpm as [|? ? Hm Hpk]. inversion_clear Hpk as [|? ? Hk _].
  apply Forall_app in Hp2 as [Hpb2 Hpn]. inversion_clear Hpn as [|? ? _ Hpn']. inversion_clear Hpn' as [|? ? Hn _].
  pose proof Hpb1 as P1. pose proof Hpb2 as P2.
  pose proof (List.Forall_rev P1) as R1. pose proof (List.Forall_rev P2) as R2.
  pose proof (craw_bcast _ _ R1 R2) as Hcraw. rewrite HB' in Hcraw.
  pose proof (craw_length _ _ _ Hcraw) as Hlr. rewrite !rev_length in Hlr.
  destruct (bcast_rev_compat _ _ _ HB') as [C1 C2].
  assert (Forall (fun d => 0 < d) rb) as Prb.
  { clear -HB' R1 R2. revert HB'. generalize dependent (rev b2). generalize dependent (rev b1).
    intros l Hl. revert rb. induction Hl as [|a l Ha Hl IH]; intros rb k Hk; cbn [bcast_rev].
    - by intros [= <-].
    - destruct Hk as [|b k Hb Hk]; [intros [= <-]; by constructor|].
      destruct (bdim a b) as [x|] eqn:Hx; [|done]. destruct (bcast_rev l k) as [r|] eqn:Hr; [|done].
      intros [= <-]. constructor; [|by eapply IH].
      unfold bdim in Hx. destruct (a =? b), (a =? 1), (b =? 1); naive_solver. }
  set (bd := rev rb) in *.
  assert (length bd = Nat.max (length b1) (length b2)) as Hlbd by (unfold bd; by rewrite rev_length).
  assert (Forall (fun d => 0 < d) bd) as Pbd by (by apply List.Forall_rev).
  assert (rev bd = rb) as Hrbd by apply rev_involutive.
  assert (0 < Z.of_nat (length bd)) as Hlb by (destruct bd; cbn in *; [done|lia]).
  assert (Z.of_nat (length (b1 ++ [m; k])) = Z.of_nat (length b1) + 2) as Hnd1 by (rewrite app_length; cbn; lia).
  assert (Z.of_nat (length (b2 ++ [k; n])) = Z.of_nat (length b2) + 2) as Hnd2 by (rewrite app_length; cbn; lia).
  eapply ub_step; [by eapply tensor_device_ok|].
  eapply ub_step; [by eapply tensor_device_ok|].
  unfold not_cpu. rewrite Hc1, Hc2. cbn [DEVICE_CPU negb orb Z.eqb].
  eapply ub_step; [by eapply tensor_ndim_ok|].
  eapply ub_step; [by eapply tensor_ndim_ok|]. 
  rewrite Hnd1, Hnd2 in *.
  replace (Z.of_nat (length b1) + 2 =? 1) with false by lia.
  replace (Z.of_nat (length b2) + 2 =? 1) with false by lia.
  rewrite !andb_false_r. cbn [andb].
  replace ((Z.of_nat (length b1) + 2 =? 2) && (Z.of_nat (length b2) + 2 =? 2)) with false by lia.
  replace ((3 <=? Z.of_nat (length b1) + 2) && (2 <=? Z.of_nat (length b2) + 2)
      || (2 <=? Z.of_nat (length b1) + 2) && (3 <=? Z.of_nat (length b2) + 2)) with true by lia.
  unfold matmul_tt. cbv zeta.
  replace (Z.of_nat (length b1) + 2 - 2) with (Z.of_nat (length b1)) by lia.
  replace (Z.of_nat (length b1) + 2 - 1) with (Z.of_nat (length b1 + 1)) by lia.
  replace (Z.of_nat (length b2) + 2 - 2) with (Z.of_nat (length b2)) by lia.
  replace (Z.of_nat (length b2) + 2 - 1) with (Z.of_nat (length b2 + 1)) by lia.
  replace (Z.max (Z.of_nat (length b1) + 2) (Z.of_nat (length b2) + 2)) with (Z.of_nat (length bd) + 2) by lia.
  replace (Z.of_nat (length bd) + 2 - 2) with (Z.of_nat (length bd)) by lia.
  replace (Z.of_nat (length bd) + 2 - 1) with (Z.of_nat (length bd + 1)) by lia.
  replace (Z.max (Z.of_nat (length b1)) 0) with (Z.of_nat (length b1)) by lia.
  replace (Z.max (Z.of_nat (length b2)) 0) with (Z.of_nat (length b2)) by lia.
  assert (forall (l : list Z) x y, (l ++ [x; y]) !! (length l + 1)%nat = Some y) as Gn.
  { intros l x' y'. rewrite lookup_app_r by lia. by replace (length l + 1 - length l)%nat with 1%nat by lia. }
  eapply ub_step; [eapply tensor_dim_ok; [done|lia|rewrite Nat2Z.id; by rewrite list_lookup_middle]|].
  eapply ub_step; [eapply tensor_dim_ok; [done|lia|rewrite Nat2Z.id; apply Gn]|].
  eapply ub_step; [eapply tensor_dim_ok; [done|lia|rewrite Nat2Z.id; by rewrite list_lookup_middle]|].
  eapply ub_step; [eapply tensor_dim_ok; [done|lia|rewrite Nat2Z.id; apply Gn]|].
  rewrite Z.eqb_refl. cbn [negb].
  pose proof (frame_nil (tag := e_alloc E) (base := heap s)) as HF.
  assert (INT_MAX <= PTRDIFF_MAX) as HIP by done. assert (8 * INT_MAX <= PTRDIFF_MAX) as HIP8 by done.
  eapply ub_scr0; [done|lia|done|exact HF|]. clear HF. intros pp s1 Hwf1 HF1 Hr1 Hct1 Hsub1.
  pose proof (view_mono _ _ _ _ _ _ _ _ Hsub1 Hv1) as Hv11. pose proof (view_mono _ _ _ _ _ _ _ _ Hsub1 Hv2) as Hv21.
  eapply ub_step; [by eapply tensor_dims_ok|].
  eapply ub_step; [by eapply tensor_dims_ok|].
  (* broadcasting the batch extents *)
  assert (aitisa_broadcast_array (b1 ++ [m; k]) (Z.of_nat (length b1)) (b2 ++ [k; n]) (Z.of_nat (length b2))
     (arr (HPtr pp) (Z.of_nat (length bd) + 2)) (Z.of_nat (length bd)) E s1
     = Done (SUCCESS, (Some <$> bd) ++ [None; None]) s1) as Hbc.
  { destruct (broadcast_craw b1 b2 (replicate (length bd) None) E s1) as [out' Hout];
      [rewrite replicate_length; lia|]. rewrite Hcraw, replicate_length in Hout.
    apply (broadcast_prefix _ [m; k] _ _ [k; n] _ _ [None; None]) in Hout.
    unfold arr. replace (Z.to_nat (Z.of_nat (length bd) + 2)) with (length bd + 2)%nat by lia.
    rewrite replicate_add. exact Hout. }
  eapply ub_step; [exact Hbc|]. cbv beta match. rewrite bool_decide_eq_true_2 by done. cbn [negb].
  eapply ub_step.
  { rewrite aset_Z by (rewrite app_length, fmap_length; cbn; lia). rewrite Nat2Z.id.
    rewrite insert_app_r_alt by (rewrite fmap_length; lia). rewrite fmap_length, Nat.sub_diag. reflexivity. }
  eapply ub_step.
  { rewrite aset_Z by (rewrite app_length, fmap_length; cbn; lia). rewrite Nat2Z.id.
    rewrite insert_app_r_alt by (rewrite fmap_length; lia). rewrite fmap_length.
    replace (length bd + 1 - length bd)%nat with 1%nat by lia. reflexivity. }
  cbn [list_insert insert list_alter].
  eapply ub_step.
  { change [Some m; Some n] with (Some <$> [m; n]). rewrite <-fmap_app. apply force_array_ok. }
  destruct (decide (INT_MAX < prodZ (bd ++ [m; n]))) as [Hbig|Hmax].
  { apply bind_UB. eapply zeros_big; [done|done|eapply holds_mono; [exact Hsub1|exact H1]|exact Hf3|done|rewrite app_length; cbn; lia]. }
  destruct (zeros_done p1 T1 (bd ++ [m; n]) (Z.of_nat (length (bd ++ [m; n]))) o E s1) as (s2 & q & pd & pm & ps & px & Hz & Ht & Hr2);
    [done|done|eapply holds_mono; [exact Hsub1|exact H1]|exact Hf3|lia|done|].
  eapply ub_step.
  { rewrite <-Hz. f_equal. rewrite app_length; cbn; lia. }
  cbv beta match. rewrite bool_decide_eq_true_2 by done. cbn [negb].
  eapply ub_scr; [done|lia|exact Ht|exact HF1|]. clear Ht HF1. intros q1 h3 s3 Ht HF3 Hr3 Hs3.
  eapply ub_scr; [done|lia|exact Ht|exact HF3|]. clear Ht HF3. intros q2 h4 s4 Ht HF4 Hr4 Hs4.
  pose proof (prodZ_pos _ P1) as PP1. pose proof (prodZ_pos _ P2) as PP2. pose proof (prodZ_pos _ Pbd) as PPd.
  assert (1 <= Z.of_nat (tsz (a_type T1)) <= 8) as Hsz by (destruct (a_type T1); cbn; lia).
  assert (forall x y, prodZ [x; y] = x * y) as Hmk by (intros; rewrite !prodZ_cons, prodZ_nil; lia).
  pose proof (fits_bytes _ _ Hf1) as Hby1. rewrite prodZ_app, Hmk in Hby1.
  pose proof (fits_bytes _ _ Hf2) as Hby2. rewrite prodZ_app, Hmk in Hby2.
  rewrite prodZ_app, Hmk in Hmax.
  assert (0 < m * k) as Hmk0 by nia. assert (0 < k * n) as Hkn0 by nia. assert (0 < m * n) as Hmn0 by nia.
  assert (prodZ bd <= INT_MAX /\ m * n <= INT_MAX) as [Hpi Hmni] by (apply le2; lia).
  assert (prodZ b1 <= INT64_MAX /\ m * k <= INT64_MAX) as [Hq1 Hmki].
  { apply (le3 (Z.of_nat (tsz (a_type T1)))); lia. }
  assert (prodZ b2 <= INT64_MAX /\ k * n <= INT64_MAX) as [Hq2 Hkni].
  { apply (le3 (Z.of_nat (tsz (a_type T1)))); lia. }
  eapply ub_step; [apply batch_strides_ok; [done|lia|lia]|].
  eapply ub_step; [apply batch_strides_ok; [done|lia|lia]|].
  eapply ub_step; [apply force_array_ok|].
  eapply ub_step; [apply force_array_ok|].
  eapply ub_step.
  { apply size_to_dim_ok.
    - eapply fits_prefixes; [|exact Hf3]. lia.
    - rewrite app_length. lia.
    - by eapply fits_len. }
  rewrite take_app.
  eapply ub_step; [apply ck64_ok; unfold INT64_MIN; lia|].
  eapply ub_step; [apply ck64_ok; unfold INT64_MIN; lia|].
  eapply ub_step; [apply ck64_ok; unfold INT64_MIN, INT64_MAX; unfold INT_MAX in *; lia|].
  (* offsets *)
  set (c_ := fun b : nat => unravel bd (Z.of_nat b)).
  assert (forall b, in_box bd (c_ b)) as Hcb by (intros b; by apply unravel_in_box).
  assert (forall b, in_box b1 (bproj b1 (c_ b))) as Hcb1.
  { intros b. apply (bproj_in_box b1 bd); [by rewrite Hrbd|done|done]. }
  assert (forall b, in_box b2 (bproj b2 (c_ b))) as Hcb2.
  { intros b. apply (bproj_in_box b2 bd); [by rewrite Hrbd|done|done]. }
  assert (forall l b, compat (rev l) rb -> off_rev (rev bd) (bs_rev (rev l) 1 (length bd)) (Z.of_nat b)
     = ravel l (bproj l (c_ b))) as Hoff.
  { intros l b HC. rewrite Hrbd. unfold bd at 1. rewrite rev_length. rewrite off_rev_ravel by done.
    rewrite rev_involutive. unfold c_, bd. lia. }
  destruct (bad_batch _ bd m k n _ _ (fun b i j y => at_ T1 (bproj b1 (c_ b) ++ [Z.of_nat i; y]))
    (fun b i j y => at_ T2 (bproj b2 (c_ b) ++ [y; Z.of_nat j]))
    Pbd ltac:(lia) ltac:(lia) ltac:(lia) ltac:(lia) Hno ltac:(done) ltac:(done)) as (jb & Hjb & Hbad & Hgood).
  rewrite <-(Z2Nat.id (prodZ bd)), <-(Z2Nat.id m), <-(Z2Nat.id k), <-(Z2Nat.id n) at 1 by lia. apply bind_UB.
  eapply (batches_stuck Hv1 Hv2 Hx1 Hx2 s4 h4 [q2; q1; pp] _ _ _ _ _ _ _ _ _
    (fun b => Z.to_nat (ravel b1 (bproj b1 (c_ b)))) (fun b => Z.to_nat (ravel b2 (bproj b2 (c_ b))))
    (fun b i j y => at_ T1 (bproj b1 (c_ b) ++ [Z.of_nat i; y]))
    (fun b i j y => at_ T2 (bproj b2 (c_ b) ++ [y; Z.of_nat j]))).
  - done.
  - exact Ht.
  - exact HF4.
  - rewrite prodZ_app, Hmk. nia.
  - rewrite prodZ_app, Hmk. unfold INT64_MAX; unfold INT_MAX in *; nia.
  - lia.
  - nia.
  - lia.
  - lia.
  - intros b s' Hb. pose proof (ravel_bound _ _ (Hcb1 b)). pose proof (ravel_bound _ _ (Hcb2 b)).
    rewrite batch_offset_ok.
    + rewrite !Hoff by done. by rewrite !Z2Nat.id by lia.
    + done.
    + unfold INT64_MAX; unfold INT_MAX in *; lia.
    + done.
    + apply bs_rev_length.
    + apply bs_rev_length.
    + apply bs_rev_nonneg; [lia|done].
    + apply bs_rev_nonneg; [lia|done].
    + rewrite Hoff by done. lia.
    + rewrite Hoff by done. lia.
  - intros b Hb. pose proof (ravel_bound _ _ (Hcb1 b)). pose proof (ravel_bound _ _ (Hcb2 b)).
    rewrite !Z2Nat.id by lia. split.
    + apply (off_bound _ _ (prodZ b1)); [lia|lia|lia|lia].
    + apply (off_bound _ _ (prodZ b2)); [lia|lia|lia|lia].
  - intros b i j y Hb Hi Hj Hy. split.
    + rewrite <-(at_mat_app T1 b1 _ m k i y HvT D1 (Hcb1 b) Hi Hy). f_equal.
      rewrite Z2Nat.inj_mul by lia. lia.
    + rewrite <-(at_mat_app T2 b2 _ k n y j HvT0 D2 (Hcb2 b) Hy Hj). f_equal.
      rewrite Z2Nat.inj_mul by lia. lia.
  - exact Hjb.
  - exact Hbad.
  - exact Hgood.
Qed.
End batched.

(** ** Both outcomes *)
Lemma box2 bd m n c : in_box (bd ++ [m; n]) c <-> exists c' i j, c = c' ++ [i; j] /\ in_box bd c' /\ 0 <= i < m /\ 0 <= j < n.
Proof.
  split.
  - intros H. apply Forall2_app_inv_l in H as (c1 & c2 & H1 & H2 & ->).
    apply Forall2_cons_inv_l in H2 as (i & c3 & Hi & H2 & ->).
    apply Forall2_cons_inv_l in H2 as (j & c4 & Hj & H2 & ->). apply Forall2_nil_inv_l in H2 as ->.
    by exists c1, i, j.
  - intros (c' & i & j & -> & H & Hi & Hj). apply Forall2_app; [done|]. repeat (apply Forall2_cons; split; [done|]). by apply Forall2_nil.
Qed.
Lemma box1 bd m c : in_box (bd ++ [m]) c <-> exists c' i, c = c' ++ [i] /\ in_box bd c' /\ 0 <= i < m.
Proof.
  split.
  - intros H. apply Forall2_app_inv_l in H as (c1 & c2 & H1 & H2 & ->).
    apply Forall2_cons_inv_l in H2 as (i & c3 & Hi & H2 & ->). apply Forall2_nil_inv_l in H2 as ->.
    by exists c1, i.
  - intros (c' & i & -> & H & Hi). apply Forall2_app; [done|]. repeat (apply Forall2_cons; split; [done|]). by apply Forall2_nil.
Qed.
Definition butlast2 (c : list Z) : list Z := take (length c - 2) c.
Definition butlast1 (c : list Z) : list Z := take (length c - 1) c.
Definition ith_last (k : nat) (c : list Z) : Z := default 0 (c !! (length c - k)%nat).
Lemma butlast2_app c i j : butlast2 (c ++ [i; j]) = c.
Proof. unfold butlast2. rewrite app_length. cbn. replace (length c + 2 - 2)%nat with (length c) by lia. apply take_app. Qed.
Lemma butlast1_app c i : butlast1 (c ++ [i]) = c.
Proof. unfold butlast1. rewrite app_length. cbn. replace (length c + 1 - 1)%nat with (length c) by lia. apply take_app. Qed.
Lemma ith_last_2 c i j : ith_last 2 (c ++ [i; j]) = i.
Proof. unfold ith_last. rewrite app_length. cbn. replace (length c + 2 - 2)%nat with (length c + 0)%nat by lia. by rewrite lookup_app_r, Nat.add_0_r, Nat.sub_diag by lia. Qed.
Lemma ith_last_1 c i j : ith_last 1 (c ++ [i; j]) = j.
Proof. unfold ith_last. rewrite app_length. cbn. replace (length c + 2 - 1)%nat with (length c + 1)%nat by lia. rewrite lookup_app_r by lia. by replace (length c + 1 - length c)%nat with 1%nat by lia. Qed.
Lemma ith_last_11 c i : ith_last 1 (c ++ [i]) = i.
Proof. unfold ith_last. rewrite app_length. cbn. replace (length c + 1 - 1)%nat with (length c + 0)%nat by lia. by rewrite lookup_app_r, Nat.add_0_r, Nat.sub_diag by lia. Qed.

Lemma choose2 t dev bd m n (F : list Z -> Z -> Z -> option val) :
  fits (tsz t) (bd ++ [m; n]) -> (forall c i j, in_box bd c -> 0 <= i < m -> 0 <= j < n -> is_Some (F c i j)) ->
  exists T, valid T /\ a_type T = t /\ a_dev T = dev /\ a_dims T = bd ++ [m; n] /\
    forall c i j, in_box bd c -> 0 <= i < m -> 0 <= j < n -> F c i j = Some (at_ T (c ++ [i; j])).
Proof.
  intros Hf HF. destruct (tab_choose t dev (bd ++ [m; n]) (fun c => F (butlast2 c) (ith_last 2 c) (ith_last 1 c))) as (T & V & H1 & H2 & H3 & H4).
  - done.
  - intros c Hc. apply box2 in Hc as (c' & i & j & -> & Hc & Hi & Hj). rewrite butlast2_app, ith_last_2, ith_last_1. by apply HF.
  - exists T. split_and!; [done..|]. intros c i j Hc Hi Hj.
    rewrite <-(H4 (c ++ [i; j])) by (apply box2; by exists c, i, j). by rewrite butlast2_app, ith_last_2, ith_last_1.
Qed.
Lemma choose1 t dev bd m (F : list Z -> Z -> option val) :
  fits (tsz t) (bd ++ [m]) -> (forall c i, in_box bd c -> 0 <= i < m -> is_Some (F c i)) ->
  exists T, valid T /\ a_type T = t /\ a_dev T = dev /\ a_dims T = bd ++ [m] /\
    forall c i, in_box bd c -> 0 <= i < m -> F c i = Some (at_ T (c ++ [i])).
Proof.
  intros Hf HF. destruct (tab_choose t dev (bd ++ [m]) (fun c => F (butlast1 c) (ith_last 1 c))) as (T & V & H1 & H2 & H3 & H4).
  - done.
  - intros c Hc. apply box1 in Hc as (c' & i & -> & Hc & Hi). rewrite butlast1_app, ith_last_11. by apply HF.
  - exists T. split_and!; [done..|]. intros c i Hc Hi.
    rewrite <-(H4 (c ++ [i])) by (apply box1; by exists c, i). by rewrite butlast1_app, ith_last_11.
Qed.

(** Extents that divide a small product are small *)
Lemma small_factor bd : Forall (fun d => 0 < d) bd -> forall x, 0 < x -> prodZ bd * x <= INT_MAX -> Forall (fun d => 0 < d <= INT_MAX) bd.
Proof.
  induction 1 as [|d l Hd Hl IH]; intros x Hx H; [constructor|]. change (prodZ (d :: l)) with (d * prodZ l) in H.
  pose proof (prodZ_pos _ Hl) as Hp. assert (1 <= prodZ l * x) as H1 by nia. constructor; [nia|]. apply (IH (d * x)); nia.
Qed.
(** Each operand's batch extents are among those of the broadcast shape, or 1 *)
Lemma compat_small l r : compat l r -> Forall (fun d => 0 < d) l -> Forall (fun d => 0 < d <= INT_MAX) r -> Forall (fun d => 0 < d <= INT_MAX) l.
Proof.
  intros [Hl C] Hp Hr. apply Forall_lookup. intros j a Ha. pose proof (lookup_lt_Some _ _ _ Ha) as Hj.
  destruct (lookup_lt_is_Some_2 r j ltac:(lia)) as [x Hx].
  pose proof (Forall_lookup_1 _ _ _ _ Hp Ha) as H0. pose proof (Forall_lookup_1 _ _ _ _ Hr Hx) as H1. cbv beta in *.
  destruct (C j a x Ha Hx) as [-> | ->]; unfold INT_MAX in *; lia.
Qed.
Lemma bcast_rev_pos l : Forall (fun d => 0 < d) l -> forall k r, Forall (fun d => 0 < d) k -> bcast_rev l k = Some r -> Forall (fun d => 0 < d) r.
Proof.
  induction 1 as [|a l Ha Hl IH]; intros k r Hk; cbn [bcast_rev].
  - by intros [= <-].
  - destruct Hk as [|b k Hb Hk]; [intros [= <-]; by constructor|].
    destruct (bdim a b) as [x|] eqn:Hx; [|done]. destruct (bcast_rev l k) as [r'|] eqn:Hr; [|done]. intros [= <-].
    constructor; [|by eapply IH]. unfold bdim in Hx. destruct (Z.eqb_spec a b), (Z.eqb_spec a 1), (Z.eqb_spec b 1); naive_solver.
Qed.
Lemma bcast_small b1 b2 bd x : bcast b1 b2 = Some bd -> Forall (fun d => 0 < d) b1 -> Forall (fun d => 0 < d) b2 ->
  0 < x -> prodZ bd * x <= INT_MAX -> Forall (fun d => 0 < d <= INT_MAX) b1 /\ Forall (fun d => 0 < d <= INT_MAX) b2 /\ 0 < prodZ bd.
Proof.
  intros HB P1 P2 Hx H. unfold bcast in HB. destruct (bcast_rev (rev b1) (rev b2)) as [rb|] eqn:HB'; [|done]. injection HB as <-.
  assert (Forall (fun d => 0 < d) (rev b1)) as R1 by (by apply Forall_rev).
  assert (Forall (fun d => 0 < d) (rev b2)) as R2 by (by apply Forall_rev).
  pose proof (bcast_rev_pos _ R1 _ _ R2 HB') as Pr.
  assert (Forall (fun d => 0 < d) (rev rb)) as Pr' by (by apply Forall_rev).
  pose proof (small_factor _ Pr' x Hx H) as Hs.
  assert (Forall (fun d => 0 < d <= INT_MAX) rb) as Hs' by (rewrite <-(rev_involutive rb); by apply Forall_rev).
  destruct (bcast_rev_compat _ _ _ HB') as [C1 C2].
  pose proof (compat_small _ _ C1 R1 Hs') as Q1. pose proof (compat_small _ _ C2 R2 Hs') as Q2.
  split_and!; [| |by apply prodZ_pos].
  - rewrite <-(rev_involutive b1). by apply Forall_rev.
  - rewrite <-(rev_involutive b2). by apply Forall_rev.
Qed.

Section every.
Context (p1 p2 : nat) (T1 T2 : atensor) (o : hval) (E : env) (s : st).
Context (Hwf : wf s) (HAl : alloc_all E) (HK : hooks_ok E)
  (H1 : holds (heap s) p1 T1) (H2 : holds (heap s) p2 T2)
  (Hty : a_type T2 = a_type T1)
  (Hc1 : dev_type (a_dev T1) = 0) (Hc2 : dev_type (a_dev T2) = 0)
  (Hp1 : Forall (fun d => 0 < d) (a_dims T1)) (Hp2 : Forall (fun d => 0 < d) (a_dims T2)).
Let t := a_type T1.

Lemma tt_every b1 b2 bd m k n :
  bd <> [] -> a_dims T1 = b1 ++ [m; k] -> a_dims T2 = b2 ++ [k; n] -> bcast b1 b2 = Some bd -> fits (tsz t) (bd ++ [m; n]) ->
  let A := fun c i q => at_ T1 (bproj b1 c ++ [i; q]) in
  let B := fun c q j => at_ T2 (bproj b2 c ++ [q; j]) in
  (batch_ok t bd m k n A B -> exists T,
     makes (aitisa_matmul (HPtr p1) (HPtr p2) o) E s T /\ a_type T = t /\ a_dev T = a_dev T1 /\ a_dims T = bd ++ [m; n] /\
     forall c i j, in_box bd c -> 0 <= i < m -> 0 <= j < n ->
       inner t k (fun q => A c i q) (fun q => B c q j) = Some (at_ T (c ++ [i; j]))) /\
  (~ batch_ok t bd m k n A B -> aitisa_matmul (HPtr p1) (HPtr p2) o E s = UB UB_overflow).
Proof using All.
  intros Hbd D1 D2 HB Hf A B. split; [|by apply (matmul_tt_stuck p1 p2 T1 T2)].
  intros (Hmax & Hk & Hin).
  destruct (choose2 t (a_dev T1) bd m n (fun c i j => inner t k (fun q => A c i q) (fun q => B c q j)) Hf Hin)
    as (T & V & X1 & X2 & X3 & X4).
  exists T. split_and!; [|done..].
  pose proof Hp1 as P1. rewrite D1 in P1. apply Forall_app in P1 as [P1 P1']. inversion P1' as [|? ? Hm P1'']; subst. inversion P1'' as [|? ? Hk0 _]; subst.
  pose proof Hp2 as P2. rewrite D2 in P2. apply Forall_app in P2 as [P2 P2']. inversion P2' as [|? ? _ P2'']; subst. inversion P2'' as [|? ? Hn _]; subst.
  destruct (bcast_small b1 b2 bd (m * n) HB P1 P2 ltac:(nia) Hmax) as (Q1 & Q2 & Hpb). assert (1 <= prodZ bd * n /\ 1 <= prodZ bd * m) as [] by nia.
  apply (matmul_tt_rule p1 p2 T1 T2 T o E s) with b1 b2 bd m k n; try done.
  - rewrite D1. apply Forall_app. split; [done|]. repeat (apply Forall_cons_2; [nia|]); by apply Forall_nil_2.
  - rewrite D2. apply Forall_app. split; [done|]. repeat (apply Forall_cons_2; [nia|]); by apply Forall_nil_2.
  - rewrite X3, prodZ_app. unfold prodZ at 2. cbn [foldr]. nia.
Qed.
Lemma tv_every b1 m k :
  b1 <> [] -> a_dims T1 = b1 ++ [m; k] -> a_dims T2 = [k] -> fits (tsz t) (b1 ++ [m]) ->
  let A := fun c i q => at_ T1 (c ++ [i; q]) in
  let B := fun (_ : list Z) q (_ : Z) => at_ T2 [q] in
  (batch_ok t b1 m k 1 A B -> exists T,
     makes (aitisa_matmul (HPtr p1) (HPtr p2) o) E s T /\ a_type T = t /\ a_dev T = a_dev T1 /\ a_dims T = b1 ++ [m] /\
     forall c i, in_box b1 c -> 0 <= i < m ->
       inner t k (fun q => A c i q) (fun q => B c q 0) = Some (at_ T (c ++ [i]))) /\
  (~ batch_ok t b1 m k 1 A B -> aitisa_matmul (HPtr p1) (HPtr p2) o E s = UB UB_overflow).
Proof using All.
  intros Hbd D1 D2 Hf A B. split; [|by apply (matmul_tv_stuck p1 p2 T1 T2)].
  intros (Hmax & Hk & Hin).
  destruct (choose1 t (a_dev T1) b1 m (fun c i => inner t k (fun q => A c i q) (fun q => B c q 0)) Hf) as (T & V & X1 & X2 & X3 & X4).
  { intros c i Hc Hi. apply Hin; [done|done|lia]. }
  exists T. split_and!; [|done..].
  pose proof Hp1 as P1. rewrite D1 in P1. apply Forall_app in P1 as [P1 P1']. inversion P1' as [|? ? Hm P1'']; subst. inversion P1'' as [|? ? Hk0 _]; subst.
  pose proof (prodZ_pos _ P1) as Hpb.
  apply (matmul_tv_rule p1 p2 T1 T2 T o E s) with b1 m k; try done.
  - rewrite D1. apply Forall_app. split; [by apply (small_factor b1 P1 (m * 1)); nia|]. repeat (apply Forall_cons_2; [nia|]); by apply Forall_nil_2.
  - rewrite D2. repeat (apply Forall_cons_2; [nia|]); by apply Forall_nil_2.
  - rewrite X3, prodZ_app. unfold prodZ at 2. cbn [foldr]. nia.
Qed.
Lemma vt_every b2 k n :
  b2 <> [] -> a_dims T1 = [k] -> a_dims T2 = b2 ++ [k; n] -> fits (tsz t) (b2 ++ [n]) ->
  let A := fun (_ : list Z) (_ : Z) q => at_ T1 [q] in
  let B := fun c q j => at_ T2 (c ++ [q; j]) in
  (batch_ok t b2 1 k n A B -> exists T,
     makes (aitisa_matmul (HPtr p1) (HPtr p2) o) E s T /\ a_type T = t /\ a_dev T = a_dev T1 /\ a_dims T = b2 ++ [n] /\
     forall c j, in_box b2 c -> 0 <= j < n ->
       inner t k (fun q => A c 0 q) (fun q => B c q j) = Some (at_ T (c ++ [j]))) /\
  (~ batch_ok t b2 1 k n A B -> aitisa_matmul (HPtr p1) (HPtr p2) o E s = UB UB_overflow).
Proof using All.
  intros Hbd D1 D2 Hf A B. split; [|by apply (matmul_vt_stuck p1 p2 T1 T2)].
  intros (Hmax & Hk & Hin).
  destruct (choose1 t (a_dev T1) b2 n (fun c j => inner t k (fun q => A c 0 q) (fun q => B c q j)) Hf) as (T & V & X1 & X2 & X3 & X4).
  { intros c j Hc Hj. apply Hin; [done|lia|done]. }
  exists T. split_and!; [|done..].
  pose proof Hp2 as P2. rewrite D2 in P2. apply Forall_app in P2 as [P2 P2']. inversion P2' as [|? ? Hk0 P2'']; subst. inversion P2'' as [|? ? Hn _]; subst.
  pose proof (prodZ_pos _ P2) as Hpb.
  apply (matmul_vt_rule p1 p2 T1 T2 T o E s) with b2 k n; try done.
  - rewrite D1. repeat (apply Forall_cons_2; [nia|]); by apply Forall_nil_2.
  - rewrite D2. apply Forall_app. split; [by apply (small_factor b2 P2 (1 * n)); nia|]. repeat (apply Forall_cons_2; [nia|]); by apply Forall_nil_2.
  - rewrite X3, prodZ_app. unfold prodZ at 2. cbn [foldr]. nia.
Qed.
End every.
