(** * ProofTypes: products of tensors of different types *)
From stdpp Require Import gmap list.
From Coq Require Import ZArith Lia Floats.SpecFloat.
From Coq Require Import ZifyBool ZifyNat.
From Verif Require Import Base Mem Spec SpecTypes ModelCore ModelBasic ModelMath Logic ProofCore ProofCore2 ProofCore3
  ProofKernel ProofBasic ProofIndex ProofLayout ProofBroadcast ProofBasic2 ProofSqueeze ProofKernel2 ProofSlice ProofFrame ProofMatmul
  ProofMatmul2 ProofMatmul3 ProofExact ProofProduct ProofBatch RefuteMath2.
Open Scope Z_scope.

Ltac Zify.zify_post_hook ::= Z.div_mod_to_equations.

(** ** Runs that end in some undefined behaviour *)
Definition stuck {A} (m : M A) (E : env) (s : st) : Prop := exists u, m E s = UB u.
Lemma st_step {A B} (m : M A) (k : A -> M B) E s a s' : m E s = Done a s' -> stuck (k a) E s' -> stuck (bind m k) E s.
Proof. intros H1 [u H2]. exists u. by eapply ub_step. Qed.
Lemma st_bind {A B} (m : M A) (k : A -> M B) E s : stuck m E s -> stuck (bind m k) E s.
Proof. intros [u H]. exists u. by apply bind_ub. Qed.
Section st_frame.
Context {E : env} {lo : nat} {base h : gmap nat block} {s : st} {p pd pm ps px : nat} {t : dtype} {dev : device} {dims : list Z} {l : list mv}.
Let T h s := tnew (e_alloc E) lo h s p pd pm ps px t dev dims l.
Lemma st_scr {B} L n (k : hval -> M B) :
  alloc_all E -> 0 <= n <= PTRDIFF_MAX -> T h s -> frame (e_alloc E) L base h ->
  (forall b h' s', T h' s' -> frame (e_alloc E) (b :: L) base h' -> rpos s' = rpos s -> h ⊆ h' -> stuck (k (HPtr b)) E s') ->
  stuck (bind (scratch n) k) E s.
Proof using Type.
  intros HA Hn HT HF Hk. eapply st_step; [by apply scratch_all|].
  apply (Hk (ctr s) (<[ctr s := Blk (e_alloc E) (CRaw n)]> h)).
  - by apply tnew_alloc.
  - apply frame_alloc; [done| |done]. by eapply tnew_fresh.
  - done.
  - apply insert_subseteq. by eapply tnew_fresh.
Qed.
End st_frame.
Lemma st_scr0 {E : env} {base : gmap nat block} {s : st} {B} L n (k : hval -> M B) :
  alloc_all E -> 0 <= n <= PTRDIFF_MAX -> wf s -> frame (e_alloc E) L base (heap s) ->
  (forall b s', wf s' -> frame (e_alloc E) (b :: L) base (heap s') -> rpos s' = rpos s ->
     (ctr s <= ctr s')%nat -> heap s ⊆ heap s' -> stuck (k (HPtr b)) E s') ->
  stuck (bind (scratch n) k) E s.
Proof.
  intros HA Hn Hwf HF Hk. eapply st_step; [by apply scratch_all|]. apply Hk.
  - by apply wf_alloc.
  - cbn. apply frame_alloc; [done| |done]. by apply wf_fresh.
  - done.
  - cbn. lia.
  - cbn. apply insert_subseteq. by apply wf_fresh.
Qed.
Lemma st_for32 {S} lo hi (body : Z -> S -> M S) x E s : lo < hi -> stuck (body lo x) E s -> stuck (for32 lo hi body x) E s.
Proof. intros H [u Hu]. exists u. by apply for32_ub. Qed.
Lemma st_for64 {S} lo hi (body : Z -> S -> M S) x E s : lo < hi -> stuck (body lo x) E s -> stuck (for64 lo hi body x) E s.
Proof.
  intros H Hu. unfold for64. destruct (Z.to_nat (hi - lo)) as [|n] eqn:En; [lia|]. cbn [iter]. by apply st_bind.
Qed.
(** A loop whose body may end in undefined behaviour *)
Lemma iter_may {S} (I : nat -> S -> st -> Prop) E n i0 (body : Z -> S -> M S) x s :
  I 0%nat x s -> (forall i x s, (i < n)%nat -> I i x s ->
    stuck (body (i0 + Z.of_nat i) x) E s \/ exists x' s', body (i0 + Z.of_nat i) x E s = Done x' s' /\ I (Datatypes.S i) x' s') ->
  stuck (iter n i0 body x) E s \/ exists x' s', iter n i0 body x E s = Done x' s' /\ I n x' s'.
Proof.
  revert I i0 x s. induction n as [|n IH]; intros I i0 x s H0 Hs; [right; by exists x, s|].
  cbn [iter]. destruct (Hs 0%nat x s) as [Hb|(x' & s' & Hb & H1)]; [lia|done|rewrite Z.add_0_r in Hb; left; by apply st_bind|].
  rewrite Z.add_0_r in Hb.
  destruct (IH (fun i => I (Datatypes.S i)) (i0 + 1) x' s') as [Hr|(x'' & s'' & Hr & H2)]; [done| | |].
  - intros i y z Hi Hy. destruct (Hs (Datatypes.S i) y z) as [K|K]; [lia|done| |];
      (replace (i0 + 1 + Z.of_nat i) with (i0 + Z.of_nat (Datatypes.S i)) by lia); [by left|by right].
  - left. eapply st_step; done.
  - right. exists x'', s''. split; [|done]. by erewrite bind_done.
Qed.

(** ** The first term of a product *)
Section first.
Context {E : env} {s : st} {t t2 : tcode} {bA tgA bB tgB bC tgC : nat} {vA vB vC : list val} {exA exB exC : list mv}.
Context (HA : heap s !! bA = Some (Blk tgA (CData (cells t vA ++ exA))))
        (HB : heap s !! bB = Some (Blk tgB (CData (cells t2 vB ++ exB))))
        (HC : heap s !! bC = Some (Blk tgC (CData (cells t vC ++ exC))))
        (Ht : t <> t2) (HlA : vA <> []) (HlC : vC <> []) (Hv : started vB).
Lemma mac_types : stuck (mac t (HPtr bA) 0 0 (HPtr bB) 0 0 (HPtr bC) 0 0) E s.
Proof using All.
  destruct vA as [|a vA']; [done|]. destruct vC as [|c vC']; [done|]. destruct vB as [|b vB']; [done|]. cbn in Hv.
  destruct (load_wrong_type (E := E) HB Hv Ht) as [u Hu]. exists u. unfold mac.
  erewrite bind_done by (eapply (load_cells s bC tgC t (c :: vC') exC 0); [exact HC|done|lia]).
  erewrite bind_done by (eapply (load_cells s bA tgA t (a :: vA') exA 0); [exact HA|done|lia]).
  change (0 + 0 * Z.of_nat (tsz t)) with 0. by apply bind_ub.
Qed.
Lemma vv_types k : 0 < k -> stuck (vv_kernel t (HPtr bA) (HPtr bB) (HPtr bC) k) E s.
Proof using All. intros Hk. apply st_for32; [done|]. apply mac_types. Qed.
Lemma mv_types m k : 0 < m -> 0 < k -> stuck (mv_kernel t (HPtr bA) (HPtr bB) (HPtr bC) m k) E s.
Proof using All. intros Hm Hk. do 2 (apply st_for32; [done|]). apply mac_types. Qed.
Lemma mm_types m k n : 0 < m -> 0 < k -> 0 < n -> stuck (mm_kernel t (HPtr bA) 0 (HPtr bB) 0 (HPtr bC) 0 m k n) E s.
Proof using All. intros Hm Hk Hn. do 3 (apply st_for32; [done|]). apply mac_types. Qed.
End first.

Section batches.
Context {E : env} {lo : nat} {base : gmap nat block} {q pd pm ps px : nat}
  {t t2 : tcode} {dev : device} {dims : list Z}.
Let TN h s' vs := tnew (e_alloc E) lo h s' q pd pm ps px (dtype_of t) dev dims (cells t vs).
Context {p1 p2 bA tgA bB tgB : nat} {dt2 : dtype} {dev1 dev2 : device} {dims1 dims2 ord1 ord2 : list Z}
  {vA vB : list val} {exA exB : list mv}.
Context (HV1 : view base p1 (dtype_of t) dev1 dims1 ord1 bA)
        (HV2 : view base p2 dt2 dev2 dims2 ord2 bB)
        (HA : base !! bA = Some (Blk tgA (CData (cells t vA ++ exA))))
        (HB : base !! bB = Some (Blk tgB (CData (cells t2 vB ++ exB))))
        (Htt : t <> t2) (HlA : vA <> []) (Hv : started vB).

Lemma batches_types (s : st) (h : gmap nat block) L N (nb m k n : nat) mat1 mat2 mat3 offs (x1 x2 : nat -> nat) :
  alloc_all E ->
  TN h s (replicate N (zero_val t)) -> frame (e_alloc E) L base h ->
  N = (nb * (m * n))%nat -> Z.of_nat N * 8 <= INT64_MAX -> 8 * Z.of_nat nb <= PTRDIFF_MAX ->
  mat3 = Z.of_nat (m * n) -> 0 <= mat1 -> 0 <= mat2 ->
  (forall b s', (b < nb)%nat -> offs (Z.of_nat b) E s' = Done (Z.of_nat (x1 b), Z.of_nat (x2 b)) s') ->
  x1 0%nat = 0%nat -> x2 0%nat = 0%nat ->
  (forall b, (b < nb)%nat -> Z.of_nat (x1 b) * mat1 * Z.of_nat (tsz t) <= INT64_MAX) ->
  (0 < nb)%nat -> (0 < m)%nat -> (0 < k)%nat -> (0 < n)%nat ->
  stuck (matmul_batches (HPtr p1) (HPtr p2) (HPtr q) (Z.of_nat nb) (Z.of_nat m) (Z.of_nat k) (Z.of_nat n)
       offs mat1 mat2 mat3) E s.
Proof using HV1 HV2 HA HB Htt HlA Hv.
  intros HAl HT HF Hlen Hbytes Hnb -> Hm1 Hm2 Hoffs Hx1 Hx2 Hov Hb0 Hm0 Hk0 Hn0.
  unfold matmul_batches.
  eapply st_scr; [done|lia|exact HT|exact HF|]. clear HT HF. intros b1 h1 s1 HT1 HF1 Hr1 Hsub1.
  eapply st_scr; [done|lia|exact HT1|exact HF1|]. clear HT1 HF1. intros b2 h2 s2 HT2 HF2 Hr2 Hsub2.
  eapply st_scr; [done|lia|exact HT2|exact HF2|]. clear HT2 HF2. intros b3 h3 s3 HT3 HF3 Hr3 Hsub3.
  pose proof (frame_sub _ _ HF3) as Hb3.
  pose proof (view_mono _ _ _ _ _ _ _ _ Hb3 HV1) as Hv1. pose proof (view_mono _ _ _ _ _ _ _ _ Hb3 HV2) as Hv2.
  pose proof (view_mono _ _ _ _ _ _ _ _ (tnew_base _ _ HT3) Hv1) as Hv1'.
  pose proof (view_mono _ _ _ _ _ _ _ _ (tnew_base _ _ HT3) Hv2) as Hv2'.
  eapply st_step; [by eapply tensor_data_ok|].
  eapply st_step; [by eapply tensor_data_ok|].
  eapply st_step; [by eapply tensor_data_ok, tnew_view|].
  eapply st_step; [by eapply tensor_dtype_ok|].
  set (oA := fun b => Z.of_nat (x1 b) * mat1 * Z.of_nat (tsz t)).
  set (oB := fun b => Z.of_nat (x2 b) * mat2 * Z.of_nat (tsz t)).
  set (oC := fun b => Z.of_nat b * Z.of_nat (m * n) * Z.of_nat (tsz t)).
  assert (1 <= Z.of_nat (tsz t) <= 8) as Hsz by (destruct t; cbn; lia).
  match goal with |- stuck (bind ?l _) _ _ => assert (stuck l E s3 \/ exists x s', l E s3 = Done x s' /\ (x = (oA <$> seq 0 nb, oB <$> seq 0 nb, oC <$> seq 0 nb) /\ s' = s3)) as Hl end.
  { unfold for64. replace (Z.to_nat (Z.of_nat nb - 0)) with nb by lia.
    apply (iter_may (fun i x s' => x = (oA <$> seq 0 i, oB <$> seq 0 i, oC <$> seq 0 i) /\ s' = s3)); [done|].
    intros i x s' Hi [-> ->]. specialize (Hov i Hi).
    erewrite !bind_done by (rewrite Z.add_0_l; by apply Hoffs). cbv beta match. cbn [dtype_of d_size].
    destruct (decide (oB i <= INT64_MAX)) as [Ho2|Ho2].
    2:{ left. eapply st_step; [rewrite Z.add_0_l; by apply Hoffs|]. cbv beta match.
      eapply st_step; [apply ck64_ok; unfold INT64_MIN; nia|].
      eapply st_step; [eapply touch_frame; [exact HT3|exact HF3|set_solver]|].
      apply st_bind. unfold ck64, stuck, bind, check. fold (oB i).
      replace ((INT64_MIN <=? oB i) && (oB i <=? INT64_MAX)) with false by lia. by eexists. }
    right. eexists _, s3. split; [|split; [|done]].
    - erewrite bind_done by (apply ck64_ok; unfold INT64_MIN; nia).
      erewrite bind_done by (eapply touch_frame; [exact HT3|exact HF3|set_solver]).
      erewrite bind_done by (apply ck64_ok; unfold INT64_MIN; unfold oB in Ho2; nia).
      erewrite bind_done by (eapply touch_frame; [exact HT3|exact HF3|set_solver]).
      erewrite bind_done.
      2:{ apply ck64_ok. rewrite Z.add_0_l. unfold INT64_MIN. split; [nia|].
        assert (Z.of_nat i * Z.of_nat (m * n) <= Z.of_nat N); [|nia].
        rewrite Hlen. nia. }
      erewrite bind_done by (eapply touch_frame; [exact HT3|exact HF3|set_solver]). reflexivity.
    - rewrite !seq_S, !fmap_app. cbn [fmap list_fmap]. rewrite Z.add_0_l. done. }
  destruct Hl as [Hl|(x & s' & Hl & -> & ->)]; [by apply st_bind|]. eapply st_step; [exact Hl|]. cbv beta match.
  unfold batch_mm_template. rewrite dispatch_all_t. apply st_bind. apply st_bind.
  unfold batch_mm_kernel. apply st_for64; [lia|].
  assert (forall o s', aget (o <$> seq 0 nb) 0 E s' = Done (o 0%nat : Z) s') as Hget.
  { intros o s'. apply aget_Z; [lia|]. change (Z.to_nat 0) with 0%nat. rewrite list_lookup_fmap, lookup_seq_lt by done. done. }
  eapply st_step; [apply Hget|]. eapply st_step; [apply Hget|]. eapply st_step; [apply Hget|].
  replace (oA 0%nat) with 0 by (unfold oA; rewrite Hx1; lia). replace (oB 0%nat) with 0 by (unfold oB; rewrite Hx2; lia).
  replace (oC 0%nat) with 0 by (unfold oC; lia).
  eapply (mm_types (vC := replicate N (zero_val t)) (exC := [])).
  - eapply tnew_lookup; [exact HT3|]. by eapply lookup_weaken.
  - eapply tnew_lookup; [exact HT3|]. by eapply lookup_weaken.
  - rewrite app_nil_r. by eapply tnew_px.
  - done.
  - done.
  - assert (0 < N)%nat by nia. destruct N; [lia|done].
  - done.
  - lia.
  - lia.
  - lia.
Qed.
End batches.

Section products.
Context (p1 p2 : nat) (T1 T2 : atensor) (o : hval) (E : env) (s : st).
Context (Hwf : wf s) (HAl : alloc_all E)
  (H1 : holds (heap s) p1 T1) (H2 : holds (heap s) p2 T2)
  (Hty : a_type T1 <> a_type T2) (Hst : started (a_vals T2))
  (Hc1 : dev_type (a_dev T1) = 0) (Hc2 : dev_type (a_dev T2) = 0)
  (Hp1 : Forall (fun d => 0 < d) (a_dims T1)) (Hp2 : Forall (fun d => 0 < d) (a_dims T2)).
Let t := a_type T1.

Lemma some_vals : a_vals T1 <> [].
Proof using H1 Hp1.
  destruct H1 as (Hv & _). pose proof (valid_len _ Hv) as L. pose proof (prodZ_pos _ Hp1). intros e. rewrite e in L. cbn in L. lia.
Qed.

Lemma matmul_tv_types b1 m k :
  b1 <> [] -> a_dims T1 = b1 ++ [m; k] -> a_dims T2 = [k] -> fits (tsz t) (b1 ++ [m]) ->
  stuck (aitisa_matmul (HPtr p1) (HPtr p2) o) E s.
Proof using All.
  intros Hb1 D1 D2 Hf3. unfold t in *. pose proof some_vals as Hsome. unfold aitisa_matmul.
  open_holds H1 Hv1 Hx1. open_holds H2 Hv2 Hx2. 
  pose proof (valid_fits _ HvT) as Hf1. pose proof (fits_len _ _ Hf1) as Hn1.
  rewrite D1 in *. rewrite D2 in *.
  assert (0 < Z.of_nat (length b1)) as Hlb by (destruct b1; cbn in *; [done|lia]).
  assert (Z.of_nat (length (b1 ++ [m; k])) = Z.of_nat (length b1) + 2) as Hnd by (rewrite app_length; cbn; lia).
  eapply st_step; [by eapply tensor_device_ok|].
  eapply st_step; [by eapply tensor_device_ok|].
  unfold not_cpu. rewrite Hc1, Hc2. cbn [DEVICE_CPU negb orb Z.eqb].
  eapply st_step; [by eapply tensor_ndim_ok|].
  eapply st_step; [by eapply tensor_ndim_ok|]. 
  change (Z.of_nat (length [k]) =? 1) with true. change (Z.of_nat (length [k]) =? 2) with false.
  rewrite Hnd in *.
  replace (Z.of_nat (length b1) + 2 =? 1) with false by lia. replace (Z.of_nat (length b1) + 2 =? 2) with false by lia.
  replace (3 <=? Z.of_nat (length b1) + 2) with true by lia. cbn [andb].
  apply Forall_app in Hp1 as [Hpb Hpm]. inversion_clear Hpm as [|? ? Hm Hpk]. inversion_clear Hpk as [|? ? Hk _].
  unfold matmul_tv.
  assert (forall i d, (b1 ++ [m; k]) !! i = Some d -> forall s', heap s ⊆ heap s' -> 
    tensor_dim (HPtr p1) (Z.of_nat i) E s' = Done d s') as G1.
  { intros i d Hd s' Hs. eapply tensor_dim_ok; [by eapply view_mono|lia|]. by rewrite Nat2Z.id. }
  eapply st_step.
  { replace (Z.of_nat (length b1) + 2 - 2) with (Z.of_nat (length b1)) by lia. apply G1; [|done].
    by rewrite list_lookup_middle. }
  eapply st_step.
  { replace (Z.of_nat (length b1) + 2 - 1) with (Z.of_nat (length b1 + 1)) by lia. apply G1; [|done].
    rewrite lookup_app_r by lia. by replace (length b1 + 1 - length b1)%nat with 1%nat by lia. }
  eapply st_step; [by eapply tensor_dim_ok|]. rewrite Z.eqb_refl. cbn [negb].
  pose proof (frame_nil (tag := e_alloc E) (base := heap s)) as HF.
  assert (INT_MAX <= PTRDIFF_MAX) as HIP by done. assert (8 * INT_MAX <= PTRDIFF_MAX) as HIP8 by done.
  eapply st_scr0; [done|lia|done|exact HF|]. clear HF. intros pp s1 Hwf1 HF1 Hr1 Hct1 Hsub1.
  eapply st_step.
  { eapply (for64_pure (fun i => take i (b1 ++ [m])) E 0 _ (length b1 + 1)); [done|lia|].
    intros i Hi. destruct (lookup_lt_is_Some_2 (b1 ++ [m]) i) as [d Hd]; [rewrite app_length; cbn; lia|].
    erewrite bind_done.
    2:{ rewrite Z.add_0_l. apply G1; [|exact Hsub1].
        change [m; k] with ([m] ++ [k]). rewrite app_assoc. by apply lookup_app_l_Some. }
    erewrite bind_done by (eapply touch_frame0; [exact HF1|set_solver]).
    by rewrite (take_S_r _ _ _ Hd). }
  rewrite take_ge by (rewrite app_length; cbn; lia).
  destruct (decide (INT_MAX < prodZ (b1 ++ [m]))) as [Hbig|Hmax].
  { apply st_bind. eexists. eapply zeros_big; [done|done|eapply holds_mono; [exact Hsub1|exact H1]|exact Hf3|done|rewrite app_length; cbn; lia]. }
  destruct (zeros_done p1 T1 (b1 ++ [m]) (Z.of_nat (length (b1 ++ [m]))) o E s1) as (s2 & q & pd & pm & ps & px & Hz & Ht & Hr2);
    [done|done|eapply holds_mono; [exact Hsub1|exact H1]|exact Hf3|lia|done|].
  eapply st_step.
  { rewrite <-Hz. f_equal. rewrite app_length; cbn; lia. }
  cbv beta match. rewrite bool_decide_eq_true_2 by done. cbn [negb].
  pose proof (view_mono _ _ _ _ _ _ _ _ (tnew_base _ _ Ht) (view_mono _ _ _ _ _ _ _ _ Hsub1 Hv1)) as Hv1'.
  eapply st_step; [by eapply tensor_dims_ok|].
  eapply st_step.
  { replace (Z.of_nat (length b1) + 2 - 2) with (Z.of_nat (length b1)) by lia. apply size_to_dim_ok.
    - eapply fits_prefixes; [|exact Hf1]. destruct (a_type T1); cbn; lia.
    - rewrite app_length. lia.
    - lia. }
  rewrite take_app.
  pose proof Hpb as Hpb'. pose proof (prodZ_pos _ Hpb') as Hpp.
  pose proof (fits_bytes _ _ Hf1) as Hby. rewrite prodZ_app in Hby.
  assert (prodZ [m; k] = m * k) as Hmk by (rewrite !prodZ_cons, prodZ_nil; lia). rewrite Hmk in Hby.
  assert (1 <= Z.of_nat (tsz (a_type T1)) <= 8) as Hsz by (destruct (a_type T1); cbn; lia).
  rewrite prodZ_snoc in Hmax.
  assert (prodZ b1 <= INT_MAX) as Hpi by nia.
  assert (0 <= m * k <= INT64_MAX) as Hmk64.
  { split; [nia|]. assert (m * k <= prodZ b1 * (m * k)) by nia. nia. }
  eapply st_step; [apply ck64_ok; unfold INT64_MIN; lia|].
  eapply st_step; [apply ck64_ok; unfold INT64_MIN, INT64_MAX; unfold INT_MAX in *; nia|].
  rewrite <-(Z2Nat.id (prodZ b1)), <-(Z2Nat.id m), <-(Z2Nat.id k) at 1 by lia.
  change 1 with (Z.of_nat 1). apply st_bind.
  eapply (batches_types Hv1 Hv2 Hx1 Hx2 Hty Hsome Hst s2 (heap s1) [pp] _ _ _ _ _ _ _ _ _ (fun b => b) (fun _ => 0%nat)).
  - done.
  - exact Ht.
  - exact HF1.
  - rewrite prodZ_snoc. nia.
  - rewrite prodZ_snoc. unfold INT64_MAX; unfold INT_MAX in *; nia.
  - lia.
  - nia.
  - nia.
  - lia.
  - done.
  - done.
  - done.
  - intros b Hb. nia.
  - lia.
  - lia.
  - lia.
  - lia.
Qed.

Lemma matmul_vt_types b2 k n :
  b2 <> [] -> a_dims T1 = [k] -> a_dims T2 = b2 ++ [k; n] -> fits (tsz t) (b2 ++ [n]) ->
  stuck (aitisa_matmul (HPtr p1) (HPtr p2) o) E s.
Proof using All.
  intros Hb2 D1 D2 Hf3. unfold t in *. pose proof some_vals as Hsome. unfold aitisa_matmul.
  open_holds H1 Hv1 Hx1. open_holds H2 Hv2 Hx2. 
  pose proof (valid_fits _ HvT0) as Hf2.  pose proof (fits_len _ _ Hf2) as Hn2.
  rewrite D1 in *. rewrite D2 in *.
  assert (0 < Z.of_nat (length b2)) as Hlb by (destruct b2; cbn in *; [done|lia]).
  assert (Z.of_nat (length (b2 ++ [k; n])) = Z.of_nat (length b2) + 2) as Hnd by (rewrite app_length; cbn; lia).
  eapply st_step; [by eapply tensor_device_ok|].
  eapply st_step; [by eapply tensor_device_ok|].
  unfold not_cpu. rewrite Hc1, Hc2. cbn [DEVICE_CPU negb orb Z.eqb].
  eapply st_step; [by eapply tensor_ndim_ok|].
  eapply st_step; [by eapply tensor_ndim_ok|]. 
  change (Z.of_nat (length [k]) =? 1) with true. change (Z.of_nat (length [k]) =? 2) with false.
  change (3 <=? Z.of_nat (length [k])) with false.
  rewrite Hnd in *.
  replace (Z.of_nat (length b2) + 2 =? 1) with false by lia. replace (Z.of_nat (length b2) + 2 =? 2) with false by lia.
  replace (3 <=? Z.of_nat (length b2) + 2) with true by lia. cbn [andb].
  apply Forall_app in Hp2 as [Hpb Hpm]. inversion_clear Hpm as [|? ? Hk Hpn]. inversion_clear Hpn as [|? ? Hn _].
  unfold matmul_vt. cbv zeta.
  assert (forall i d, (b2 ++ [k; n]) !! i = Some d -> forall s', heap s ⊆ heap s' -> 
    tensor_dim (HPtr p2) (Z.of_nat i) E s' = Done d s') as G2.
  { intros i d Hd s' Hs. eapply tensor_dim_ok; [by eapply view_mono|lia|]. by rewrite Nat2Z.id. }
  assert ((b2 ++ [k; n]) !! (length b2 + 1)%nat = Some n) as Gn.
  { rewrite lookup_app_r by lia. by replace (length b2 + 1 - length b2)%nat with 1%nat by lia. }
  replace (Z.of_nat (length b2) + 2 - 2) with (Z.of_nat (length b2)) by lia.
  replace (Z.of_nat (length b2) + 2 - 1) with (Z.of_nat (length b2 + 1)) by lia.
  eapply st_step; [by eapply tensor_dim_ok|].
  eapply st_step; [apply G2; [by rewrite list_lookup_middle|done]|].
  eapply st_step; [by apply G2|]. rewrite Z.eqb_refl. cbn [negb].
  pose proof (frame_nil (tag := e_alloc E) (base := heap s)) as HF.
  assert (INT_MAX <= PTRDIFF_MAX) as HIP by done. assert (8 * INT_MAX <= PTRDIFF_MAX) as HIP8 by done.
  eapply st_scr0; [done|lia|done|exact HF|]. clear HF. intros pp s1 Hwf1 HF1 Hr1 Hct1 Hsub1.
  eapply st_step.
  { eapply (for64_pure (fun i => take i b2) E 0 _ (length b2)); [done|lia|].
    intros i Hi. destruct (lookup_lt_is_Some_2 b2 i) as [d Hd]; [lia|].
    erewrite bind_done.
    2:{ rewrite Z.add_0_l. apply G2; [|exact Hsub1]. by apply lookup_app_l_Some. }
    erewrite bind_done by (eapply touch_frame0; [exact HF1|set_solver]).
    by rewrite (take_S_r _ _ _ Hd). }
  rewrite take_ge by lia.
  eapply st_step; [by apply G2|]. 
  eapply st_step; [eapply touch_frame0; [exact HF1|set_solver]|].
  destruct (decide (INT_MAX < prodZ (b2 ++ [n]))) as [Hbig|Hmax].
  { apply st_bind. eexists. eapply zeros_big; [done|done|eapply holds_mono; [exact Hsub1|exact H1]|exact Hf3|done|rewrite app_length; cbn; lia]. }
  destruct (zeros_done p1 T1 (b2 ++ [n]) (Z.of_nat (length (b2 ++ [n]))) o E s1) as (s2 & q & pd & pm & ps & px & Hz & Ht & Hr2);
    [done|done|eapply holds_mono; [exact Hsub1|exact H1]|exact Hf3|lia|done|].
  eapply st_step.
  { rewrite <-Hz. f_equal. rewrite app_length; cbn; lia. }
  cbv beta match. rewrite bool_decide_eq_true_2 by done. cbn [negb].
  pose proof (view_mono _ _ _ _ _ _ _ _ (tnew_base _ _ Ht) (view_mono _ _ _ _ _ _ _ _ Hsub1 Hv2)) as Hv2'.
  eapply st_step; [by eapply tensor_dims_ok|].
  eapply st_step.
  { apply size_to_dim_ok.
    - eapply fits_prefixes; [|exact Hf2]. destruct (a_type T2); cbn; lia.
    - rewrite app_length. lia.
    - lia. }
  rewrite take_app.
  pose proof Hpb as Hpb'. pose proof (prodZ_pos _ Hpb') as Hpp.
  pose proof (fits_bytes _ _ Hf2) as Hby. rewrite prodZ_app in Hby.
  assert (prodZ [k; n] = k * n) as Hmk by (rewrite !prodZ_cons, prodZ_nil; lia). rewrite Hmk in Hby.
  assert (1 <= Z.of_nat (tsz (a_type T1)) <= 8) as Hsz by (destruct (a_type T1); cbn; lia).
  assert (1 <= Z.of_nat (tsz (a_type T2)) <= 8) as Hsz2 by (destruct (a_type T2); cbn; lia).
  rewrite prodZ_snoc in Hmax.
  assert (prodZ b2 <= INT_MAX) as Hpi by nia.
  assert (0 <= k * n <= INT64_MAX) as Hmk64.
  { split; [nia|]. assert (k * n <= prodZ b2 * (k * n)) by nia. nia. }
  eapply st_step; [apply ck64_ok; unfold INT64_MIN; lia|].
  eapply st_step; [apply ck64_ok; unfold INT64_MIN, INT64_MAX; unfold INT_MAX in *; nia|].
  rewrite <-(Z2Nat.id (prodZ b2)), <-(Z2Nat.id n), <-(Z2Nat.id k) at 1 by lia.
  change 1 with (Z.of_nat 1). apply st_bind.
  eapply (batches_types Hv1 Hv2 Hx1 Hx2 Hty Hsome Hst s2 (heap s1) [pp] _ _ _ _ _ _ _ _ _ (fun b => 0%nat) (fun b => b)).
  - done.
  - exact Ht.
  - exact HF1.
  - rewrite prodZ_snoc. nia.
  - rewrite prodZ_snoc. unfold INT64_MAX; unfold INT_MAX in *; nia.
  - lia.
  - nia.
  - nia.
  - lia.
  - done.
  - done.
  - done.
  - intros b Hb. nia.
  - lia.
  - lia.
  - lia.
  - lia.
Qed.

Lemma matmul_tt_types b1 b2 bd m k n :
  bd <> [] -> a_dims T1 = b1 ++ [m; k] -> a_dims T2 = b2 ++ [k; n] -> bcast b1 b2 = Some bd -> fits (tsz t) (bd ++ [m; n]) ->
  stuck (aitisa_matmul (HPtr p1) (HPtr p2) o) E s.
Proof using All.
  intros Hbd D1 D2 HB Hf3. unfold t in *. pose proof some_vals as Hsome. unfold aitisa_matmul.
  open_holds H1 Hv1 Hx1. open_holds H2 Hv2 Hx2. 
  pose proof (valid_fits _ HvT) as Hf1. pose proof (fits_len _ _ Hf1) as Hn1.
  pose proof (valid_fits _ HvT0) as Hf2.  pose proof (fits_len _ _ Hf2) as Hn2.
  rewrite D1 in *. rewrite D2 in *.
  (* the joint batch shape *)
  unfold bcast in HB. destruct (bcast_rev (rev b1) (rev b2)) as [rb|] eqn:HB'; [|done]. injection HB as <-.
  apply Forall_app in Hp1 as [Hpb1 Hpm]. inversion_clear Hpm as [|? ? Hm Hpk]. inversion_clear Hpk as [|? ? Hk _].
  apply Forall_app in Hp2 as [Hpb2 Hpn]. inversion_clear Hpn as [|? ? _ Hpn']. inversion_clear Hpn' as [|? ? Hn _].
  pose proof Hpb1 as P1. pose proof Hpb2 as P2.
  pose proof (List.Forall_rev P1) as R1. pose proof (List.Forall_rev P2) as R2.
  pose proof (craw_bcast _ _ R1 R2) as Hcraw. rewrite HB' in Hcraw.
  pose proof (craw_length _ _ _ Hcraw) as Hlr. rewrite !rev_length in Hlr.
  destruct (bcast_rev_compat _ _ _ HB') as [C1 C2].
  assert (Forall (fun d => 0 < d) rb) as Prb.
  { clear -HB' R1 R2. revert HB'. generalize dependent (rev b2). generalize dependent (rev b1).
    intros l Hl. revert rb. induction Hl as [|a l Ha Hl IH]; intros rb k Hk; cbn [bcast_rev].
    - by intros [= <-].
    - destruct Hk as [|b k Hb Hk]; [intros [= <-]; by constructor|].
      destruct (bdim a b) as [x|] eqn:Hx; [|done]. destruct (bcast_rev l k) as [r|] eqn:Hr; [|done].
      intros [= <-]. constructor; [|by eapply IH].
      unfold bdim in Hx. destruct (a =? b), (a =? 1), (b =? 1); naive_solver. }
  set (bd := rev rb) in *.
  assert (length bd = Nat.max (length b1) (length b2)) as Hlbd by (unfold bd; by rewrite rev_length).
  assert (Forall (fun d => 0 < d) bd) as Pbd by (by apply List.Forall_rev).
  assert (rev bd = rb) as Hrbd by apply rev_involutive.
  assert (0 < Z.of_nat (length bd)) as Hlb by (destruct bd; cbn in *; [done|lia]).
  assert (Z.of_nat (length (b1 ++ [m; k])) = Z.of_nat (length b1) + 2) as Hnd1 by (rewrite app_length; cbn; lia).
  assert (Z.of_nat (length (b2 ++ [k; n])) = Z.of_nat (length b2) + 2) as Hnd2 by (rewrite app_length; cbn; lia).
  eapply st_step; [by eapply tensor_device_ok|].
  eapply st_step; [by eapply tensor_device_ok|].
  unfold not_cpu. rewrite Hc1, Hc2. cbn [DEVICE_CPU negb orb Z.eqb].
  eapply st_step; [by eapply tensor_ndim_ok|].
  eapply st_step; [by eapply tensor_ndim_ok|]. 
  rewrite Hnd1, Hnd2 in *.
  replace (Z.of_nat (length b1) + 2 =? 1) with false by lia.
  replace (Z.of_nat (length b2) + 2 =? 1) with false by lia.
  rewrite !andb_false_r. cbn [andb].
  replace ((Z.of_nat (length b1) + 2 =? 2) && (Z.of_nat (length b2) + 2 =? 2)) with false by lia.
  replace ((3 <=? Z.of_nat (length b1) + 2) && (2 <=? Z.of_nat (length b2) + 2)
      || (2 <=? Z.of_nat (length b1) + 2) && (3 <=? Z.of_nat (length b2) + 2)) with true by lia.
  unfold matmul_tt. cbv zeta.
  replace (Z.of_nat (length b1) + 2 - 2) with (Z.of_nat (length b1)) by lia.
  replace (Z.of_nat (length b1) + 2 - 1) with (Z.of_nat (length b1 + 1)) by lia.
  replace (Z.of_nat (length b2) + 2 - 2) with (Z.of_nat (length b2)) by lia.
  replace (Z.of_nat (length b2) + 2 - 1) with (Z.of_nat (length b2 + 1)) by lia.
  replace (Z.max (Z.of_nat (length b1) + 2) (Z.of_nat (length b2) + 2)) with (Z.of_nat (length bd) + 2) by lia.
  replace (Z.of_nat (length bd) + 2 - 2) with (Z.of_nat (length bd)) by lia.
  replace (Z.of_nat (length bd) + 2 - 1) with (Z.of_nat (length bd + 1)) by lia.
  replace (Z.max (Z.of_nat (length b1)) 0) with (Z.of_nat (length b1)) by lia.
  replace (Z.max (Z.of_nat (length b2)) 0) with (Z.of_nat (length b2)) by lia.
  assert (forall (l : list Z) x y, (l ++ [x; y]) !! (length l + 1)%nat = Some y) as Gn.
  { intros l x' y'. rewrite lookup_app_r by lia. by replace (length l + 1 - length l)%nat with 1%nat by lia. }
  eapply st_step; [eapply tensor_dim_ok; [done|lia|rewrite Nat2Z.id; by rewrite list_lookup_middle]|].
  eapply st_step; [eapply tensor_dim_ok; [done|lia|rewrite Nat2Z.id; apply Gn]|].
  eapply st_step; [eapply tensor_dim_ok; [done|lia|rewrite Nat2Z.id; by rewrite list_lookup_middle]|].
  eapply st_step; [eapply tensor_dim_ok; [done|lia|rewrite Nat2Z.id; apply Gn]|].
  rewrite Z.eqb_refl. cbn [negb].
  pose proof (frame_nil (tag := e_alloc E) (base := heap s)) as HF.
  assert (INT_MAX <= PTRDIFF_MAX) as HIP by done. assert (8 * INT_MAX <= PTRDIFF_MAX) as HIP8 by done.
  eapply st_scr0; [done|lia|done|exact HF|]. clear HF. intros pp s1 Hwf1 HF1 Hr1 Hct1 Hsub1.
  pose proof (view_mono _ _ _ _ _ _ _ _ Hsub1 Hv1) as Hv11. pose proof (view_mono _ _ _ _ _ _ _ _ Hsub1 Hv2) as Hv21.
  eapply st_step; [by eapply tensor_dims_ok|].
  eapply st_step; [by eapply tensor_dims_ok|].
  (* broadcasting the batch extents *)
  assert (aitisa_broadcast_array (b1 ++ [m; k]) (Z.of_nat (length b1)) (b2 ++ [k; n]) (Z.of_nat (length b2))
     (arr (HPtr pp) (Z.of_nat (length bd) + 2)) (Z.of_nat (length bd)) E s1
     = Done (SUCCESS, (Some <$> bd) ++ [None; None]) s1) as Hbc.
  { destruct (broadcast_craw b1 b2 (replicate (length bd) None) E s1) as [out' Hout];
      [rewrite replicate_length; lia|]. rewrite Hcraw, replicate_length in Hout.
    apply (broadcast_prefix _ [m; k] _ _ [k; n] _ _ [None; None]) in Hout.
    unfold arr. replace (Z.to_nat (Z.of_nat (length bd) + 2)) with (length bd + 2)%nat by lia.
    rewrite replicate_add. exact Hout. }
  eapply st_step; [exact Hbc|]. cbv beta match. rewrite bool_decide_eq_true_2 by done. cbn [negb].
  eapply st_step.
  { rewrite aset_Z by (rewrite app_length, fmap_length; cbn; lia). rewrite Nat2Z.id.
    rewrite insert_app_r_alt by (rewrite fmap_length; lia). rewrite fmap_length, Nat.sub_diag. reflexivity. }
  eapply st_step.
  { rewrite aset_Z by (rewrite app_length, fmap_length; cbn; lia). rewrite Nat2Z.id.
    rewrite insert_app_r_alt by (rewrite fmap_length; lia). rewrite fmap_length.
    replace (length bd + 1 - length bd)%nat with 1%nat by lia. reflexivity. }
  cbn [list_insert insert list_alter].
  eapply st_step.
  { change [Some m; Some n] with (Some <$> [m; n]). rewrite <-fmap_app. apply force_array_ok. }
  destruct (decide (INT_MAX < prodZ (bd ++ [m; n]))) as [Hbig|Hmax].
  { apply st_bind. eexists. eapply zeros_big; [done|done|eapply holds_mono; [exact Hsub1|exact H1]|exact Hf3|done|rewrite app_length; cbn; lia]. }
  destruct (zeros_done p1 T1 (bd ++ [m; n]) (Z.of_nat (length (bd ++ [m; n]))) o E s1) as (s2 & q & pd & pm & ps & px & Hz & Ht & Hr2);
    [done|done|eapply holds_mono; [exact Hsub1|exact H1]|exact Hf3|lia|done|].
  eapply st_step.
  { rewrite <-Hz. f_equal. rewrite app_length; cbn; lia. }
  cbv beta match. rewrite bool_decide_eq_true_2 by done. cbn [negb].
  eapply st_scr; [done|lia|exact Ht|exact HF1|]. clear Ht HF1. intros q1 h3 s3 Ht HF3 Hr3 Hs3.
  eapply st_scr; [done|lia|exact Ht|exact HF3|]. clear Ht HF3. intros q2 h4 s4 Ht HF4 Hr4 Hs4.
  pose proof (prodZ_pos _ P1) as PP1. pose proof (prodZ_pos _ P2) as PP2. pose proof (prodZ_pos _ Pbd) as PPd.
  assert (1 <= Z.of_nat (tsz (a_type T1)) <= 8) as Hsz by (destruct (a_type T1); cbn; lia).
  assert (forall x y, prodZ [x; y] = x * y) as Hmk by (intros; rewrite !prodZ_cons, prodZ_nil; lia).
  pose proof (fits_bytes _ _ Hf1) as Hby1. rewrite prodZ_app, Hmk in Hby1.
  pose proof (fits_bytes _ _ Hf2) as Hby2. rewrite prodZ_app, Hmk in Hby2.
  rewrite prodZ_app, Hmk in Hmax.
  assert (0 < m * k) as Hmk0 by nia. assert (0 < k * n) as Hkn0 by nia. assert (0 < m * n) as Hmn0 by nia.
  assert (prodZ bd <= INT_MAX /\ m * n <= INT_MAX) as [Hpi Hmni] by (apply le2; lia).
  assert (prodZ b1 <= INT64_MAX /\ m * k <= INT64_MAX) as [Hq1 Hmki].
  { apply (le3 (Z.of_nat (tsz (a_type T1)))); lia. }
  assert (prodZ b2 <= INT64_MAX /\ k * n <= INT64_MAX) as [Hq2 Hkni].
  { apply (le3 (Z.of_nat (tsz (a_type T2)))); [destruct (a_type T2); cbn; lia|lia|lia|lia]. }
  eapply st_step; [apply batch_strides_ok; [done|lia|lia]|].
  eapply st_step; [apply batch_strides_ok; [done|lia|lia]|].
  eapply st_step; [apply force_array_ok|].
  eapply st_step; [apply force_array_ok|].
  eapply st_step.
  { apply size_to_dim_ok.
    - eapply fits_prefixes; [|exact Hf3]. lia.
    - rewrite app_length. lia.
    - by eapply fits_len. }
  rewrite take_app.
  eapply st_step; [apply ck64_ok; unfold INT64_MIN; lia|].
  eapply st_step; [apply ck64_ok; unfold INT64_MIN; lia|].
  eapply st_step; [apply ck64_ok; unfold INT64_MIN, INT64_MAX; unfold INT_MAX in *; lia|].
  (* offsets *)
  set (c_ := fun b : nat => unravel bd (Z.of_nat b)).
  assert (forall b, in_box bd (c_ b)) as Hcb by (intros b; by apply unravel_in_box).
  assert (forall b, in_box b1 (bproj b1 (c_ b))) as Hcb1.
  { intros b. apply (bproj_in_box b1 bd); [by rewrite Hrbd|done|done]. }
  assert (forall b, in_box b2 (bproj b2 (c_ b))) as Hcb2.
  { intros b. apply (bproj_in_box b2 bd); [by rewrite Hrbd|done|done]. }
  assert (forall l b, compat (rev l) rb -> off_rev (rev bd) (bs_rev (rev l) 1 (length bd)) (Z.of_nat b)
     = ravel l (bproj l (c_ b))) as Hoff.
  { intros l b HC. rewrite Hrbd. unfold bd at 1. rewrite rev_length. rewrite off_rev_ravel by done.
    rewrite rev_involutive. unfold c_, bd. lia. }
  rewrite <-(Z2Nat.id (prodZ bd)), <-(Z2Nat.id m), <-(Z2Nat.id k), <-(Z2Nat.id n) at 1 by lia. apply st_bind.
  eapply (batches_types Hv1 Hv2 Hx1 Hx2 Hty Hsome Hst s4 h4 [q2; q1; pp] _ _ _ _ _ _ _ _ _
    (fun b => Z.to_nat (ravel b1 (bproj b1 (c_ b)))) (fun b => Z.to_nat (ravel b2 (bproj b2 (c_ b))))).
  - done.
  - exact Ht.
  - exact HF4.
  - rewrite prodZ_app, Hmk. nia.
  - rewrite prodZ_app, Hmk. unfold INT64_MAX; unfold INT_MAX in *; nia.
  - lia.
  - nia.
  - lia.
  - lia.
  - intros b s' Hb. pose proof (ravel_bound _ _ (Hcb1 b)). pose proof (ravel_bound _ _ (Hcb2 b)).
    rewrite batch_offset_ok.
    + rewrite !Hoff by done. by rewrite !Z2Nat.id by lia.
    + done.
    + unfold INT64_MAX; unfold INT_MAX in *; lia.
    + done.
    + apply bs_rev_length.
    + apply bs_rev_length.
    + apply bs_rev_nonneg; [lia|done].
    + apply bs_rev_nonneg; [lia|done].
    + rewrite Hoff by done. lia.
    + rewrite Hoff by done. lia.
  - cbv beta. rewrite <-Hoff by done. change (Z.of_nat 0) with 0. by rewrite off_rev_0.
  - cbv beta. rewrite <-Hoff by done. change (Z.of_nat 0) with 0. by rewrite off_rev_0.
  - intros b Hb. pose proof (ravel_bound _ _ (Hcb1 b)).
    rewrite !Z2Nat.id by lia. apply (off_bound _ _ (prodZ b1)); [lia|lia|lia|lia].
  - lia.
  - lia.
  - lia.
  - lia.
Qed.

Lemma matmul_vv_types1 k :
  a_dims T1 = [k] -> a_dims T2 = [k] -> fits (tsz t) [1] -> stuck (aitisa_matmul (HPtr p1) (HPtr p2) o) E s.
Proof using All.
  intros D1 D2 Hf3. unfold t in *. pose proof some_vals as Hsome. unfold aitisa_matmul.
  open_holds H1 Hv1 Hx1. open_holds H2 Hv2 Hx2. rewrite D1 in *. rewrite D2 in *.
  rewrite ?Forall_cons in Hp1. rewrite ?Forall_cons in Hp2.
  eapply st_step; [by eapply tensor_device_ok|].
  eapply st_step; [by eapply tensor_device_ok|].
  unfold not_cpu. rewrite Hc1, Hc2. cbn [DEVICE_CPU negb orb Z.eqb].
  eapply st_step; [by eapply tensor_ndim_ok|].
  eapply st_step; [by eapply tensor_ndim_ok|]. cbn [length]. change (Z.of_nat 1 =? 1) with true. change (Z.of_nat 2 =? 1) with false.
  change (Z.of_nat 1 =? 2) with false. change (Z.of_nat 2 =? 2) with true. cbn [andb]. unfold matmul_vv.
  do 2 (eapply st_step; [by eapply tensor_dim_ok|]). rewrite Z.eqb_refl. cbn [negb].
  destruct (decide (INT_MAX < prodZ [1])) as [Hbig|Hmax].
  { apply st_bind. eexists. eapply zeros_big; done. }
  destruct (zeros_done p1 T1 [1] (Z.of_nat (length [1])) o E s) as (s2 & q & pd & pm & ps & px & Hz & Ht & Hr2);
    [done|done|exact H1|exact Hf3|lia|done|].
  eapply st_step; [exact Hz|]. cbv beta match. rewrite bool_decide_eq_true_2 by done. cbn [negb].
  pose proof (view_mono _ _ _ _ _ _ _ _ (tnew_base _ _ Ht) Hv1) as Hw1.
  pose proof (view_mono _ _ _ _ _ _ _ _ (tnew_base _ _ Ht) Hv2) as Hw2.
  eapply st_step; [by eapply tensor_dtype_ok|].
  eapply st_step; [by eapply tensor_data_ok|].
  eapply st_step; [by eapply tensor_data_ok|].
  eapply st_step; [by eapply tensor_data_ok, tnew_view|].
  unfold vv_template. rewrite dispatch_all_t. apply st_bind, st_bind.
  eapply (vv_types (exC := []));
    [by eapply tnew_lookup|by eapply tnew_lookup|rewrite app_nil_r; by eapply tnew_px|done|done| |done|..]; try lia.
  assert (0 < prodZ [1]) by (rewrite ?prodZ_cons, prodZ_nil; nia). destruct (Z.to_nat _) eqn:En; [lia|done].
Qed.

Lemma matmul_mv_types m k :
  a_dims T1 = [m; k] -> a_dims T2 = [k] -> fits (tsz t) [m] -> stuck (aitisa_matmul (HPtr p1) (HPtr p2) o) E s.
Proof using All.
  intros D1 D2 Hf3. unfold t in *. pose proof some_vals as Hsome. unfold aitisa_matmul.
  open_holds H1 Hv1 Hx1. open_holds H2 Hv2 Hx2. rewrite D1 in *. rewrite D2 in *.
  rewrite ?Forall_cons in Hp1. rewrite ?Forall_cons in Hp2.
  eapply st_step; [by eapply tensor_device_ok|].
  eapply st_step; [by eapply tensor_device_ok|].
  unfold not_cpu. rewrite Hc1, Hc2. cbn [DEVICE_CPU negb orb Z.eqb].
  eapply st_step; [by eapply tensor_ndim_ok|].
  eapply st_step; [by eapply tensor_ndim_ok|]. cbn [length]. change (Z.of_nat 1 =? 1) with true. change (Z.of_nat 2 =? 1) with false.
  change (Z.of_nat 1 =? 2) with false. change (Z.of_nat 2 =? 2) with true. cbn [andb]. unfold matmul_mv.
  do 3 (eapply st_step; [by eapply tensor_dim_ok|]). rewrite Z.eqb_refl. cbn [negb].
  destruct (decide (INT_MAX < prodZ [m])) as [Hbig|Hmax].
  { apply st_bind. eexists. eapply zeros_big; done. }
  destruct (zeros_done p1 T1 [m] (Z.of_nat (length [m])) o E s) as (s2 & q & pd & pm & ps & px & Hz & Ht & Hr2);
    [done|done|exact H1|exact Hf3|lia|done|].
  eapply st_step; [exact Hz|]. cbv beta match. rewrite bool_decide_eq_true_2 by done. cbn [negb].
  pose proof (view_mono _ _ _ _ _ _ _ _ (tnew_base _ _ Ht) Hv1) as Hw1.
  pose proof (view_mono _ _ _ _ _ _ _ _ (tnew_base _ _ Ht) Hv2) as Hw2.
  eapply st_step; [by eapply tensor_dtype_ok|].
  eapply st_step; [by eapply tensor_data_ok|].
  eapply st_step; [by eapply tensor_data_ok|].
  eapply st_step; [by eapply tensor_data_ok, tnew_view|].
  unfold mv_template. rewrite dispatch_all_t. apply st_bind, st_bind.
  eapply (mv_types (exC := []));
    [by eapply tnew_lookup|by eapply tnew_lookup|rewrite app_nil_r; by eapply tnew_px|done|done| |done|..]; try lia.
  assert (0 < prodZ [m]) by (rewrite ?prodZ_cons, prodZ_nil; nia). destruct (Z.to_nat _) eqn:En; [lia|done].
Qed.

Lemma matmul_mm_types m k n :
  a_dims T1 = [m; k] -> a_dims T2 = [k; n] -> fits (tsz t) [m; n] -> stuck (aitisa_matmul (HPtr p1) (HPtr p2) o) E s.
Proof using All.
  intros D1 D2 Hf3. unfold t in *. pose proof some_vals as Hsome. unfold aitisa_matmul.
  open_holds H1 Hv1 Hx1. open_holds H2 Hv2 Hx2. rewrite D1 in *. rewrite D2 in *.
  rewrite ?Forall_cons in Hp1. rewrite ?Forall_cons in Hp2.
  eapply st_step; [by eapply tensor_device_ok|].
  eapply st_step; [by eapply tensor_device_ok|].
  unfold not_cpu. rewrite Hc1, Hc2. cbn [DEVICE_CPU negb orb Z.eqb].
  eapply st_step; [by eapply tensor_ndim_ok|].
  eapply st_step; [by eapply tensor_ndim_ok|]. cbn [length]. change (Z.of_nat 1 =? 1) with true. change (Z.of_nat 2 =? 1) with false.
  change (Z.of_nat 1 =? 2) with false. change (Z.of_nat 2 =? 2) with true. cbn [andb]. unfold matmul_mm.
  do 4 (eapply st_step; [by eapply tensor_dim_ok|]). rewrite Z.eqb_refl. cbn [negb].
  destruct (decide (INT_MAX < prodZ [m; n])) as [Hbig|Hmax].
  { apply st_bind. eexists. eapply zeros_big; done. }
  destruct (zeros_done p1 T1 [m; n] (Z.of_nat (length [m; n])) o E s) as (s2 & q & pd & pm & ps & px & Hz & Ht & Hr2);
    [done|done|exact H1|exact Hf3|lia|done|].
  eapply st_step; [exact Hz|]. cbv beta match. rewrite bool_decide_eq_true_2 by done. cbn [negb].
  pose proof (view_mono _ _ _ _ _ _ _ _ (tnew_base _ _ Ht) Hv1) as Hw1.
  pose proof (view_mono _ _ _ _ _ _ _ _ (tnew_base _ _ Ht) Hv2) as Hw2.
  eapply st_step; [by eapply tensor_dtype_ok|].
  eapply st_step; [by eapply tensor_data_ok|].
  eapply st_step; [by eapply tensor_data_ok|].
  eapply st_step; [by eapply tensor_data_ok, tnew_view|].
  unfold mm_template. rewrite dispatch_all_t. apply st_bind, st_bind.
  eapply (mm_types (exC := []));
    [by eapply tnew_lookup|by eapply tnew_lookup|rewrite app_nil_r; by eapply tnew_px|done|done| |done|..]; try lia.
  assert (0 < prodZ [m; n]) by (rewrite ?prodZ_cons, prodZ_nil; nia). destruct (Z.to_nat _) eqn:En; [lia|done].
Qed.

Lemma matmul_vm_types k n :
  a_dims T1 = [k] -> a_dims T2 = [k; n] -> fits (tsz t) [n] -> stuck (aitisa_matmul (HPtr p1) (HPtr p2) o) E s.
Proof using All.
  intros D1 D2 Hf3. unfold t in *. pose proof some_vals as Hsome. unfold aitisa_matmul.
  open_holds H1 Hv1 Hx1. open_holds H2 Hv2 Hx2. rewrite D1 in *. rewrite D2 in *.
  rewrite ?Forall_cons in Hp1. rewrite ?Forall_cons in Hp2.
  eapply st_step; [by eapply tensor_device_ok|].
  eapply st_step; [by eapply tensor_device_ok|].
  unfold not_cpu. rewrite Hc1, Hc2. cbn [DEVICE_CPU negb orb Z.eqb].
  eapply st_step; [by eapply tensor_ndim_ok|].
  eapply st_step; [by eapply tensor_ndim_ok|]. cbn [length]. change (Z.of_nat 1 =? 1) with true. change (Z.of_nat 2 =? 1) with false.
  change (Z.of_nat 1 =? 2) with false. change (Z.of_nat 2 =? 2) with true. cbn [andb]. unfold matmul_vm.
  do 3 (eapply st_step; [by eapply tensor_dim_ok|]). rewrite Z.eqb_refl. cbn [negb].
  destruct (decide (INT_MAX < prodZ [n])) as [Hbig|Hmax].
  { apply st_bind. eexists. eapply zeros_big; done. }
  destruct (zeros_done p1 T1 [n] (Z.of_nat (length [n])) o E s) as (s2 & q & pd & pm & ps & px & Hz & Ht & Hr2);
    [done|done|exact H1|exact Hf3|lia|done|].
  eapply st_step; [exact Hz|]. cbv beta match. rewrite bool_decide_eq_true_2 by done. cbn [negb].
  pose proof (view_mono _ _ _ _ _ _ _ _ (tnew_base _ _ Ht) Hv1) as Hw1.
  pose proof (view_mono _ _ _ _ _ _ _ _ (tnew_base _ _ Ht) Hv2) as Hw2.
  eapply st_step; [by eapply tensor_dtype_ok|].
  eapply st_step; [by eapply tensor_data_ok|].
  eapply st_step; [by eapply tensor_data_ok|].
  eapply st_step; [by eapply tensor_data_ok, tnew_view|].
  unfold mm_template. rewrite dispatch_all_t. apply st_bind, st_bind.
  eapply (mm_types (exC := []));
    [by eapply tnew_lookup|by eapply tnew_lookup|rewrite app_nil_r; by eapply tnew_px|done|done| |done|..]; try lia.
  assert (0 < prodZ [n]) by (rewrite ?prodZ_cons, prodZ_nil; nia). destruct (Z.to_nat _) eqn:En; [lia|done].
Qed.

Lemma matmul_types d : conform (a_dims T1) (a_dims T2) d -> fits (tsz t) d -> stuck (aitisa_matmul (HPtr p1) (HPtr p2) o) E s.
Proof using All.
  intros HC. remember (a_dims T1) as d1 eqn:D1. remember (a_dims T2) as d2 eqn:D2. symmetry in D1, D2.
  rewrite <-D1 in Hp1. rewrite <-D2 in Hp2.
  destruct HC as [k|m k|k n|m k n|b m k Hb|b k n Hb|b1 b2 b m k n Hb HB]; intros Hf.
  - by eapply matmul_vv_types1.
  - by eapply matmul_mv_types.
  - by eapply matmul_vm_types.
  - by eapply matmul_mm_types.
  - by eapply matmul_tv_types.
  - by eapply matmul_vt_types.
  - eapply matmul_tt_types; try done. intros ->. 
    unfold bcast in HB. destruct (bcast_rev (rev b1) (rev b2)) as [rb|] eqn:HB'; [|done]. injection HB as HB.
    assert (rb = []) as -> by (destruct rb; [done|]; cbn in HB; by destruct (rev rb)).
    assert (b1 = [] /\ b2 = []) as [-> ->]; [|by destruct Hb].
    destruct (rev b1) as [|x l1] eqn:E1, (rev b2) as [|y l2] eqn:E2; cbn in HB'; try done.
    + apply (f_equal (@rev Z)) in E1, E2. rewrite rev_involutive in E1, E2. done.
    + repeat case_match; simplify_eq; destruct (bcast_rev l1 l2); done.
Qed.
End products.
