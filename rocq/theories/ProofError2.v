(** * ProofError2: accuracy of the products of tensors *)
From stdpp Require Import gmap list list_numbers.
From Coq Require Import ZArith Lia ZifyBool ZifyNat Floats.SpecFloat.
From Verif Require Import Base Mem Spec SpecReal SpecNN SpecError ModelCore ModelBasic ModelMath ModelNN Logic
  ProofCore ProofCore2 ProofCore3 ProofIndex ProofKernel ProofKernel2 ProofMatmul ProofMatmul2 ProofMatmul3
  ProofDot ProofDot2 ProofDot3 ProofDot4 ProofDot5 ProofDot6 ProofWindow ProofPool ProofPool3 ProofConv2 ProofConv5 ProofError.
Open Scope Z_scope.

Lemma float_total t : is_float t = true -> mac_total t.
Proof. intros H. unfold mac_total. destruct t; try done; set_solver. Qed.
Lemma init_at T t c : valid T -> a_type T = t -> init T -> in_box (a_dims T) c -> val_ok t (at_ T c).
Proof. intros HV <- HI Hc. unfold init in HI. eapply Forall_forall in HI; [exact HI|by apply at_elem]. Qed.

Ltac bx := unfold in_box; repeat (apply List.Forall2_cons; [lia|]); apply List.Forall2_nil.

(** A table of inner products *)
Lemma choose_inner t dev dims k (f g : list Z -> Z -> val) :
  is_float t = true -> fits (tsz t) dims ->
  (forall c q, in_box dims c -> 0 <= q < k -> val_ok t (f c q) /\ val_ok t (g c q)) ->
  exists T3, valid T3 /\ a_type T3 = t /\ a_dev T3 = dev /\ a_dims T3 = dims /\
    forall c, in_box dims c ->
      inner t k (f c) (g c) = Some (at_ T3 c) /\ accurate t (terms k (f c) (g c)) (at_ T3 c).
Proof.
  intros Ht Hf Hv.
  destruct (tab_choose t dev dims (fun c => inner t k (f c) (g c)) Hf) as (T3 & H1 & H2 & H3 & H4 & H5).
  { intros c Hc. destruct (inner_total t k (f c) (g c) (float_total t Ht)) as [w ->]; [|done].
    intros q Hq. by apply Hv. }
  exists T3. split_and!; [done..|]. intros c Hc. split; [by apply H5|].
  apply inner_accurate; [done|intros q Hq; by apply Hv|by apply H5].
Qed.

Section mm.
  Context (p1 p2 : nat) (T1 T2 : atensor) (o : hval) (E : env) (s : st).
  Context (Hwf : wf s) (H1 : holds (heap s) p1 T1) (H2 : holds (heap s) p2 T2).
  Context (Ht : is_float (a_type T1) = true) (Ht2 : a_type T2 = a_type T1).
  Context (Hc1 : dev_type (a_dev T1) = 0) (Hc2 : dev_type (a_dev T2) = 0).
  Context (I1 : init T1) (I2 : init T2).
  Let t := a_type T1.
  Let V1 := holds_valid _ _ _ H1.
  Let V2 := holds_valid _ _ _ H2.

  Lemma matmul_vv_acc k : a_dims T1 = [k] -> a_dims T2 = [k] -> k <= INT_MAX ->
    exists T3, valid T3 /\ a_type T3 = t /\ a_dev T3 = a_dev T1 /\ a_dims T3 = [1] /\
      accurate t (terms k (fun q => at_ T1 [q]) (fun q => at_ T2 [q])) (at_ T3 [0]) /\
      makes_or_nomem (aitisa_matmul (HPtr p1) (HPtr p2) o) E s o T3.
  Proof using Hwf H1 H2 Ht Ht2 Hc1 Hc2 I1 I2.
    intros D1 D2 Hk.
    destruct (choose_inner t (a_dev T1) [1] k (fun _ q => at_ T1 [q]) (fun _ q => at_ T2 [q]) Ht)
      as (T3 & V3 & T3t & T3v & T3d & HF).
    { split_and!; [repeat constructor; lia|vm_compute; discriminate|]. subst t.
      destruct (a_type T1); vm_compute; discriminate. }
    { intros c q _ Hq. split; apply init_at; try done; [rewrite D1|rewrite D2]; bx. }
    destruct (HF [0]) as [Hi Ha]; [bx|].
    exists T3. split_and!; [done..|]. eapply (matmul_vv_rule p1 p2 T1 T2 T3); try done.
    rewrite T3d. done.
  Qed.
  Lemma matmul_mv_acc m k : a_dims T1 = [m; k] -> a_dims T2 = [k] -> k <= INT_MAX -> m <= INT_MAX ->
    fits (tsz t) [m] ->
    exists T3, valid T3 /\ a_type T3 = t /\ a_dev T3 = a_dev T1 /\ a_dims T3 = [m] /\
      (forall i, 0 <= i < m ->
        accurate t (terms k (fun q => at_ T1 [i; q]) (fun q => at_ T2 [q])) (at_ T3 [i])) /\
      makes_or_nomem (aitisa_matmul (HPtr p1) (HPtr p2) o) E s o T3.
  Proof using Hwf H1 H2 Ht Ht2 Hc1 Hc2 I1 I2.
    intros D1 D2 Hk Hm Hf.
    destruct (choose_inner t (a_dev T1) [m] k (fun c q => at_ T1 (c ++ [q])) (fun _ q => at_ T2 [q]) Ht Hf)
      as (T3 & V3 & T3t & T3v & T3d & HF).
    { intros c q Hc Hq. split; apply init_at; try done; [rewrite D1|rewrite D2; bx].
      change [m; k] with ([m] ++ [k]); apply Forall2_app; [done|bx]. }
    assert (forall i, 0 <= i < m -> in_box [m] [i]) as Hb by (intros; bx).
    exists T3. split_and!; [done..| |].
    - intros i Hi. exact (proj2 (HF [i] (Hb i Hi))).
    - eapply (matmul_mv_rule p1 p2 T1 T2 T3); try done; [rewrite T3d; unfold prodZ; cbn [foldr]; lia|].
      intros i Hi. exact (proj1 (HF [i] (Hb i Hi))).
  Qed.
  Lemma matmul_vm_acc k n : a_dims T1 = [k] -> a_dims T2 = [k; n] -> k <= INT_MAX -> n <= INT_MAX ->
    fits (tsz t) [n] ->
    exists T3, valid T3 /\ a_type T3 = t /\ a_dev T3 = a_dev T1 /\ a_dims T3 = [n] /\
      (forall j, 0 <= j < n ->
        accurate t (terms k (fun q => at_ T1 [q]) (fun q => at_ T2 [q; j])) (at_ T3 [j])) /\
      makes_or_nomem (aitisa_matmul (HPtr p1) (HPtr p2) o) E s o T3.
  Proof using Hwf H1 H2 Ht Ht2 Hc1 Hc2 I1 I2.
    intros D1 D2 Hk Hm Hf.
    destruct (choose_inner t (a_dev T1) [n] k (fun c q => at_ T1 [q]) (fun c q => at_ T2 (q :: c)) Ht Hf)
      as (T3 & V3 & T3t & T3v & T3d & HF).
    { intros c q Hc Hq. split; apply init_at; try done; [rewrite D1; bx|rewrite D2].
      by constructor. }
    assert (forall i, 0 <= i < n -> in_box [n] [i]) as Hb by (intros; bx).
    exists T3. split_and!; [done..| |].
    - intros i Hi. exact (proj2 (HF [i] (Hb i Hi))).
    - eapply (matmul_vm_rule p1 p2 T1 T2 T3); try done; [rewrite T3d; unfold prodZ; cbn [foldr]; lia|].
      intros i Hi. exact (proj1 (HF [i] (Hb i Hi))).
  Qed.
  Lemma matmul_mm_acc m k n : a_dims T1 = [m; k] -> a_dims T2 = [k; n] ->
    m <= INT_MAX -> k <= INT_MAX -> n <= INT_MAX -> m * n <= INT_MAX -> fits (tsz t) [m; n] ->
    exists T3, valid T3 /\ a_type T3 = t /\ a_dev T3 = a_dev T1 /\ a_dims T3 = [m; n] /\
      (forall i j, 0 <= i < m -> 0 <= j < n ->
        accurate t (terms k (fun q => at_ T1 [i; q]) (fun q => at_ T2 [q; j])) (at_ T3 [i; j])) /\
      makes_or_nomem (aitisa_matmul (HPtr p1) (HPtr p2) o) E s o T3.
  Proof using Hwf H1 H2 Ht Ht2 Hc1 Hc2 I1 I2.
    intros D1 D2 Hm Hk Hn Hmn Hf.
    destruct (choose_inner t (a_dev T1) [m; n] k (fun c q => at_ T1 (take 1 c ++ [q])) (fun c q => at_ T2 (q :: drop 1 c)) Ht Hf)
      as (T3 & V3 & T3t & T3v & T3d & HF).
    { intros c q Hc Hq. split; apply init_at; try done; [rewrite D1|rewrite D2].
      - change [m; k] with ([m] ++ [k]); apply Forall2_app; [|bx]. exact (Forall2_take _ _ _ 1 Hc).
      - constructor; [done|]. exact (Forall2_drop _ _ _ 1 Hc). }
    assert (forall i j, 0 <= i < m -> 0 <= j < n -> in_box [m; n] [i; j]) as Hb by (intros; bx).
    exists T3. split_and!; [done..| |].
    - intros i j Hi Hj. exact (proj2 (HF _ (Hb i j Hi Hj))).
    - eapply (matmul_mm_rule p1 p2 T1 T2 T3); try done; [rewrite T3d; unfold prodZ; cbn [foldr]; lia|].
      intros i j Hi Hj. exact (proj1 (HF _ (Hb i j Hi Hj))).
  Qed.

  Lemma dot_vv_acc k : a_dims T1 = [k] -> a_dims T2 = [k] -> k <= INT_MAX ->
    exists w, accurate t (terms k (fun q => at_ T1 [q]) (fun q => at_ T2 [q])) w /\
      makes_or_nomem (aitisa_dot (HPtr p1) (HPtr p2) o) E s o (AT t (a_dev T1) [1] [w]).
  Proof using Hwf H1 H2 Ht Ht2 Hc1 Hc2 I1 I2.
    intros D1 D2 Hk.
    assert (forall q, 0 <= q < k -> val_ok t (at_ T1 [q]) /\ val_ok t (at_ T2 [q])) as Hv.
    { intros q Hq. split; apply init_at; try done; [rewrite D1|rewrite D2]; bx. }
    destruct (inner_total t k (fun q => at_ T1 [q]) (fun q => at_ T2 [q]) (float_total t Ht) Hv) as [w Hw].
    exists w. split; [by apply inner_accurate|]. by eapply dot_vv.
  Qed.

  Context (HE : alloc_all E) (HH : hooks_ok E).
  Context (P1 : Forall (fun d => 0 < d <= INT_MAX) (a_dims T1)).
  Lemma dot_tv_acc b k : b <> [] -> a_dims T1 = b ++ [k] -> a_dims T2 = [k] ->
    prodZ b * Z.of_nat (tsz t) <= INT_MAX -> fits (tsz t) b ->
    exists T3, valid T3 /\ a_type T3 = t /\ a_dev T3 = a_dev T1 /\ a_dims T3 = b /\
      (forall c, in_box b c ->
        accurate t (terms k (fun q => at_ T1 (c ++ [q])) (fun q => at_ T2 [q])) (at_ T3 c)) /\
      makes (aitisa_dot (HPtr p1) (HPtr p2) o) E s T3.
  Proof using Hwf H1 H2 Ht Ht2 Hc1 Hc2 I1 I2 HE HH P1.
    intros Hb D1 D2 Hmax Hf.
    destruct (choose_inner t (a_dev T1) b k (fun c q => at_ T1 (c ++ [q])) (fun _ q => at_ T2 [q]) Ht Hf)
      as (T3 & V3 & T3t & T3v & T3d & HF).
    { intros c q Hc Hq. split; apply init_at; try done; [rewrite D1|rewrite D2; bx].
      apply Forall2_app; [done|bx]. }
    exists T3. split_and!; [done..| |].
    - intros c Hc. exact (proj2 (HF c Hc)).
    - eapply (dot_tv_rule p1 p2 T1 T2 T3); try done; [by rewrite T3d, T3t|].
      intros c Hc. exact (proj1 (HF c Hc)).
  Qed.

  Context (P2 : Forall (fun d => 0 < d <= INT_MAX) (a_dims T2)).
  Lemma dot_tt_acc b1 b2 k n : (2 <= length b1)%nat -> (1 <= length b2)%nat ->
    a_dims T1 = b1 ++ [k] -> a_dims T2 = b2 ++ [k; n] ->
    prodZ b1 <= INT_MAX -> prodZ b2 * n <= INT_MAX -> fits (tsz t) (b1 ++ b2 ++ [n]) ->
    exists T3, valid T3 /\ a_type T3 = t /\ a_dev T3 = a_dev T1 /\ a_dims T3 = b1 ++ b2 ++ [n] /\
      (forall c e j, in_box b1 c -> in_box b2 e -> 0 <= j < n ->
        accurate t (terms k (fun q => at_ T1 (c ++ [q])) (fun q => at_ T2 (e ++ [q; j]))) (at_ T3 (c ++ e ++ [j]))) /\
      makes (aitisa_dot (HPtr p1) (HPtr p2) o) E s T3.
  Proof using Hwf H1 H2 Ht Ht2 Hc1 Hc2 I1 I2 HE HH P1 P2.
    intros L1 L2 D1 D2 M1 M2 Hf.
    destruct (choose_inner t (a_dev T1) (b1 ++ b2 ++ [n]) k
      (fun c q => at_ T1 (take (length b1) c ++ [q]))
      (fun c q => at_ T2 (take (length b2) (drop (length b1) c) ++ [q] ++ drop (length b2) (drop (length b1) c))) Ht Hf)
      as (T3 & V3 & T3t & T3v & T3d & HF).
    { intros c q Hc Hq. apply Forall2_app_inv_l in Hc as (c1 & c' & Hc1' & Hc' & ->).
      apply Forall2_app_inv_l in Hc' as (c2 & c3 & Hc2' & Hc3 & ->).
      pose proof (Forall2_length _ _ _ Hc1') as Hl1. pose proof (Forall2_length _ _ _ Hc2') as Hl2.
      rewrite drop_app_alt, take_app_alt, take_app_alt, drop_app_alt by done.
      split; apply init_at; try done; [rewrite D1|rewrite D2].
      - apply Forall2_app; [done|bx].
      - apply Forall2_app; [done|]. by constructor. }
    assert (forall c e j, in_box b1 c -> in_box b2 e -> 0 <= j < n ->
      inner t k (fun q => at_ T1 (c ++ [q])) (fun q => at_ T2 (e ++ [q; j])) = Some (at_ T3 (c ++ e ++ [j])) /\
      accurate t (terms k (fun q => at_ T1 (c ++ [q])) (fun q => at_ T2 (e ++ [q; j]))) (at_ T3 (c ++ e ++ [j]))) as HG.
    { intros c e j Hc He Hj. specialize (HF (c ++ e ++ [j])).
      pose proof (Forall2_length _ _ _ Hc) as Hl1. pose proof (Forall2_length _ _ _ He) as Hl2.
      rewrite drop_app_alt, take_app_alt, take_app_alt, drop_app_alt in HF by done. apply HF.
      repeat apply Forall2_app; [done..|]. bx. }
    exists T3. split_and!; [done..| |].
    - intros c e j Hc He Hj. by apply HG.
    - eapply (dot_tt_rule p1 p2 T1 T2 T3); try done. intros c e j Hc He Hj. by apply HG.
  Qed.
  Lemma matmul_tt_acc b1 b2 bd m k n : bd <> [] -> a_dims T1 = b1 ++ [m; k] -> a_dims T2 = b2 ++ [k; n] ->
    bcast b1 b2 = Some bd -> prodZ (bd ++ [m; n]) <= INT_MAX -> fits (tsz t) (bd ++ [m; n]) ->
    exists T3, valid T3 /\ a_type T3 = t /\ a_dev T3 = a_dev T1 /\ a_dims T3 = bd ++ [m; n] /\
      (forall c i j, in_box bd c -> 0 <= i < m -> 0 <= j < n ->
        accurate t (terms k (fun q => at_ T1 (bproj b1 c ++ [i; q])) (fun q => at_ T2 (bproj b2 c ++ [q; j])))
          (at_ T3 (c ++ [i; j]))) /\
      makes (aitisa_matmul (HPtr p1) (HPtr p2) o) E s T3.
  Proof using Hwf H1 H2 Ht Ht2 Hc1 Hc2 I1 I2 HE HH P1 P2.
    intros Hbd D1 D2 Hbc Hmax Hf.
    assert (forall c, in_box bd c -> in_box b1 (bproj b1 c) /\ in_box b2 (bproj b2 c)) as Hproj.
    { unfold bcast in Hbc. destruct (bcast_rev (rev b1) (rev b2)) as [r|] eqn:Hr; [|done]. simplify_eq/=.
      destruct (bcast_rev_compat _ _ _ Hr) as [C1 C2]. intros c Hc.
      rewrite D1 in P1. apply Forall_app in P1 as [P1 _]. rewrite D2 in P2. apply Forall_app in P2 as [P2 _].
      split; (eapply bproj_in_box; [rewrite rev_involutive|exact Hc|]); try done;
        (eapply Forall_impl; [eassumption|cbv beta; lia]). }
    destruct (choose_inner t (a_dev T1) (bd ++ [m; n]) k
      (fun c q => at_ T1 (bproj b1 (take (length bd) c) ++ take 1 (drop (length bd) c) ++ [q]))
      (fun c q => at_ T2 (bproj b2 (take (length bd) c) ++ [q] ++ drop 1 (drop (length bd) c))) Ht Hf)
      as (T3 & V3 & T3t & T3v & T3d & HF).
    { intros c q Hc Hq. apply Forall2_app_inv_l in Hc as (c1 & c' & Hc1' & Hc' & ->).
      pose proof (Forall2_length _ _ _ Hc1') as Hl1.
      rewrite drop_app_alt, take_app_alt by done. destruct (Hproj c1 Hc1') as [B1 B2].
      split; apply init_at; try done; [rewrite D1|rewrite D2].
      - apply Forall2_app; [done|]. change [m; k] with ([m] ++ [k]); apply Forall2_app; [|bx].
        exact (Forall2_take _ _ _ 1 Hc').
      - apply Forall2_app; [done|]. constructor; [done|]. exact (Forall2_drop _ _ _ 1 Hc'). }
    assert (forall c i j, in_box bd c -> 0 <= i < m -> 0 <= j < n ->
      inner t k (fun q => at_ T1 (bproj b1 c ++ [i; q])) (fun q => at_ T2 (bproj b2 c ++ [q; j])) = Some (at_ T3 (c ++ [i; j])) /\
      accurate t (terms k (fun q => at_ T1 (bproj b1 c ++ [i; q])) (fun q => at_ T2 (bproj b2 c ++ [q; j]))) (at_ T3 (c ++ [i; j]))) as HG.
    { intros c i j Hc Hi Hj. specialize (HF (c ++ [i; j])).
      pose proof (Forall2_length _ _ _ Hc) as Hl1.
      rewrite drop_app_alt, take_app_alt in HF by done. apply HF.
      apply Forall2_app; [done|]. bx. }
    exists T3. split_and!; [done..| |].
    - intros c e j Hc He Hj. by apply HG.
    - eapply (matmul_tt_rule p1 p2 T1 T2 T3); try done; [by rewrite T3d|]. intros c e j Hc He Hj. by apply HG.
  Qed.
  Lemma matmul_tv_acc b1 m k : b1 <> [] -> a_dims T1 = b1 ++ [m; k] -> a_dims T2 = [k] ->
    prodZ (b1 ++ [m]) <= INT_MAX -> fits (tsz t) (b1 ++ [m]) ->
    exists T3, valid T3 /\ a_type T3 = t /\ a_dev T3 = a_dev T1 /\ a_dims T3 = b1 ++ [m] /\
      (forall c i, in_box b1 c -> 0 <= i < m ->
        accurate t (terms k (fun q => at_ T1 (c ++ [i; q])) (fun q => at_ T2 [q])) (at_ T3 (c ++ [i]))) /\
      makes (aitisa_matmul (HPtr p1) (HPtr p2) o) E s T3.
  Proof using Hwf H1 H2 Ht Ht2 Hc1 Hc2 I1 I2 HE HH P1 P2.
    intros Hb D1 D2 Hmax Hf.
    destruct (choose_inner t (a_dev T1) (b1 ++ [m]) k (fun c q => at_ T1 (c ++ [q])) (fun _ q => at_ T2 [q]) Ht Hf)
      as (T3 & V3 & T3t & T3v & T3d & HF).
    { intros c q Hc Hq. split; apply init_at; try done; [rewrite D1|rewrite D2; bx].
      change [m; k] with ([m] ++ [k]). rewrite (assoc_L (++)). apply Forall2_app; [done|bx]. }
    assert (forall c i, in_box b1 c -> 0 <= i < m ->
      inner t k (fun q => at_ T1 (c ++ [i; q])) (fun q => at_ T2 [q]) = Some (at_ T3 (c ++ [i])) /\
      accurate t (terms k (fun q => at_ T1 (c ++ [i; q])) (fun q => at_ T2 [q])) (at_ T3 (c ++ [i]))) as HG.
    { intros c i Hc Hi. destruct (HF (c ++ [i])) as [A1 A2]; [apply Forall2_app; [done|bx]|].
      assert (forall q, at_ T1 ((c ++ [i]) ++ [q]) = at_ T1 (c ++ [i; q])) as Heq
        by (intros q; by rewrite <-(assoc_L (++))).
      split; [rewrite <-A1|]; [by apply inner_ext; intros|].
      revert A2. unfold terms. erewrite list_fmap_ext; [by intros A2; exact A2|].
      intros ? q _. cbn. by rewrite <-(assoc_L (++)). }
    exists T3. split_and!; [done..| |].
    - intros c i Hc Hi. by apply HG.
    - eapply (matmul_tv_rule p1 p2 T1 T2 T3); try done; [by rewrite T3d|]. intros c i Hc Hi. by apply HG.
  Qed.
  Lemma matmul_vt_acc b2 k n : b2 <> [] -> a_dims T1 = [k] -> a_dims T2 = b2 ++ [k; n] ->
    prodZ (b2 ++ [n]) <= INT_MAX -> fits (tsz t) (b2 ++ [n]) ->
    exists T3, valid T3 /\ a_type T3 = t /\ a_dev T3 = a_dev T1 /\ a_dims T3 = b2 ++ [n] /\
      (forall c j, in_box b2 c -> 0 <= j < n ->
        accurate t (terms k (fun q => at_ T1 [q]) (fun q => at_ T2 (c ++ [q; j]))) (at_ T3 (c ++ [j]))) /\
      makes (aitisa_matmul (HPtr p1) (HPtr p2) o) E s T3.
  Proof using Hwf H1 H2 Ht Ht2 Hc1 Hc2 I1 I2 HE HH P1 P2.
    intros Hb D1 D2 Hmax Hf.
    destruct (choose_inner t (a_dev T1) (b2 ++ [n]) k (fun _ q => at_ T1 [q])
      (fun c q => at_ T2 (take (length b2) c ++ [q] ++ drop (length b2) c)) Ht Hf)
      as (T3 & V3 & T3t & T3v & T3d & HF).
    { intros c q Hc Hq. apply Forall2_app_inv_l in Hc as (c1 & c' & Hc1' & Hc' & ->).
      pose proof (Forall2_length _ _ _ Hc1') as Hl1.
      rewrite drop_app_alt, take_app_alt by done.
      split; apply init_at; try done; [rewrite D1; bx|rewrite D2].
      apply Forall2_app; [done|]. by constructor. }
    assert (forall c j, in_box b2 c -> 0 <= j < n ->
      inner t k (fun q => at_ T1 [q]) (fun q => at_ T2 (c ++ [q; j])) = Some (at_ T3 (c ++ [j])) /\
      accurate t (terms k (fun q => at_ T1 [q]) (fun q => at_ T2 (c ++ [q; j]))) (at_ T3 (c ++ [j]))) as HG.
    { intros c j Hc Hj. specialize (HF (c ++ [j])). pose proof (Forall2_length _ _ _ Hc) as Hl1.
      rewrite drop_app_alt, take_app_alt in HF by done. apply HF. apply Forall2_app; [done|bx]. }
    exists T3. split_and!; [done..| |].
    - intros c i Hc Hi. by apply HG.
    - eapply (matmul_vt_rule p1 p2 T1 T2 T3); try done; [by rewrite T3d|]. intros c i Hc Hi. by apply HG.
  Qed.
End mm.

(** ** Convolution *)
Lemma conv_acc p pf T F nb nc oc fc sd ks ss ps ls g o E s :
  wf s -> alloc_all E -> hooks_ok E -> holds (heap s) p T -> holds (heap s) pf F ->
  a_type T = F32 -> a_type F = F32 ->
  a_dims T = nb :: nc :: sd -> a_dims F = oc :: fc :: ks -> nc <= fc -> 0 < nc ->
  (length sd <= 3)%nat -> win_ok sd ks ss ps ls ->
  fits (tsz F32) (nb :: oc :: win_outs sd ks ss ps ls) -> init T -> init F ->
  exists T3, a_type T3 = F32 /\ a_dev T3 = a_dev T /\ a_dims T3 = nb :: oc :: win_outs sd ks ss ps ls /\
    valid T3 /\
    (forall b c x, in_box (a_dims T3) (b :: c :: x) ->
       accurate F32 (conv_terms T F ss ps ls nc b c x) (at_ T3 (b :: c :: x))) /\
    makes_saying (conv_status E) (aitisa_conv (HPtr p) (HPtr pf) ss ps ls g o) E s T3.
Proof.
  intros Hwf HE HH HT HF HtT HtF HdT HdF Hnc Hnc0 Hrank Hok Hfit HiT HiF.
  destruct (fit_conv_total p pf T F nb nc oc fc sd ks ss ps ls g o E s Hwf HE HH HT HF HtT HtF HdT HdF Hnc Hnc0 Hrank Hok Hfit HiT HiF)
    as (T3 & H1 & H2 & H3 & H4 & _ & H6 & H7).
  exists T3. split_and!; [done..| |done]. intros b c x Hx. apply mac_accurate; [done| |by apply H6].
  rewrite H3 in Hx. inversion Hx as [|? ? ? ? Hb Hy]; subst. inversion Hy as [|? ? ? ? Hc Hz]; subst.
  unfold init in *. rewrite HtT in HiT. rewrite HtF in HiF.
  eapply conv_terms_forall; try done; [by eapply holds_valid|by eapply holds_valid|by eapply win_ks_pos].
Qed.
