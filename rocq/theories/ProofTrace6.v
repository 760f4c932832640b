(** * ProofTrace6: batch normalisation and cast, with arbitrary arguments *)
From stdpp Require Import gmap list.
From Coq Require Import ZArith Lia Floats.SpecFloat.
From Verif Require Import Base Mem Spec ModelCore ModelBasic ModelMath ModelNN.
From Verif Require Import ProofTrace ProofTrace2 ProofTrace3 ProofTrace4 ProofTrace5.
Open Scope Z_scope.

(** A list of handles and the list of the tensors behind them. *)
Definition ten (h : hval) (i : item) : Prop := exists p pd pm ps px, h = HPtr p /\ i = IT p pd pm ps px.
Notation tens := (Forall2 ten).

Section BN.
  Context (E : env) (F : gmap nat block).

  Definition denQ (L : list item) (r : ctl hval status) (L' : list item) : Prop :=
    match r with
    | Next h => exists p pd pm ps px, h = HPtr p /\ L' = IT p pd pm ps px :: L
    | Return s => s <> SUCCESS /\ L `suffix_of` L'
    end.
  Lemma tr_bn_denominator t v e L : tr E F L (bn_denominator t v e) (denQ L).
  Proof.
    unfold bn_denominator, try_. ts; apply tr_ret; cbn [denQ]; first [by (split; [done|suf]) | do 5 eexists; split; reflexivity].
  Qed.

  Definition parQ (L : list item) (r : ctl (hval * hval * hval * hval * hval) status) (L' : list item) : Prop :=
    match r with
    | Next (me, sc, bi, de, te) => exists m s b d t,
        ten me m /\ ten sc s /\ ten bi b /\ ten de d /\ ten te t /\ L' ≡ₚ m :: s :: b :: d :: t :: L
    | Return s => s <> SUCCESS /\ L `suffix_of` L'
    end.
  Lemma tr_bn_parameters dt dev dims nd sc bi me va ep n el c L :
    tr E F L (bn_parameters dt dev dims nd sc bi me va ep n el c) (parQ L).
  Proof.
    unfold bn_parameters, try_. ts; apply tr_ret; cbn [parQ]; try (by (split; [done|suf])).
    do 5 eexists. do 5 (split; [by do 5 eexists; split; reflexivity|]). solve_Permutation.
  Qed.

  Lemma tr_iter_inv {S} (J : Z -> S -> list item -> Prop) n i (body : Z -> S -> M S) s L :
    (forall j s L, i <= j < i + Z.of_nat n -> J j s L -> tr E F L (body j s) (J (j + 1))) -> J i s L ->
    tr E F L (iter n i body s) (J (i + Z.of_nat n)).
  Proof.
    revert i s L. induction n as [|n IH]; intros i s L H Hj; cbn [iter].
    - apply tr_ret. by replace (i + Z.of_nat 0) with i by lia.
    - eapply tr_bind; [apply H; [lia|done]|]. intros a L' Ha. cbn in Ha.
      replace (i + Z.of_nat (Datatypes.S n)) with (i + 1 + Z.of_nat n) by lia. apply IH; [|done].
      intros j x L1 Hij. apply H. lia.
  Qed.
  Definition ctJ {S} (L0 : list item) (J : S -> list item -> Prop) (r : ctl S status) (L' : list item) : Prop :=
    match r with Next s => J s L' | Return s => s <> SUCCESS /\ L0 `suffix_of` L' end.
  Lemma tr_iter_ret_inv {S} L0 (J : Z -> S -> list item -> Prop) n i (body : Z -> S -> M (ctl S status)) s L :
    (forall i s L, J i s L -> tr E F L (body i s) (ctJ L0 (J (i + 1)))) -> J i s L ->
    tr E F L (iter_ret n i body s) (ctJ L0 (J (i + Z.of_nat n))).
  Proof.
    intros H. revert i s L. induction n as [|n IH]; intros i s L Hj; cbn [iter_ret].
    - apply tr_ret. cbn. by replace (i + Z.of_nat 0) with i by lia.
    - eapply tr_bind; [by apply H|]. intros [a|r] L' Ha; cbn in Ha.
      + replace (i + Z.of_nat (Datatypes.S n)) with (i + 1 + Z.of_nat n) by lia. by apply IH.
      + by apply tr_ret.
  Qed.

  (** Reads of memory that was there before. *)
  Definition stable {A} (m : M A) (v : A) : Prop := forall s, F ⊆ heap s -> m E s = Done v s.
  Lemma Inv_sub L s : Inv E F L s -> F ⊆ heap s.
  Proof.
    intros I. apply map_subseteq_spec. intros b x Hb. destruct (decide (b ∈ ids L)) as [Hi|Hi].
    - destruct (inv_in _ _ _ _ I b Hi). congruence.
    - by rewrite (inv_out _ _ _ _ I b Hi).
  Qed.
  Lemma tr_stable {A B} L (m : M A) v (k : A -> M B) Q : stable m v -> tr E F L (k v) Q -> tr E F L (bind m k) Q.
  Proof.
    intros H Hk s I. unfold bind. rewrite (H _ (Inv_sub _ _ I)). exact (Hk _ I).
  Qed.

  Definition five (L0 : list item) (i : Z) (x : list hval * list hval * list hval * list hval * list hval) (L' : list item) : Prop :=
    let '(ms, ss, bs, ds, ts) := x in
    exists Lm Ls Lb Ld Lt, tens ms Lm /\ tens ss Ls /\ tens bs Lb /\ tens ds Ld /\ tens ts Lt /\
      Z.of_nat (length ms) = i /\ Z.of_nat (length ss) = i /\ Z.of_nat (length bs) = i /\ Z.of_nat (length ds) = i /\ Z.of_nat (length ts) = i /\
      L' ≡ₚ Lm ++ Ls ++ Lb ++ Ld ++ Lt ++ L0.

  (** Destroying the tensors of a list one after the other. *)
  Lemma tr_destroy_at {B} hs Li i L L' (k : status * hval -> M B) Q :
    tens hs Li -> 0 <= i < Z.of_nat (length hs) -> L ≡ₚ drop (Z.to_nat i) Li ++ L' ->
    tr E F (drop (Z.to_nat (i + 1)) Li ++ L') (k (SUCCESS, HNull)) Q ->
    tr E F L (let* x := aget hs i in let* r := aitisa_destroy x in k r) Q.
  Proof.
    intros Ht Hi P Hk. destruct (lookup_lt_is_Some_2 hs (Z.to_nat i)) as [h Hh]; [lia|].
    destruct (Forall2_lookup_l _ _ _ _ _ Ht Hh) as (it & Hit & (p & pd & pm & ps & px & -> & ->)).
    unfold aget, zget. replace (i <? 0) with false by lia. rewrite Hh. cbn [opt]. apply tr_bret.
    eapply tr_destroy; [|exact Hk]. rewrite P. rewrite (drop_S _ _ _ Hit). replace (Z.to_nat (i + 1)) with (S (Z.to_nat i)) by lia. apply Permutation_refl.
  Qed.

  Definition arrQ (L : list item) (ch : Z) (r : ctl bn_arrays status) (L' : list item) : Prop :=
    match r with
    | Next a => exists Lm Ls Lb Ld, tens (bl_mean a) Lm /\ tens (bl_scale a) Ls /\ tens (bl_bias a) Lb /\ tens (bl_den a) Ld /\
        Z.of_nat (length (bl_mean a)) = Z.max 0 ch /\ Z.of_nat (length (bl_scale a)) = Z.max 0 ch /\
        Z.of_nat (length (bl_bias a)) = Z.max 0 ch /\ Z.of_nat (length (bl_den a)) = Z.max 0 ch /\
        L' ≡ₚ Lm ++ Ls ++ Lb ++ Ld ++ IM (e_alloc E) (ba_scale a) :: IM (e_alloc E) (ba_bias a) :: IM (e_alloc E) (ba_mean a) :: IM (e_alloc E) (ba_den a) :: L
    | Return s => s <> SUCCESS /\ L `suffix_of` L'
    end.
  Lemma tr_bn_intermediate t ax sc bi me va ep ch L :
    stable (tensor_dim t ax) ch ->
    tr E F L (bn_intermediate t ax sc bi me va ep) (arrQ L ch).
  Proof.
    intros Hs. unfold bn_intermediate, try_. do 4 (apply tr_kr; [solve [kr]|intros ?]).
    eapply tr_stable; [exact Hs|]. cbv zeta. apply tr_scratch. intros p1 Hp1.
    case_on (is_null p1); [apply tr_ret; cbn; split; [done|suf]|].
    apply tr_kr; [solve [kr]|]. intros dims.
    eapply tr_op; [solve [auto with tr]| |]; cycle 1.
    { intros st o l Hst. cbv beta match. case_on (negb (bool_decide (st = SUCCESS))). apply tr_ret. cbn. split; [done|suf]. }
    intros pe d1 d2 d3 d4. cbv beta match. case_on (negb (bool_decide (SUCCESS = SUCCESS))).
    apply tr_kr; [solve [kr]|]. intros n.
    apply tr_scratch; intros pm Hm. apply tr_scratch; intros psc Hsc. apply tr_scratch; intros pb Hb.
    apply tr_scratch; intros pd Hd. apply tr_scratch; intros pt Ht. apply tr_scratch; intros pv Hv.
    destruct (is_null pm || is_null psc || is_null pb || is_null pd || is_null pv);
      [apply tr_ret; cbn; split; [done|suf]|].
    set (L0 := IM (e_alloc E) pv :: _).
    eapply (tr_bind _ _ _ _ _ (ctJ L0 (five L0 (Z.max 0 ch)))).
    - unfold ctl_u32. case_on (2 ^ 32 <=? ch); [apply tr_diverge|].
      replace (Z.max 0 ch) with (0 + Z.of_nat (Z.to_nat ch)) by lia.
      eapply (tr_iter_ret_inv L0 (five L0)).
      2:{ exists [], [], [], [], []. repeat split; try constructor. apply Permutation_refl. }
      intros i [[[[ms ss] bs] ds] ts] L1 (Lm & Ls & Lb & Ld & Lt & T1 & T2 & T3 & T4 & T5 & N1 & N2 & N3 & N4 & N5 & P).
      apply tr_kr; [solve [kr]|]. intros _. eapply tr_perm; [exact P|]. eapply tr_bind; [apply tr_bn_parameters|].
      intros [[[[[xm xs] xb] xd] xt]|r] L2; cbn [parQ].
      + intros (m & s & b & d & t' & U1 & U2 & U3 & U4 & U5 & P2). apply tr_ret. cbn [ctJ five].
        exists (Lm ++ [m]), (Ls ++ [s]), (Lb ++ [b]), (Ld ++ [d]), (Lt ++ [t']).
        do 5 (split; [by apply Forall2_app; [|constructor]|]).
        rewrite !app_length. cbn [length]. do 5 (split; [lia|]).
        rewrite P2, <-!app_assoc. cbn [app]. solve_Permutation.
      + intros (Hr & J & ->). apply tr_ret. cbn [ctJ]. split; [done|]. rewrite !app_assoc. by eexists.
    - intros [[[[[ms ss] bs] ds] ts]|r] L1; cbn [ctJ five].
      2:{ intros (Hr & Hsuf). apply tr_ret. cbn. split; [done|]. etrans; [|exact Hsuf]. subst L0. suf. }
      intros (Lm & Ls & Lb & Ld & Lt & T1 & T2 & T3 & T4 & T5 & N1 & N2 & N3 & N4 & N5 & P).
      cbv beta match. set (A := Lm ++ Ls ++ Lb ++ Ld ++ Lt) in *.
      assert (P' : L1 ≡ₚ IT pe d1 d2 d3 d4 :: IM (e_alloc E) pv :: IM (e_alloc E) p1 :: IM (e_alloc E) pt :: A ++
                        IM (e_alloc E) psc :: IM (e_alloc E) pb :: IM (e_alloc E) pm :: IM (e_alloc E) pd :: L).
      { rewrite P. subst A L0. rewrite !app_assoc. clear. solve_Permutation. }
      eapply tr_perm; [exact P'|]. eapply tr_destroy; [perm|]. eapply tr_raw_dealloc; [perm|]. eapply tr_raw_dealloc; [perm|].
      eapply (tr_bind _ _ _ _ _ (fun _ L2 => L2 ≡ₚ IM (e_alloc E) pt :: Lm ++ Ls ++ Lb ++ Ld ++ IM (e_alloc E) psc :: IM (e_alloc E) pb :: IM (e_alloc E) pm :: IM (e_alloc E) pd :: L)).
      + unfold for64. set (B := IM (e_alloc E) pt :: Lm ++ Ls ++ Lb ++ Ld ++ IM (e_alloc E) psc :: IM (e_alloc E) pb :: IM (e_alloc E) pm :: IM (e_alloc E) pd :: L).
        eapply tr_weaken; [eapply (tr_iter_inv (fun i _ L2 => L2 ≡ₚ drop (Z.to_nat i) Lt ++ B))|].
        * intros i u L2 Hi P2. eapply tr_destroy_at; [exact T5|lia|exact P2|]. apply tr_ret. apply Permutation_refl.
        * cbn [Z.to_nat drop]. subst A B. rewrite <-!app_assoc. clear. solve_Permutation.
        * intros u L2. cbn beta. intros ->. rewrite drop_ge; [done|]. rewrite <-(Forall2_length _ _ _ T5). lia.
      + intros _ L2 P2. eapply tr_perm; [exact P2|]. eapply tr_raw_dealloc; [perm|]. apply tr_ret. cbn.
        exists Lm, Ls, Lb, Ld. split_and!; try done.
  Qed.

  Lemma stable_dim t ax s ch : F = heap s -> tensor_dim t ax E s = Done ch s -> stable (tensor_dim t ax) ch.
  Proof.
    intros HF e s' Hs. rewrite HF in Hs. clear HF. unfold tensor_dim, tensor_dims, get_timpl, int_array, get_ints, deref, aget, bind in *.
    destruct t as [|b|]; try done. destruct (heap s !! b) as [x|] eqn:Hb; [|done]. rewrite (lookup_weaken _ _ _ _ Hb Hs).
    destruct (b_content x); try done. cbn in *. destruct (is_null (t_dims t)); cbn in *; [destruct (zget [] ax); [|done]; cbn in *; unfold ret in *; congruence|].
    destruct (t_dims t) as [|b'|]; try done. destruct (heap s !! b') as [x'|] eqn:Hb'; [|done]. rewrite (lookup_weaken _ _ _ _ Hb' Hs).
    destruct (b_content x'); try done. cbn in *. destruct (zget l ax); [|done]. cbn in *. unfold ret in *. congruence.
  Qed.
  Lemma tr_dim0 {B} t ax (k : Z -> M B) Q :
    (forall ch, stable (tensor_dim t ax) ch -> tr E F [] (k ch) Q) -> tr E F [] (bind (tensor_dim t ax) k) Q.
  Proof.
    intros H s I. unfold bind. destruct (tensor_dim t ax E s) as [ch s1|u| |] eqn:e1; try done; cycle 1.
    { intros _ ->. clear -e1. unfold tensor_dim, tensor_dims, get_timpl, int_array, get_ints, deref, aget, bind in *.
      destruct t as [|b|]; try done. destruct (heap s !! b) as [x|]; [|done].
      destruct (b_content x); try done. cbn in *.
      destruct (is_null (t_dims t)); cbn in *; [by destruct (zget [] ax)|].
      destruct (t_dims t) as [|b'|]; try done. destruct (heap s !! b') as [x'|]; [|done].
      destruct (b_content x'); try done. cbn in *. by destruct (zget l ax). }
    assert (s1 = s) as ->.
    { clear -e1. unfold tensor_dim, tensor_dims, get_timpl, int_array, get_ints, deref, aget, bind in *.
      destruct t as [|b|]; try done. destruct (heap s !! b) as [x|]; [|done].
      destruct (b_content x); try done. cbn in *.
      destruct (is_null (t_dims t)); cbn in *; [destruct (zget [] ax); [|done]; cbn in *; unfold ret in *; congruence|].
      destruct (t_dims t) as [|b'|]; try done. destruct (heap s !! b') as [x'|]; [|done].
      destruct (b_content x'); try done. cbn in *. destruct (zget l ax); [|done]. cbn in *. unfold ret in *. congruence. }
    eapply H; [|exact I]. eapply (stable_dim _ _ s); [|exact e1].
    apply map_eq. intros b. symmetry. apply (inv_out _ _ _ _ I). apply not_elem_of_nil.
  Qed.
  Lemma tr_bn_check t ax sc bi me va ep :
    tr E F [] (batch_norm_check t ax sc bi me va ep) (fun r L' => L' = [] /\ (r = SUCCESS -> exists ch, stable (tensor_dim t ax) ch)).
  Proof.
    unfold batch_norm_check.
    repeat (cbv beta match zeta; match goal with
      | |- forall _, _ => intros ?
      | |- tr _ _ _ (bind (tensor_dim _ _) _) _ => apply tr_dim0
      | |- tr _ _ _ (bind _ _) _ => apply tr_kr; [solve [kr]|]
      | |- tr _ _ _ (if ?x then _ else _) _ => destruct x
      | |- tr _ _ _ (ret _) _ => apply tr_ret; split; [done|by eauto]
      end).
  Qed.
  Lemma tr_batch_norm t ax sc bi me va ep o : tr E F [] (aitisa_batch_norm t ax sc bi me va ep o) (opQ []).
  Proof.
    unfold aitisa_batch_norm. eapply tr_bind; [apply tr_bn_check|]. intros st L' [-> Hst].
    case_on (negb (bool_decide (st = SUCCESS))); [|apply tr_ret; fin]. subst st. destruct (Hst eq_refl) as [ch Hch]. clear Hst.
    unfold batch_norm_create_output. eapply tr_op; [apply tr_like| |]; cycle 1.
    { intros st h l Hn. cbv beta match. case_on (negb (bool_decide (st = SUCCESS))). apply tr_ret; fin. }
    intros p pd pm ps px. cbv beta match. case_on (negb (bool_decide (SUCCESS = SUCCESS))).
    apply tr_kr; [solve [kr]|]. intros nd. destruct (nd =? 2).
    - eapply tr_bind; [apply tr_bn_denominator|]. intros [h|r] L'; cbn [denQ].
      + intros (q & qd & qm & qs & qx & -> & ->). eapply tr_st; [eapply tr_bn_without; mem| |].
        * eapply tr_destroy; [perm|]. apply tr_ret. fin.
        * intros s l Hs. eapply tr_destroy; [perm|]. apply tr_ret. fin.
      + intros (Hr & Hs). apply tr_ret. right. split; [done|]. by apply suffix_nil.
    - destruct ((2 <? nd) && (nd <? 6)); [|apply tr_ret; fin].
      eapply tr_bind; [by apply tr_bn_intermediate|]. intros [a|r] L'; cbn [arrQ]; cycle 1.
      { intros (Hr & Hs). apply tr_ret. right. split; [done|]. by apply suffix_nil. }
      intros (Lm & Ls & Lb & Ld & T1 & T2 & T3 & T4 & N1 & N2 & N3 & N4 & P).
      assert (Hm : IT p pd pm ps px ∈ L').
      { rewrite P. rewrite !elem_of_app, !elem_of_cons. tauto. }
      assert (G : forall (st : status) l, tr E F (l ++ L')
         (let* channels := tensor_dim t ax in
          for64 0 channels (fun i _ =>
            let* x := aget (bl_scale a) i in let* _ := aitisa_destroy x in
            let* x := aget (bl_bias a) i in let* _ := aitisa_destroy x in
            let* x := aget (bl_mean a) i in let* _ := aitisa_destroy x in
            let* x := aget (bl_den a) i in let* _ := aitisa_destroy x in
            ret tt) tt ;;;
          raw_dealloc (ba_scale a) ;;; raw_dealloc (ba_bias a) ;;;
          raw_dealloc (ba_mean a) ;;; raw_dealloc (ba_den a) ;;;
          ret (st, HPtr p)) (fun r L'' => r = (st, HPtr p) /\ L'' = IT p pd pm ps px :: l)).
      { intros st l. eapply tr_stable; [exact Hch|].
        set (B := IM (e_alloc E) (ba_scale a) :: IM (e_alloc E) (ba_bias a) :: IM (e_alloc E) (ba_mean a) :: IM (e_alloc E) (ba_den a) :: IT p pd pm ps px :: l).
        eapply (tr_bind _ _ _ _ _ (fun _ L2 => L2 ≡ₚ B)).
        - unfold for64. eapply tr_weaken; [eapply (tr_iter_inv (fun i _ L2 =>
            L2 ≡ₚ drop (Z.to_nat i) Ls ++ drop (Z.to_nat i) Lb ++ drop (Z.to_nat i) Lm ++ drop (Z.to_nat i) Ld ++ B))|].
          + intros i u L2 Hi P2. eapply tr_destroy_at; [exact T2|lia|exact P2|]. 
            eapply tr_destroy_at with (L' := drop (Z.to_nat (i + 1)) Ls ++ drop (Z.to_nat i) Lm ++ drop (Z.to_nat i) Ld ++ B); [exact T3|lia|solve_Permutation|].
            eapply tr_destroy_at with (L' := drop (Z.to_nat (i + 1)) Lb ++ drop (Z.to_nat (i + 1)) Ls ++ drop (Z.to_nat i) Ld ++ B); [exact T1|lia|solve_Permutation|].
            eapply tr_destroy_at with (L' := drop (Z.to_nat (i + 1)) Lm ++ drop (Z.to_nat (i + 1)) Lb ++ drop (Z.to_nat (i + 1)) Ls ++ B); [exact T4|lia|solve_Permutation|].
            apply tr_ret. solve_Permutation.
          + cbn [Z.to_nat drop]. subst B. rewrite P. solve_Permutation.
          + intros u L2. cbn beta. intros ->. rewrite !drop_ge; [done| | | |];
              [rewrite <-(Forall2_length _ _ _ T4)|rewrite <-(Forall2_length _ _ _ T1)|rewrite <-(Forall2_length _ _ _ T3)|rewrite <-(Forall2_length _ _ _ T2)]; lia.
        - intros _ L2 P2. eapply tr_perm; [exact P2|]. subst B. do 4 (eapply tr_raw_dealloc; [perm|]). apply tr_ret. done. }
      eapply tr_st; [eapply tr_bn_with; exact Hm| |].
      + eapply tr_weaken; [apply (G _ [])|]. intros r L2 [-> ->]. fin.
      + intros st l Hn. eapply tr_weaken; [apply (G _ [IJ l])|]. intros r L2 [-> ->]. fin.
  Qed.

  (** ** Cast: nothing at all happens when the type codes are equal *)
  Lemma tr_cast_template t dt p pd pm ps px L :
    IT p pd pm ps px ∈ L -> tr E F L (cast_template t dt (HPtr p)) (stQ L).
  Proof. un cast_template. Qed.
  Hint Extern 1 (tr _ _ _ (cast_template _ _ _) _) => eapply tr_cast_template; mem : tr.
  Definition castQ (o : hval) (L : list item) (r : status * hval) (L' : list item) : Prop :=
    opQ L r L' \/ (r = (SUCCESS, o) /\ L' = L).
  Lemma tr_cast t dt o L : tr E F L (aitisa_cast t dt o) (castQ o L).
  Proof.
    unfold aitisa_cast. apply tr_kr; [solve [kr]|]. intros dt'. destruct (d_code dt' =? d_code dt).
    - apply tr_ret. by right.
    - eapply tr_weaken with (R := opQ L); [|by left]. ts.
  Qed.
End BN.
