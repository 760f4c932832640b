(** * ProofCreate: aitisa_create on every list of extents *)
From stdpp Require Import gmap list.
From Coq Require Import ZArith Lia.
From Coq Require Import ZifyBool ZifyNat.
From Verif Require Import Base Mem Spec SpecCreate ModelCore Logic ProofCore ProofCore2 ProofKernel ProofBasic ProofCore3 ProofExact.
Open Scope Z_scope.

Ltac Zify.zify_post_hook ::= Z.div_mod_to_equations.

Lemma size_of_dims_over dims n E s :
  n = Z.of_nat (length dims) -> n <= INT_MAX -> ~ prefixes_fit dims -> size_of_dims dims n E s = UB UB_overflow.
Proof.
  intros -> Hn Hno. unfold size_of_dims. rewrite to_int_id by (unfold INT_MAX, INT_MIN in *; lia).
  set (bad := fun k : nat => negb ((INT64_MIN <=? prodZ (take (S k) dims)) && (prodZ (take (S k) dims) <=? INT64_MAX))).
  destruct (first_index bad (length dims)) as [Hall|(j & Hj & Hbad & Hbef)].
  { exfalso. apply Hno. intros [|k]; [done|]. destruct (decide (k < length dims)%nat) as [Hk|Hk].
    - specialize (Hall k Hk). unfold bad in Hall. lia.
    - destruct dims as [|d l]; [by rewrite take_nil|].
      specialize (Hall (length (d :: l) - 1)%nat ltac:(cbn; lia)). unfold bad in Hall.
      replace (S (length (d :: l) - 1)) with (length (d :: l)) in Hall by (cbn; lia).
      rewrite firstn_all in Hall. rewrite take_ge by lia. lia. }
  unfold for64. replace (Z.to_nat (Z.of_nat (length dims) - 0)) with (length dims) by lia.
  apply (iter_ub (fun k x s' => x = prodZ (take k dims) /\ s' = s)) with (j := j); [done|done| |].
  - intros k x s' Hk [-> ->]. destruct (lookup_lt_is_Some_2 dims k ltac:(lia)) as [d Hd]. rewrite Z.add_0_l.
    eapply wp_step; [by apply aget_nat|]. rewrite <-(prodZ_take_S _ _ _ Hd).
    specialize (Hbef k Hk). unfold bad in Hbef.
    eapply wp_intro; [apply ck64_ok; lia|]. done.
  - intros x s' [-> ->]. destruct (lookup_lt_is_Some_2 dims j Hj) as [d Hd]. rewrite Z.add_0_l.
    erewrite bind_done by (by apply aget_nat). rewrite <-(prodZ_take_S _ _ _ Hd). unfold bad in Hbad.
    unfold ck64, bind, check.
    destruct ((INT64_MIN <=? prodZ (take (S j) dims)) && (prodZ (take (S j) dims) <=? INT64_MAX)) eqn:Hb; [lia|done].
Qed.

Lemma create_shape_done dims E s : wf s -> alloc_all E -> Z.of_nat (length dims) <= INT_MAX ->
  exists pd pm s', create_shape LAYOUT_DENSE dims (Z.of_nat (length dims)) E s = Done (SUCCESS, pd, pm) s' /\ wf s'.
Proof.
  intros Hwf HA Hlen. assert (8 * INT_MAX <= PTRDIFF_MAX) as HIP by done.
  assert (wp (create_shape LAYOUT_DENSE dims (Z.of_nat (length dims))) E s
    (fun r s' => exists pd pm, r = (SUCCESS, pd, pm) /\ wf s')) as Hw.
  2:{ apply wp_elim in Hw as (r & s' & Hr & pd & pm & -> & Hwf'). by exists pd, pm, s'. }
  unfold create_shape.
  destruct dims as [|d0 dims0] eqn:Hdims.
  - cbn [length Z.of_nat]. simpl (0 =? 0). cbv beta match. simpl negb. simpl andb. cbv beta match.
    eapply wp_step; [done|]. cbv beta match.
    eapply wp_step; [done|]. cbn [fill_ints].
    eapply wp_step; [done|].
    eapply wp_step; [done|]. apply wp_ret. by eexists _, _.
  - rewrite <-Hdims in *.
    assert (dims <> []) as Hne by (by subst).
    assert (0 < Z.of_nat (length dims)) as Hpos by (subst; cbn; lia).
    clear Hdims d0 dims0.
    replace (Z.of_nat (length dims) =? 0) with false by lia. simpl negb.
    destruct (raw_alloc_cases (8 * Z.of_nat (length dims)) (fun _ => CInts []) E s ltac:(lia))
      as [Hd|[Hna Hd]]; [|by destruct Hna]. eapply wp_step; [exact Hd|]. cbn [is_null andb].
    set (s2 := st_alloc s _).
    assert (wf s2) as Hwf2 by by apply wf_alloc.
    eapply wp_step.
    { apply append_loop. intros k x acc Hx. erewrite bind_done by (by apply aget_nat). done. }
    eapply wp_step.
    { eapply fill_ints_ok; [|done|].
      - cbn. rewrite lookup_insert. done.
      - rewrite to_size_id; lia. }
    set (s3 := upd s2 _ _).
    assert (wf s3) as Hwf3.
    { apply wf_upd; [done|]. cbn. rewrite lookup_insert. eauto. }
    unfold create_default_layout. cbn [negb]. rewrite Z.eqb_refl. cbn [negb].
    replace (Z.of_nat (length dims) =? 0) with false by lia. cbn [negb].
    apply wp_bind.
    destruct (raw_alloc_cases (8 * Z.of_nat (length dims)) (fun _ => CInts []) E s3 ltac:(lia))
      as [He|[Hna He]]; [|by destruct Hna]. eapply wp_step; [exact He|]. cbn [is_null andb].
    set (s4 := st_alloc s3 _).
    assert (wf s4) as Hwf4 by by apply wf_alloc.
    eapply wp_step; [apply layout_loop|].
    eapply wp_step.
    { eapply fill_ints_ok.
      - cbn. rewrite lookup_insert. done.
      - intros H0. apply (f_equal length) in H0. rewrite rowmajor_length in H0. cbn in H0. lia.
      - rewrite rowmajor_length, to_size_id; lia. }
    apply wp_ret. apply wp_ret. eexists _, _. split; [done|].
    apply wf_upd; [done|]. cbn. rewrite lookup_insert. eauto.
Qed.

Lemma create_over dt dev dims o E s : wf s -> alloc_all E -> Z.of_nat (length dims) <= INT_MAX ->
  ~ countable (d_size dt) dims ->
  aitisa_create dt dev dims (Z.of_nat (length dims)) HNull 0 o E s = UB UB_overflow.
Proof.
  intros Hwf HA Hlen Hno. unfold aitisa_create.
  destruct (raw_alloc_cases 56 CRaw E s ltac:(unfold PTRDIFF_MAX; lia)) as [Ha|[Hna Ha]]; [|by destruct Hna].
  erewrite bind_done by exact Ha. cbn [is_null].
  set (s1 := st_alloc s _). assert (wf s1) as Hwf1 by by apply wf_alloc.
  set (bad := fun k : nat => negb ((INT64_MIN <=? prodZ (take (S k) dims)) && (prodZ (take (S k) dims) <=? INT64_MAX))).
  assert (prefixes_fit dims \/ ~ prefixes_fit dims) as [Hpre|Hpre].
  { destruct (first_index bad (length dims)) as [Hall|(j & Hj & Hbad & Hbef)].
    - left. intros [|k]; [done|]. destruct (decide (k < length dims)%nat) as [Hk|Hk].
      + specialize (Hall k Hk). unfold bad in Hall. lia.
      + destruct dims as [|d l]; [by rewrite take_nil|].
        specialize (Hall (length (d :: l) - 1)%nat ltac:(cbn; lia)). unfold bad in Hall.
        replace (S (length (d :: l) - 1)) with (length (d :: l)) in Hall by (cbn; lia).
        rewrite firstn_all in Hall. rewrite take_ge by lia. lia.
    - right. intros H. specialize (H (S j)). unfold bad in Hbad. lia. }
  2:{ apply bind_UB. by apply size_of_dims_over. }
  erewrite bind_done by (by apply size_of_dims_ok).
  erewrite bind_done by done. cbv beta match.
  destruct (create_shape_done dims E s1 Hwf1 HA Hlen) as (pd & pm & s2 & Hsh & Hwf2).
  erewrite bind_done by exact Hsh. cbv beta match. rewrite bool_decide_eq_true_2 by done. cbn [negb].
  apply bind_UB. unfold create_storage.
  destruct (raw_alloc_cases 32 CRaw E s2 ltac:(unfold PTRDIFF_MAX; lia)) as [Hb|[Hna Hb]]; [|by destruct Hna].
  erewrite bind_done by exact Hb. cbn [is_null]. apply bind_UB. apply bind_UB.
  unfold ck64, bind, check.
  destruct ((INT64_MIN <=? d_size dt * prodZ dims) && (d_size dt * prodZ dims <=? INT64_MAX)) eqn:Hc; [|done].
  exfalso. apply Hno. split; [exact Hpre|lia].
Qed.

(** The verdict on every list of extents. *)
Lemma create_every dt dev dims o E s : wf s -> alloc_all E -> Z.of_nat (length dims) <= INT_MAX ->
  (countable (d_size dt) dims -> 0 <= d_size dt * prodZ dims -> exists p s',
     aitisa_create dt dev dims (Z.of_nat (length dims)) HNull 0 o E s = Done (SUCCESS, HPtr p) s' /\
     tensor_dims (HPtr p) E s' = Done dims s' /\ tensor_size (HPtr p) E s' = Done (prodZ dims) s') /\
  (countable (d_size dt) dims -> d_size dt * prodZ dims < 0 -> exists s',
     aitisa_create dt dev dims (Z.of_nat (length dims)) HNull 0 o E s = Done (ALLOC_FAILED, o) s' /\ keeps s s') /\
  (~ countable (d_size dt) dims ->
     aitisa_create dt dev dims (Z.of_nat (length dims)) HNull 0 o E s = UB UB_overflow).
Proof.
  intros Hwf HA Hlen. split_and!.
  - intros [Hpre Hb] H0.
    assert (wp (aitisa_create dt dev dims (Z.of_nat (length dims)) HNull 0 o) E s (fun r s' => exists p, r = (SUCCESS, HPtr p) /\
      tensor_dims (HPtr p) E s' = Done dims s' /\ tensor_size (HPtr p) E s' = Done (prodZ dims) s')) as Hw.
    { apply create_rule; [done|done|done|lia| |].
      - intros s' p pd pm ps px Ht Hr. exists p. split; [done|].
        split; [by eapply tensor_dims_ok, tnew_view|by eapply tensor_size_ok, tnew_view].
      - intros s' Hn. by destruct Hn. }
    apply wp_elim in Hw as (r & s' & Hr & p & -> & H1 & H2). by exists p, s'.
  - intros [Hpre Hb] H0. apply create_negative; [done|done|done|lia].
  - by apply create_over.
Qed.
