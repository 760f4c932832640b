(** * ProofExact: exactly when the loops over elements are defined *)
From stdpp Require Import gmap list.
From Coq Require Import ZArith Lia Floats.SpecFloat.
From Coq Require Import ZifyBool ZifyNat.
From Flocq Require Import IEEE754.BinarySingleNaN.
From Verif Require Import Base Mem Spec SpecReal SpecExact ModelCore ModelBasic ModelMath Logic ProofCore ProofCore2 ProofCore3
  ProofKernel ProofBasic ProofBasic2 ProofSqueeze ProofSlice ProofFrame ProofCast ProofMath ProofSqrt.
Open Scope Z_scope.

(** ** Loops that get stuck at step [j] *)
Lemma iter_ub {S} (I : nat -> S -> st -> Prop) E n i0 (body : Z -> S -> M S) x s j u :
  (j < n)%nat -> I O x s ->
  (forall k x s, (k < j)%nat -> I k x s -> wp (body (i0 + Z.of_nat k) x) E s (I (Datatypes.S k))) ->
  (forall x s, I j x s -> body (i0 + Z.of_nat j) x E s = UB u) ->
  iter n i0 body x E s = UB u.
Proof.
  revert I n i0 x s. induction j as [|j IH]; intros I n i0 x s Hj H0 Hs Hu.
  - destruct n as [|n]; [lia|]. cbn [iter]. apply bind_UB.
    specialize (Hu x s H0). by rewrite Z.add_0_r in Hu.
  - destruct n as [|n]; [lia|]. cbn [iter].
    pose proof (Hs O x s ltac:(lia) H0) as Hw. rewrite Z.add_0_r in Hw.
    apply wp_elim in Hw as (y & s' & Hb & HI). erewrite bind_done by exact Hb.
    apply (IH (fun k => I (Datatypes.S k))); [lia|done| |].
    + intros k z s'' Hk Hz. replace (i0 + 1 + Z.of_nat k) with (i0 + Z.of_nat (Datatypes.S k)) by lia.
      apply Hs; [lia|done].
    + intros z s'' Hz. replace (i0 + 1 + Z.of_nat j) with (i0 + Z.of_nat (Datatypes.S j)) by lia. by apply Hu.
Qed.

(** The first index with a property. *)
Lemma first_index (P : nat -> bool) n :
  (forall k, (k < n)%nat -> P k = false) \/
  exists j, (j < n)%nat /\ P j = true /\ forall k, (k < j)%nat -> P k = false.
Proof.
  induction n as [|n [IH|IH]]; [left; intros; lia| |].
  - destruct (P n) eqn:Hn; [right; exists n; auto|left]. intros k Hk.
    destruct (decide (k = n)) as [->|]; [done|]. apply IH. lia.
  - right. destruct IH as (j & Hj & H). exists j. split; [lia|done].
Qed.

Lemma done_of_wp {A} (m : M A) E s (Q : A -> st -> Prop) :
  wp (bind m ret) E s Q -> exists a s', m E s = Done a s' /\ Q a s'.
Proof.
  intros H. apply wp_elim in H as (a & s' & Hb & HQ). exists a, s'. split; [|done].
  unfold bind in Hb. by destruct (m E s).
Qed.

(** ** Elementwise arithmetic *)
Lemma bin_val_none t op x y : val_ok t x -> val_ok t y ->
  bin_val t op x y = None <-> ~ op_defined t op x y.
Proof.
  intros Hx Hy. pose proof (bin_val_spec t op x y Hx Hy) as Hs.
  destruct x as [a|a|], y as [b|b|]; try done; cbn [op_defined].
  - destruct Hs as [Hs1 Hs2]. split; [|by apply Hs2]. intros Hn Hd.
    destruct (Hs1 Hd) as (w & Hw & _). congruence.
  - destruct Hx, Hy; congruence.
  - destruct Hx, Hy; congruence.
  - destruct Hs as (w & Hw & _). split; [congruence|tauto].
Qed.

Lemma int_defined_dec t o x y : {int_defined t o x y} + {~ int_defined t o x y}.
Proof.
  unfold int_defined.
  assert ({o = OpDiv -> y <> 0} + {~ (o = OpDiv -> y <> 0)}) as [H1|H1]; [| |right; tauto].
  { destruct o; try (left; done). destruct (Z.eq_dec y 0); [right; tauto|left; done]. }
  assert (forall a b, {a <= op_int o x y < b} + {~ (a <= op_int o x y < b)}) as H2.
  { intros a b. destruct (Z_le_dec a (op_int o x y)), (Z_lt_dec (op_int o x y) b); (left; lia) || (right; lia). }
  destruct t; try (left; split; [exact H1|exact I]);
    match goal with |- {_ /\ ?a <= _ < ?b} + {_} => destruct (H2 a b) end; (left; tauto) || (right; tauto).
Qed.

Lemma binary_stuck op p1 p2 T1 T2 o E s :
  wf s -> alloc_all E -> holds (heap s) p1 T1 -> holds (heap s) p2 T2 ->
  a_type T2 = a_type T1 -> a_dims T2 = a_dims T1 ->
  dev_type (a_dev T1) = 0 -> dev_type (a_dev T2) = 0 -> init T1 -> init T2 ->
  ~ (prodZ (a_dims T1) <= INT_MAX /\ Forall2 (op_defined (a_type T1) op) (a_vals T1) (a_vals T2)) ->
  aitisa_binary_op op (HPtr p1) (HPtr p2) o E s = UB UB_overflow.
Proof.
  intros Hwf HA H1 H2 Hty Hdi Hc1 Hc2 Hi1 Hi2 Hbad. unfold aitisa_binary_op.
  unfold init in Hi1, Hi2. rewrite Hty in Hi2.
  pose proof H1 as (HvT & bx & tg & ex & Hv & Hx).
  pose proof H2 as (HvT2 & bx2 & tg2 & ex2 & Hv2 & Hx2). rewrite Hty, Hdi in *.
  pose proof (valid_len _ HvT) as Hlen.
  pose proof (valid_len _ HvT2) as Hlen2. rewrite Hdi in Hlen2.
  pose proof (valid_fits _ HvT) as Hfit.
  erewrite bind_done by (by eapply tensor_device_ok).
  erewrite bind_done by (by eapply tensor_device_ok).
  unfold not_cpu. rewrite Hc1, Hc2. cbn [DEVICE_CPU negb orb Z.eqb].
  erewrite bind_done by (by eapply tensor_dtype_ok).
  erewrite bind_done by (by eapply tensor_dtype_ok).
  rewrite Z.eqb_refl. cbn [negb].
  erewrite bind_done by (by eapply tensor_ndim_ok).
  erewrite bind_done by (by eapply tensor_ndim_ok).
  rewrite Z.eqb_refl. cbn [negb].
  erewrite bind_done by (by eapply tensor_dims_ok).
  erewrite bind_done by (by eapply tensor_dims_ok).
  erewrite bind_done by (rewrite Nat2Z.id; apply dims_loop_same). cbv beta match.
  destruct (create_t_ok (a_type T1) (a_dev T1) (a_dims T1) o E s Hwf Hfit HA)
    as (s1 & q & pd & pm & ps & px & Hc & Ht & Hr).
  erewrite bind_done by done. cbv beta match. rewrite bool_decide_eq_true_2 by done. cbn [negb].
  pose proof (view_mono _ _ _ _ _ _ _ _ (tnew_base _ _ Ht) Hv) as Hv1.
  pose proof (view_mono _ _ _ _ _ _ _ _ (tnew_base _ _ Ht) Hv2) as Hv21.
  erewrite bind_done by (by eapply tensor_size_ok).
  erewrite bind_done by (by eapply tensor_data_ok).
  erewrite bind_done by (by eapply tensor_data_ok).
  erewrite bind_done by (by eapply tensor_data_ok, tnew_view).
  set (TN := fun h s' => tnew (e_alloc E) (ctr s) h s' q pd pm ps px (dtype_of (a_type T1)) (a_dev T1) (a_dims T1)
    (cells (a_type T1) (replicate (Z.to_nat (prodZ (a_dims T1))) VU))).
  pose proof (frame_nil (tag := 0%nat) (base := heap s)) as HF.
  set (sz := d_size (dtype_of (a_type T1))).
  assert (0 <= sz <= PTRDIFF_MAX) as Hsz by (unfold sz; by destruct (a_type T1)).
  destruct (done_of_wp (libc_malloc sz CRaw) E s1 (fun v s2 => exists b h, v = HPtr b /\
    TN h s2 /\ frame 0 [b] (heap s) h)) as (? & s2 & M1 & b1 & h1 & -> & Ht1 & HF1).
  { eapply wp_libc; [done|done|exact Ht|exact HF|]. intros b h s2 ????. apply wp_ret. eauto 10. }
  erewrite bind_done by exact M1. clear Ht HF.
  destruct (done_of_wp (libc_malloc sz CRaw) E s2 (fun v s3 => exists b h, v = HPtr b /\
    TN h s3 /\ frame 0 [b; b1] (heap s) h)) as (? & s3 & M2 & b2 & h2 & -> & Ht2 & HF2).
  { eapply wp_libc; [done|done|exact Ht1|exact HF1|]. intros b h s3 ????. apply wp_ret. eauto 10. }
  erewrite bind_done by exact M2. clear Ht1 HF1.
  destruct (done_of_wp (libc_malloc sz CRaw) E s3 (fun v s4 => exists b h, v = HPtr b /\
    TN h s4 /\ frame 0 [b; b2; b1] (heap s) h)) as (? & s4 & M3 & b3 & h3 & -> & Ht3 & HF3).
  { eapply wp_libc; [done|done|exact Ht2|exact HF2|]. intros b h s4 ????. apply wp_ret. eauto 10. }
  erewrite bind_done by exact M3. clear Ht2 HF2.
  assert (heap s ⊆ h3) as Hs by (by eapply frame_sub).
  apply bind_UB. unfold TN in Ht3.
  rewrite (valid_len_nat _ HvT) in Ht3.
  set (n := length (a_vals T1)) in *.
  set (P := fun k : nat => match a_vals T1 !! k, a_vals T2 !! k with
    | Some x, Some y => match bin_val (a_type T1) op x y with Some _ => INT_MAX <=? Z.of_nat k | None => true end
    | _, _ => true end).
  destruct (first_index P n) as [Hall|(j & Hj & HPj & Hpre)].
  { exfalso. apply Hbad. split.
    - destruct (decide (n = O)) as [Hn|Hn]; [unfold INT_MAX; lia|].
      specialize (Hall (n - 1)%nat ltac:(lia)). unfold P in Hall. repeat case_match; try done. lia.
    - apply Forall2_same_length_lookup. split; [lia|]. intros k x y Hxk Hyk.
      pose proof (lookup_lt_Some _ _ _ Hxk) as Hk.
      specialize (Hall k Hk). unfold P in Hall. rewrite Hxk, Hyk in Hall.
      pose proof (Forall_lookup_1 _ _ _ _ Hi1 Hxk) as Hx1. pose proof (Forall_lookup_1 _ _ _ _ Hi2 Hyk) as Hy1.
      destruct (bin_val (a_type T1) op x y) as [w|] eqn:Hw; [|done].
      pose proof (bin_val_spec _ op x y Hx1 Hy1) as Hsp.
      destruct x as [a|a|], y as [b|b|]; try done. cbn [op_defined].
      destruct (int_defined_dec (a_type T1) op a b) as [|Hn]; [done|].
      destruct Hsp as [_ Hsp]. rewrite Hsp in Hw; done. }
  match goal with |- for32 _ _ ?f _ _ _ = _ => pose (inner := fun i => f i tt) end.
  cbv beta in inner. unfold for32.
  set (body := fun (i : Z) (s0 : unit) => _).
  assert (forall k vs s' x y w, (k < n)%nat -> length vs = n ->
    tnew (e_alloc E) (ctr s) h3 s' q pd pm ps px (dtype_of (a_type T1)) (a_dev T1) (a_dims T1) (cells (a_type T1) vs) ->
    a_vals T1 !! k = Some x -> a_vals T2 !! k = Some y -> bin_val (a_type T1) op x y = Some w ->
    inner (Z.of_nat k) E s' = Done tt (upd s' px (Blk (e_alloc E) (CData (cells (a_type T1) (<[k := w]> vs)))))) as Hinner.
  { intros k vs s' x y w Hk Hvs Ht' Hxk Hyk Hw. unfold inner.
    unfold type_table. cbn [dtype_of d_code d_size]. rewrite tc_of_code.
    erewrite bind_done by done.
    erewrite bind_done by (apply check_ok; unfold sz; cbn [dtype_of d_size]; lia).
    erewrite bind_done.
    2:{ eapply loadi_cells; [|exact Hxk]. eapply tnew_lookup; [exact Ht'|]. by eapply lookup_weaken. }
    erewrite bind_done by (eapply touch_frame; [exact Ht'|exact HF3|set_solver]).
    erewrite bind_done.
    2:{ eapply loadi_cells; [|exact Hyk]. eapply tnew_lookup; [exact Ht'|]. by eapply lookup_weaken. }
    erewrite bind_done by (eapply touch_frame; [exact Ht'|exact HF3|set_solver]).
    erewrite bind_done by (by apply opt_ok). 
    erewrite bind_done by (eapply touch_frame; [exact Ht'|exact HF3|set_solver]).
    eapply tnew_storei; [exact Ht'|lia]. }
  apply (iter_ub (fun k _ s' => exists vs, length vs = n /\
    tnew (e_alloc E) (ctr s) h3 s' q pd pm ps px (dtype_of (a_type T1)) (a_dev T1) (a_dims T1)
      (cells (a_type T1) vs)) E _ 0 body tt s4 j UB_overflow).
  - lia.
  - eexists. split; [|exact Ht3]. by rewrite replicate_length.
  - intros k [] s' Hk (vs & Hvs & Ht'). rewrite Z.add_0_l. specialize (Hpre k Hk). unfold P in Hpre.
    destruct (a_vals T1 !! k) as [x|] eqn:Hxk; [|done]. destruct (a_vals T2 !! k) as [y|] eqn:Hyk; [|done].
    destruct (bin_val (a_type T1) op x y) as [w|] eqn:Hw; [|done].
    unfold body. eapply wp_step.
    { by eapply (Hinner k vs s' x y w); [lia|..]. }
    apply wp_check; [lia|]. apply wp_ret. eexists. split; [|by eapply tnew_upd].
    by rewrite insert_length.
  - intros [] s' (vs & Hvs & Ht'). rewrite Z.add_0_l.
    destruct (lookup_lt_is_Some_2 (a_vals T1) j ltac:(lia)) as [x Hxk].
    destruct (lookup_lt_is_Some_2 (a_vals T2) j ltac:(lia)) as [y Hyk].
    unfold P in HPj. rewrite Hxk, Hyk in HPj.
    unfold body.
    destruct (bin_val (a_type T1) op x y) as [w|] eqn:Hw.
    + erewrite bind_done.
      2:{ by eapply (Hinner j vs s' x y w). }
      apply bind_UB. replace (Z.of_nat j <? INT_MAX) with false by lia. done.
    + apply bind_UB. unfold type_table. cbn [dtype_of d_code d_size]. rewrite tc_of_code.
      erewrite bind_done by done.
      erewrite bind_done by (apply check_ok; unfold sz; cbn [dtype_of d_size]; lia).
      erewrite bind_done.
      2:{ eapply loadi_cells; [|exact Hxk]. eapply tnew_lookup; [exact Ht'|]. by eapply lookup_weaken. }
      erewrite bind_done by (eapply touch_frame; [exact Ht'|exact HF3|set_solver]).
      erewrite bind_done.
      2:{ eapply loadi_cells; [|exact Hyk]. eapply tnew_lookup; [exact Ht'|]. by eapply lookup_weaken. }
      erewrite bind_done by (eapply touch_frame; [exact Ht'|exact HF3|set_solver]).
      apply bind_UB. rewrite Hw. done.
Qed.

(** ** cast *)
Lemma convertible_iff t1 t2 v : val_ok t1 v -> (convertible t2 v <-> cast_val t1 t2 v <> None).
Proof.
  intros Hv. pose proof (cast_val_spec t1 t2 v Hv) as Hs.
  destruct v as [z|f|]; cbn [convertible conv_spec] in *; [| |done].
  - destruct (is_float t2); destruct Hs as (w & -> & _); done.
  - destruct (is_float t2) eqn:Hf.
    + destruct Hs as (w & -> & _). split; [done|by left].
    + rewrite Hs. destruct (is_finite_SF f) eqn:Hfin; cbn [andb].
      * destruct (in_range t2 _) eqn:Hr.
        -- split; [done|]. intros _. right. split; [done|]. by apply in_range_spec.
        -- split; [|done]. intros [?|[_ Hn]]; [done|]. apply in_range_spec in Hn. congruence.
      * split; [|done]. by intros [?|[? _]].
Qed.

Lemma cast_stuck p T t2 o E s :
  wf s -> alloc_all E -> holds (heap s) p T -> t2 <> a_type T -> fits (tsz t2) (a_dims T) -> init T ->
  ~ Forall (convertible t2) (a_vals T) ->
  aitisa_cast (HPtr p) (dtype_of t2) o E s = UB UB_fconv.
Proof.
  intros Hwf HA HT Hne Hfit Hin Hbad. unfold aitisa_cast.
  pose proof HT as (HvT & bx & tg & ex & Hv & Hx).
  pose proof (valid_len _ HvT) as Hlen.
  erewrite bind_done by (by eapply tensor_dtype_ok). cbn [dtype_of d_code].
  replace (code_of (a_type T) =? code_of t2) with false.
  2:{ symmetry. apply Z.eqb_neq. intros He. by apply code_of_inj in He. }
  erewrite bind_done by (by eapply tensor_device_ok).
  erewrite bind_done by (by eapply tensor_dims_ok).
  erewrite bind_done by (by eapply tensor_ndim_ok).
  destruct (create_t_ok t2 (a_dev T) (a_dims T) HUndef E s Hwf Hfit HA)
    as (s1 & q & pd & pm & ps & px & Hc & Ht & Hr).
  erewrite bind_done by done. cbv beta match. rewrite bool_decide_eq_true_2 by done. cbn [negb].
  pose proof (view_mono _ _ _ _ _ _ _ _ (tnew_base _ _ Ht) Hv) as Hv1.
  apply bind_UB. unfold cast_template.
  erewrite bind_done by (by eapply tensor_dtype_ok).
  erewrite bind_done by (by eapply tensor_size_ok).
  erewrite bind_done by (by eapply tensor_data_ok).
  erewrite bind_done by (by eapply tensor_data_ok, tnew_view).
  rewrite !dispatch_all_t. unfold cast_kernel. apply bind_UB. unfold for64.
  rewrite (valid_len_nat _ HvT) in Ht. set (n := length (a_vals T)) in *.
  set (P := fun k : nat => match a_vals T !! k with
    | Some v => match cast_val (a_type T) t2 v with Some _ => false | None => true end | None => true end).
  destruct (first_index P n) as [Hall|(j & Hj & HPj & Hpre)].
  { exfalso. apply Hbad. apply Forall_lookup. intros k v Hk.
    specialize (Hall k ltac:(by apply lookup_lt_Some in Hk)). unfold P in Hall. rewrite Hk in Hall.
    eapply convertible_iff; [by eapply Forall_lookup_1|]. by destruct (cast_val _ _ _). }
  apply (iter_ub (fun k _ s' => exists vs, length vs = n /\
    tnew (e_alloc E) (ctr s) (heap s) s' q pd pm ps px (dtype_of t2) (a_dev T) (a_dims T)
      (cells t2 vs)) E _ 0 _ tt s1 j UB_fconv).
  - lia.
  - eexists. split; [|exact Ht]. by rewrite replicate_length.
  - intros k [] s' Hk (vs & Hvs & Ht'). rewrite Z.add_0_l. specialize (Hpre k Hk). unfold P in Hpre.
    destruct (a_vals T !! k) as [v|] eqn:Hvk; [|done].
    destruct (cast_val (a_type T) t2 v) as [w|] eqn:Hw; [|done].
    eapply wp_step.
    { eapply loadi_cells; [|exact Hvk]. eapply tnew_lookup; [exact Ht'|done]. }
    eapply wp_step; [by apply opt_ok|].
    eapply wp_intro; [apply (tnew_storei _ vs k w Ht'); lia|].
    eexists. split; [|by eapply tnew_upd]. by rewrite insert_length.
  - intros [] s' (vs & Hvs & Ht'). rewrite Z.add_0_l. unfold P in HPj.
    destruct (lookup_lt_is_Some_2 (a_vals T) j ltac:(lia)) as [v Hvk]. rewrite Hvk in HPj.
    erewrite bind_done.
    2:{ eapply loadi_cells; [|exact Hvk]. eapply tnew_lookup; [exact Ht'|done]. }
    apply bind_UB. by destruct (cast_val (a_type T) t2 v).
Qed.

Lemma op_defined_dec t o a b : op_defined t o a b \/ ~ op_defined t o a b.
Proof.
  destruct a as [x| |], b as [y| |]; cbn; try (by left). destruct (int_defined_dec t o x y); auto.
Qed.
Lemma Forall2_dec' {A B} (P : A -> B -> Prop) l k : (forall a b, P a b \/ ~ P a b) -> Forall2 P l k \/ ~ Forall2 P l k.
Proof.
  intros HP. revert k. induction l as [|a l IH]; intros [|b k]; try (by left; constructor); try (by right; inversion 1).
  destruct (HP a b), (IH k).
  - left. by constructor.
  - right. by inversion 1.
  - right. by inversion 1.
  - right. by inversion 1.
Qed.
Lemma binary_iff op p1 p2 T1 T2 o E s :
  wf s -> alloc_all E -> holds (heap s) p1 T1 -> holds (heap s) p2 T2 ->
  a_type T2 = a_type T1 -> a_dims T2 = a_dims T1 ->
  dev_type (a_dev T1) = 0 -> dev_type (a_dev T2) = 0 -> init T1 -> init T2 ->
  (exists T, makes (aitisa_binary_op op (HPtr p1) (HPtr p2) o) E s T) <->
  prodZ (a_dims T1) <= INT_MAX /\ Forall2 (op_defined (a_type T1) op) (a_vals T1) (a_vals T2).
Proof.
  intros Hwf HA H1 H2 Hty Hdi Hc1 Hc2 Hi1 Hi2. split.
  - intros [T HT].
    destruct (decide (prodZ (a_dims T1) <= INT_MAX)) as [Hp|Hp];
    destruct (Forall2_dec' (op_defined (a_type T1) op) (a_vals T1) (a_vals T2) (op_defined_dec _ _)) as [Hd|Hd]; [done|exfalso..].
    all: enough (aitisa_binary_op op (HPtr p1) (HPtr p2) o E s = UB UB_overflow) as HU by
      (destruct HT as (? & ? & Hr & _); congruence).
    all: eapply binary_stuck; try eassumption; by intros [? ?].
  - intros [Hp Hd]. edestruct (binary_spec_rule op p1 p2 T1 T2 o E s) as (ws & _ & Hm); try eassumption. by eexists.
Qed.
Lemma convertible_dec t1 t2 v : val_ok t1 v -> convertible t2 v \/ ~ convertible t2 v.
Proof.
  intros Hv. rewrite (convertible_iff t1 t2 v Hv). destruct (cast_val t1 t2 v); [by left|right; naive_solver].
Qed.
Lemma cast_iff p T t2 o E s :
  wf s -> alloc_all E -> holds (heap s) p T -> t2 <> a_type T -> fits (tsz t2) (a_dims T) -> init T ->
  (exists T', makes (aitisa_cast (HPtr p) (dtype_of t2) o) E s T') <-> Forall (convertible t2) (a_vals T).
Proof.
  intros Hwf HA HT Hne Hfit Hin. split.
  - intros [T' HT'].
    assert (Forall (convertible t2) (a_vals T) \/ ~ Forall (convertible t2) (a_vals T)) as [|Hbad]; [|done|].
    { clear -Hin. unfold init in Hin. induction Hin as [|v vs Hv _ IH]; [by left|].
      destruct (convertible_dec _ t2 v Hv), IH.
      - left. by constructor.
      - right. by inversion 1.
      - right. by inversion 1.
      - right. by inversion 1. }
    exfalso. pose proof (cast_stuck p T t2 o E s Hwf HA HT Hne Hfit Hin Hbad) as HU.
    destruct HT' as (? & ? & Hr & _); congruence.
  - intros Hc.
    assert (exists ws, Forall2 (fun v w => cast_val (a_type T) t2 v = Some w) (a_vals T) ws) as [ws Hws].
    { clear -Hin Hc. unfold init in Hin. induction Hin as [|v vs Hv _ IH]; [by eexists; constructor|].
      inversion Hc as [|? ? Hcv Hcs]; subst. destruct (IH Hcs) as [ws Hws].
      apply (convertible_iff (a_type T)) in Hcv; [|done]. destruct (cast_val (a_type T) t2 v) as [w|] eqn:Hw; [|done].
      exists (w :: ws). by constructor. }
    exists (AT t2 (a_dev T) (a_dims T) ws). apply (makes_or_nomem_alloc _ E s o _ 0); [done|]. by apply cast_makes.
Qed.
