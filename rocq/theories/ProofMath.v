(** * ProofMath: elementwise arithmetic and square root *)
From stdpp Require Import gmap list.
From Coq Require Import ZArith Lia Floats.SpecFloat.
From Coq Require Import ZifyBool ZifyNat.
From Verif Require Import Base Mem Spec ModelCore ModelBasic ModelMath Logic ProofCore ProofCore2 ProofCore3
  ProofKernel ProofBasic ProofSqueeze ProofSlice ProofFrame.
Open Scope Z_scope.

Ltac Zify.zify_post_hook ::= Z.div_mod_to_equations.

(** ** The comparison of the dims *)
Lemma dims_loop_same dims E s :
  iter_ret (length dims) 0 (fun i (_ : unit) =>
    let* x := aget dims i in
    let* y := aget dims i in
    if negb (x =? y) then ret (Return INVALID_ARGUMENT) else ret (Next tt)) tt E s
  = Done (Next tt : ctl unit status) s.
Proof.
  apply (iter_ret_pure (fun _ => tt)); [done|]. intros k Hk. rewrite Z.add_0_l.
  destruct (lookup_lt_is_Some_2 dims k Hk) as [d Hd].
  erewrite bind_done by (by apply aget_nat).
  erewrite bind_done by (by apply aget_nat). rewrite Z.eqb_refl. done.
Qed.

Lemma binary_rule op p1 p2 T1 T2 ws o E s :
  wf s -> alloc_all E -> holds (heap s) p1 T1 -> holds (heap s) p2 T2 ->
  a_type T2 = a_type T1 -> a_dims T2 = a_dims T1 ->
  dev_type (a_dev T1) = 0 -> dev_type (a_dev T2) = 0 ->
  prodZ (a_dims T1) <= INT_MAX ->
  Forall3 (fun x y w => bin_val (a_type T1) op x y = Some w) (a_vals T1) (a_vals T2) ws ->
  makes (aitisa_binary_op op (HPtr p1) (HPtr p2) o) E s (AT (a_type T1) (a_dev T1) (a_dims T1) ws).
Proof.
  intros Hwf HA H1 H2 Hty Hdi Hc1 Hc2 Hmax Hws.
  apply (makes_or_nomem_alloc _ _ _ o); [done|]. apply Qmakes_elim. unfold aitisa_binary_op.
  pose proof H1 as (HvT & bx & tg & ex & Hv & Hx).
  pose proof H2 as (HvT2 & bx2 & tg2 & ex2 & Hv2 & Hx2). rewrite Hty, Hdi in *.
  pose proof (valid_len _ HvT) as Hlen.
  pose proof (valid_fits _ HvT) as Hfit.
  eapply wp_step; [by eapply tensor_device_ok|].
  eapply wp_step; [by eapply tensor_device_ok|].
  unfold not_cpu. rewrite Hc1, Hc2. cbn [DEVICE_CPU negb orb Z.eqb].
  eapply wp_step; [by eapply tensor_dtype_ok|].
  eapply wp_step; [by eapply tensor_dtype_ok|].
  rewrite Z.eqb_refl. cbn [negb].
  eapply wp_step; [by eapply tensor_ndim_ok|].
  eapply wp_step; [by eapply tensor_ndim_ok|].
  rewrite Z.eqb_refl. cbn [negb].
  eapply wp_step; [by eapply tensor_dims_ok|].
  eapply wp_step; [by eapply tensor_dims_ok|].
  eapply wp_step; [rewrite Nat2Z.id; apply dims_loop_same|]. cbv beta match.
  apply wp_bind. apply create_t_rule; [done|done| |done].
  intros s1 q pd pm ps px Ht Hr. cbv beta match. rewrite bool_decide_eq_true_2 by done. cbn [negb].
  pose proof (view_mono _ _ _ _ _ _ _ _ (tnew_base _ _ Ht) Hv) as Hv1.
  pose proof (view_mono _ _ _ _ _ _ _ _ (tnew_base _ _ Ht) Hv2) as Hv21.
  eapply wp_step; [by eapply tensor_size_ok|].
  eapply wp_step; [by eapply tensor_data_ok|].
  eapply wp_step; [by eapply tensor_data_ok|].
  eapply wp_step; [by eapply tensor_data_ok, tnew_view|].
  pose proof (frame_nil (tag := 0%nat) (base := heap s)) as HF.
  assert (0 <= d_size (dtype_of (a_type T1)) <= PTRDIFF_MAX) as Hsz by (by destruct (a_type T1)).
  eapply wp_libc; [done|done|exact Ht|exact HF|]. clear HF. intros b1 h1 s2 Ht1 HF1 Hr1 Hs1.
  eapply wp_libc; [done|done|exact Ht1|exact HF1|]. clear HF1 Ht1. intros b2 h2 s3 Ht2 HF2 Hr2 Hs2.
  eapply wp_libc; [done|done|exact Ht2|exact HF2|]. clear HF2 Ht2. intros b3 h3 s4 Ht3 HF3 Hr3 Hs3.
  rewrite (valid_len_nat _ HvT) in Ht3. pose proof (Forall3_length_lr _ _ _ _ Hws) as Hlw. rewrite Hlw in Ht3.
  assert (heap s ⊆ h3) as Hs by (by eapply frame_sub).
  eapply (wp_fill32 (length ws) (fun k => default VU (ws !! k))); [exact Ht3|lia|lia| |].
  { intros k vs s' Hk Hvs Ht' Hr'.
    destruct (lookup_lt_is_Some_2 ws k Hk) as [w Hw]. rewrite Hw. cbn [default].
    destruct (Forall3_lookup_r _ _ _ _ _ _ Hws Hw) as (v1 & v2 & Hv1k & Hv2k & Hvw).
    unfold type_table. cbn [dtype_of d_code d_size]. rewrite tc_of_code.
    erewrite bind_done by done.
    erewrite bind_done by (apply check_ok; lia).
    erewrite bind_done.
    2:{ eapply loadi_cells; [|exact Hv1k]. eapply tnew_lookup; [exact Ht'|]. by eapply lookup_weaken. }
    erewrite bind_done by (eapply touch_frame; [exact Ht'|exact HF3|set_solver]).
    erewrite bind_done.
    2:{ eapply loadi_cells; [|exact Hv2k]. eapply tnew_lookup; [exact Ht'|]. by eapply lookup_weaken. }
    erewrite bind_done by (eapply touch_frame; [exact Ht'|exact HF3|set_solver]).
    erewrite bind_done by (by apply opt_ok). 
    erewrite bind_done by (eapply touch_frame; [exact Ht'|exact HF3|set_solver]).
    eapply tnew_storei; [exact Ht'|lia]. }
  intros s5 Ht5 Hr5.
  eapply (wp_libc_free [b3; b2] b1 []); [exact Ht5|exact HF3|]. intros h6 s6 Ht6 HF6 Hr6. cbn [app] in HF6.
  eapply (wp_libc_free [b3] b2 []); [exact Ht6|exact HF6|]. intros h7 s7 Ht7 HF7 Hr7. cbn [app] in HF7.
  eapply (wp_libc_free [] b3 []); [exact Ht7|exact HF7|]. intros h8 s8 Ht8 HF8 Hr8. cbn [app] in HF8.
  apply frame_nil_inv in HF8 as ->.
  apply wp_ret. left. exists q. split; [done|].
  rewrite seq_lookup_list in Ht8.
  2:{ intros k x Hk. by rewrite Hk. }
  eapply tnew_makes; [done| |exact Ht8|congruence].
  split; [done|]. cbn. lia.
Qed.

(** ** Rejections *)
Lemma binary_not_cpu op p1 p2 T1 T2 o E s :
  holds (heap s) p1 T1 -> holds (heap s) p2 T2 ->
  ~ (dev_type (a_dev T1) = 0 /\ dev_type (a_dev T2) = 0) ->
  refuses (aitisa_binary_op op (HPtr p1) (HPtr p2) o) E s o NOT_SUPPORTED.
Proof.
  intros (_ & bx & tg & ex & Hv & Hx) (_ & bx2 & tg2 & ex2 & Hv2 & Hx2) Hn.
  unfold refuses, aitisa_binary_op.
  erewrite bind_done by (by eapply tensor_device_ok).
  erewrite bind_done by (by eapply tensor_device_ok).
  replace (not_cpu (a_dev T1) (a_dev T2)) with true; [done|]. unfold not_cpu, DEVICE_CPU. lia.
Qed.
Lemma binary_type op p1 p2 T1 T2 o E s :
  holds (heap s) p1 T1 -> holds (heap s) p2 T2 ->
  dev_type (a_dev T1) = 0 -> dev_type (a_dev T2) = 0 -> a_type T1 <> a_type T2 ->
  refuses (aitisa_binary_op op (HPtr p1) (HPtr p2) o) E s o TYPE_MISMATCH.
Proof.
  intros (_ & bx & tg & ex & Hv & Hx) (_ & bx2 & tg2 & ex2 & Hv2 & Hx2) Hd1 Hd2 Hn.
  unfold refuses, aitisa_binary_op.
  erewrite bind_done by (by eapply tensor_device_ok).
  erewrite bind_done by (by eapply tensor_device_ok).
  unfold not_cpu. rewrite Hd1, Hd2. cbn [DEVICE_CPU negb orb Z.eqb].
  erewrite bind_done by (by eapply tensor_dtype_ok).
  erewrite bind_done by (by eapply tensor_dtype_ok).
  cbn [dtype_of d_code]. replace (code_of (a_type T1) =? code_of (a_type T2)) with false; [done|].
  symmetry. apply Z.eqb_neq. intros He. by apply code_of_inj in He.
Qed.
Lemma binary_dims op p1 p2 T1 T2 o E s :
  holds (heap s) p1 T1 -> holds (heap s) p2 T2 ->
  dev_type (a_dev T1) = 0 -> dev_type (a_dev T2) = 0 -> a_type T1 = a_type T2 ->
  a_dims T1 <> a_dims T2 ->
  refuses (aitisa_binary_op op (HPtr p1) (HPtr p2) o) E s o INVALID_ARGUMENT.
Proof.
  intros (_ & bx & tg & ex & Hv & Hx) (_ & bx2 & tg2 & ex2 & Hv2 & Hx2) Hd1 Hd2 Ht Hn.
  unfold refuses, aitisa_binary_op.
  erewrite bind_done by (by eapply tensor_device_ok).
  erewrite bind_done by (by eapply tensor_device_ok).
  unfold not_cpu. rewrite Hd1, Hd2. cbn [DEVICE_CPU negb orb Z.eqb].
  erewrite bind_done by (by eapply tensor_dtype_ok).
  erewrite bind_done by (by eapply tensor_dtype_ok).
  cbn [dtype_of d_code]. rewrite Ht, Z.eqb_refl. cbn [negb].
  erewrite bind_done by (by eapply tensor_ndim_ok).
  erewrite bind_done by (by eapply tensor_ndim_ok).
  destruct (Z.eqb_spec (Z.of_nat (length (a_dims T1))) (Z.of_nat (length (a_dims T2)))) as [Hl|Hl]; [|done].
  cbn [negb].
  erewrite bind_done by (by eapply tensor_dims_ok).
  erewrite bind_done by (by eapply tensor_dims_ok).
  set (P := fun i => a_dims T1 !! i = a_dims T2 !! i).
  destruct (first_failure P (length (a_dims T1))) as [Hall|(j & Hj & HnP & Hbefore)].
  { destruct Hn. apply list_eq. intros i. destruct (decide (i < length (a_dims T1))%nat) as [Hi|Hi].
    - by apply Hall.
    - rewrite !lookup_ge_None_2 by lia. done. }
  rewrite Nat2Z.id.
  destruct (lookup_lt_is_Some_2 (a_dims T1) j) as [x Hxj]; [lia|].
  destruct (lookup_lt_is_Some_2 (a_dims T2) j) as [y Hyj]; [lia|].
  erewrite bind_done.
  2:{ apply (iter_ret_exit (fun _ => tt) INVALID_ARGUMENT _ _ _ j); [done|lia| |].
      - intros k Hk. rewrite Z.add_0_l. specialize (Hbefore k Hk). unfold P in Hbefore.
        destruct (lookup_lt_is_Some_2 (a_dims T1) k) as [d Hd]; [lia|].
        erewrite bind_done by (by apply aget_nat).
        erewrite bind_done by (apply aget_nat; by rewrite <-Hbefore).
        rewrite Z.eqb_refl. done.
      - rewrite Z.add_0_l. erewrite bind_done by (by apply aget_nat).
        erewrite bind_done by (by apply aget_nat).
        destruct (Z.eqb_spec x y) as [->|]; [|done]. destruct HnP. unfold P. congruence. }
  done.
Qed.
