(** * ProofBasic: full, cast, reshape *)
From stdpp Require Import gmap list.
From Coq Require Import ZArith Lia.
From Coq Require Import ZifyBool ZifyNat.
From Verif Require Import Base Mem Spec ModelCore ModelBasic Logic ProofCore ProofCore2 ProofKernel.
Open Scope Z_scope.

Ltac Zify.zify_post_hook ::= Z.div_mod_to_equations.

(** From a weakest precondition to the outcome predicates of Spec.v *)
Definition Qmakes (E : env) (s : st) (o : hval) (T : atensor) (k : nat)
    (r : status * hval) (s' : st) : Prop :=
  (exists p, r = (SUCCESS, HPtr p) /\ created_k E s s' p T k) \/
  (~ alloc_all E /\ r = (ALLOC_FAILED, o) /\ keeps s s').
Lemma Qmakes_elim m E s o T k : wp m E s (Qmakes E s o T k) -> makes_or_nomem_k m E s o T k.
Proof.
  intros H. apply wp_elim in H as (r & s' & Hm & [(p & -> & Hc)|(Hn & -> & Hk)]).
  - left. exists s', p. done.
  - right. split; [done|]. exists s'. done.
Qed.
Lemma makes_or_nomem_alloc m E s o T k :
  alloc_all E -> makes_or_nomem_k m E s o T k -> makes_k m E s T k.
Proof. intros HE [H|[Hn _]]; done. Qed.

Lemma tnew_makes E s s' p pd pm ps px t dev dims vs :
  wf s -> valid (AT t dev dims vs) ->
  tnew (e_alloc E) (ctr s) (heap s) s' p pd pm ps px (dtype_of t) dev dims (cells t vs) ->
  rpos s' = rpos s ->
  created_k E s s' p (AT t dev dims vs) 0.
Proof.
  intros Hwf HT Ht Hr. eapply tnew_created; [done|done|exact Ht|]. lia.
Qed.

(** ** full *)
Lemma iter_app {S} (a b : nat) i0 (body : Z -> S -> M S) x E s :
  iter (a + b) i0 body x E s
  = bind (iter a i0 body x) (fun y => iter b (i0 + Z.of_nat a) body y) E s.
Proof.
  revert i0 x s. induction a as [|a IH]; intros i0 x s.
  - cbn. unfold bind, ret. by rewrite Z.add_0_r.
  - cbn [Nat.add iter]. unfold bind at 1 2 3. unfold bind in IH.
    destruct (body i0 x E s) as [y s'| | |]; [|done..].
    rewrite IH. by replace (i0 + 1 + Z.of_nat a) with (i0 + Z.of_nat (Datatypes.S a)) by lia.
Qed.

Lemma castto_ok t d v E s : of_double t d = Some v ->
  castto_in_place (dtype_of t) d E s
  = Done (encode t v ++ drop (tsz t) (encode F64 (VF d))) s.
Proof.
  intros H. unfold castto_in_place, type_table. cbn [dtype_of d_code].
  rewrite tc_of_code. erewrite bind_done by done. rewrite H. done.
Qed.

Lemma full_rule t dev dims d v o E s :
  wf s -> fits (tsz t) dims -> prodZ dims <= INT_MAX -> of_double t d = Some v ->
  makes_or_nomem (aitisa_full (dtype_of t) dev dims (Z.of_nat (length dims)) d o) E s o
    (AT t dev dims (replicate (Z.to_nat (prodZ dims)) v)).
Proof.
  intros Hwf Hfit Hmax Hv. apply Qmakes_elim. unfold aitisa_full.
  pose proof (fits_nonneg _ _ Hfit). pose proof (fits_bytes _ _ Hfit).
  apply wp_bind. apply create_t_rule; [done|done| |].
  2:{ intros s' Hn Hk Hr. cbv beta match. rewrite bool_decide_eq_false_2 by done.
      apply wp_ret. right. done. }
  intros s1 p pd pm ps px Ht Hr. cbv beta match. rewrite bool_decide_eq_true_2 by done. cbn [negb].
  eapply wp_step; [by eapply tensor_size_ok, tnew_view|].
  eapply wp_step; [by apply castto_ok|].
  eapply (wp_fill32 (Z.to_nat (prodZ dims)) (fun _ => v)); [exact Ht|lia|lia| |].
  { intros k vs s' Hk Hlen Ht' Hr'. pose proof (tnew_px _ _ Ht') as Hx.
    rewrite <-(app_nil_r (cells t vs)) in Hx.
    erewrite set_item_ok; [|by eapply tnew_view|exact Hx|lia|rewrite Hlen; lims; nia].
    by rewrite app_nil_r. }
  intros s2 Ht2 Hr2. apply wp_ret. left. exists p. split; [done|].
  replace ((fun _ => v) <$> seq 0 (Z.to_nat (prodZ dims))) with (replicate (Z.to_nat (prodZ dims)) v) in Ht2.
  2:{ apply list_eq. intros i. rewrite list_lookup_fmap.
      destruct (decide (i < Z.to_nat (prodZ dims))%nat).
      - rewrite lookup_seq_lt, lookup_replicate_2 by done. done.
      - rewrite lookup_seq_ge by lia. apply lookup_replicate_None. lia. }
  eapply tnew_makes; [done| |exact Ht2|by rewrite Hr2].
  split; [done|]. cbn. rewrite replicate_length. lia.
Qed.

Lemma bind_UB {A B} (m : M A) (k : A -> M B) E s u : m E s = UB u -> bind m k E s = UB u.
Proof. unfold bind. intros ->. done. Qed.

(** full is undefined when the value does not fit *)
Lemma full_unfit t dev dims d o E s :
  wf s -> fits (tsz t) dims -> alloc_all E -> of_double t d = None ->
  aitisa_full (dtype_of t) dev dims (Z.of_nat (length dims)) d o E s = UB UB_fconv.
Proof.
  intros Hwf Hfit HE Hv. unfold aitisa_full.
  destruct (create_t_ok t dev dims HUndef E s Hwf Hfit HE)
    as (s1 & p & pd & pm & ps & px & Hc & Ht & Hr).
  erewrite bind_done by done. cbv beta match. rewrite bool_decide_eq_true_2 by done. cbn [negb].
  erewrite bind_done by (by eapply tensor_size_ok, tnew_view).
  unfold castto_in_place, type_table. cbn [dtype_of d_code].
  apply bind_UB. rewrite tc_of_code. erewrite bind_done by done. by rewrite Hv.
Qed.

Lemma full_too_big t dev dims d v o E s :
  wf s -> fits (tsz t) dims -> alloc_all E -> of_double t d = Some v ->
  INT_MAX < prodZ dims ->
  aitisa_full (dtype_of t) dev dims (Z.of_nat (length dims)) d o E s = UB UB_overflow.
Proof.
  intros Hwf Hfit HE Hv Hbig. unfold aitisa_full.
  pose proof (fits_nonneg _ _ Hfit). pose proof (fits_bytes _ _ Hfit).
  destruct (create_t_ok t dev dims HUndef E s Hwf Hfit HE)
    as (s1 & p & pd & pm & ps & px & Hc & Ht & Hr).
  erewrite bind_done by done. cbv beta match. rewrite bool_decide_eq_true_2 by done. cbn [negb].
  erewrite bind_done by (by eapply tensor_size_ok, tnew_view).
  erewrite bind_done by (by apply castto_ok).
  apply bind_UB. unfold for32.
  assert (0 <= INT_MAX) by done.
  set (n := Z.to_nat (prodZ dims)) in *.
  replace (Z.to_nat (prodZ dims - 0)) with (Z.to_nat INT_MAX + S (n - 1 - Z.to_nat INT_MAX))%nat.
  2:{ unfold n. lia. }
  set (body := fun (i : Z) (s0 : unit) => _).
  assert (forall k vs s', (k < n)%nat -> length vs = n ->
    tnew (e_alloc E) (ctr s) (heap s) s' p pd pm ps px (dtype_of t) dev dims (cells t vs) ->
    aitisa_tensor_set_item (HPtr p) (Z.of_nat k) (encode t v ++ drop (tsz t) (encode F64 (VF d))) E s'
    = Done tt (upd s' px (Blk (e_alloc E) (CData (cells t (<[k:=v]> vs)))))) as Hset.
  { intros k vs s' Hk Hlen Ht'. pose proof (tnew_px _ _ Ht') as Hx.
    rewrite <-(app_nil_r (cells t vs)) in Hx.
    erewrite set_item_ok; [|by eapply tnew_view|exact Hx|lia|rewrite Hlen; unfold n; lims; nia].
    by rewrite app_nil_r. }
  rewrite iter_app.
  assert (wp (iter (Z.to_nat INT_MAX) 0 body tt) E s1 (fun _ s' => exists vs, length vs = n /\
    tnew (e_alloc E) (ctr s) (heap s) s' p pd pm ps px (dtype_of t) dev dims (cells t vs))) as Hw.
  { apply (iter_rule (fun k _ s' => exists vs, length vs = n /\
    tnew (e_alloc E) (ctr s) (heap s) s' p pd pm ps px (dtype_of t) dev dims (cells t vs))).
    - eexists. split; [|exact Ht]. by rewrite replicate_length.
    - intros k x s' Hk (vs & Hlen & Ht'). rewrite Z.add_0_l. unfold body.
      eapply wp_step; [apply (Hset k vs s'); [unfold n; lia|done|done]|].
      apply wp_check; [lia|]. apply wp_ret. eexists. split; [|by eapply tnew_upd].
      by rewrite insert_length. }
  apply wp_elim in Hw as ([] & s2 & Hi & vs & Hlen & Ht2).
  erewrite bind_done by exact Hi. cbn [iter]. apply bind_UB. unfold body.
  rewrite Z.add_0_l. erewrite bind_done.
  2:{ apply (Hset (Z.to_nat INT_MAX) vs s2); [unfold n; lia|done|done]. }
  rewrite Z2Nat.id by (unfold INT_MAX; lia). rewrite Z.ltb_irrefl. done.
Qed.

(** ** cast *)
Lemma cast_rule h p T t2 o ws E s :
  h = heap s -> wf s -> holds h p T -> t2 <> a_type T -> fits (tsz t2) (a_dims T) ->
  Forall2 (fun v w => cast_val (a_type T) t2 v = Some w) (a_vals T) ws ->
  makes_or_nomem (aitisa_cast (HPtr p) (dtype_of t2) o) E s o
    (AT t2 (a_dev T) (a_dims T) ws).
Proof.
  intros -> Hwf HT Hne Hfit Hws. apply Qmakes_elim. unfold aitisa_cast.
  pose proof HT as (HvT & bx & tg & ex & Hv & Hx).
  pose proof (valid_len _ HvT) as Hlen. pose proof (Forall2_length _ _ _ Hws) as Hlw.
  eapply wp_step; [by eapply tensor_dtype_ok|]. cbn [dtype_of d_code].
  replace (code_of (a_type T) =? code_of t2) with false.
  2:{ symmetry. apply Z.eqb_neq. intros He. by apply code_of_inj in He. }
  eapply wp_step; [by eapply tensor_device_ok|].
  eapply wp_step; [by eapply tensor_dims_ok|].
  eapply wp_step; [by eapply tensor_ndim_ok|].
  apply wp_bind. apply create_t_rule; [done|done| |].
  2:{ intros s' Hn Hk Hr. cbv beta match. rewrite bool_decide_eq_false_2 by done.
      apply wp_ret. right. done. }
  intros s1 q pd pm ps px Ht Hr. cbv beta match. rewrite bool_decide_eq_true_2 by done. cbn [negb].
  pose proof (view_mono _ _ _ _ _ _ _ _ (tnew_base _ _ Ht) Hv) as Hv1.
  apply wp_bind. unfold cast_template.
  eapply wp_step; [by eapply tensor_dtype_ok|].
  eapply wp_step; [by eapply tensor_size_ok|].
  eapply wp_step; [by eapply tensor_data_ok|].
  eapply wp_step; [by eapply tensor_data_ok, tnew_view|].
  rewrite !dispatch_all_t. unfold cast_kernel.
  rewrite (valid_len_nat _ HvT), Hlw in Ht.
  eapply (wp_fill64 (length ws) (fun k => default VU (ws !! k))); [exact Ht|lia| |].
  { intros k vs s' Hk Hvs Ht' Hr'.
    destruct (lookup_lt_is_Some_2 ws k Hk) as [w Hw]. rewrite Hw. cbn [default].
    destruct (Forall2_lookup_r _ _ _ _ _ Hws Hw) as (v & Hvk & Hvw).
    erewrite bind_done.
    2:{ eapply loadi_cells; [|done]. eapply tnew_lookup; [exact Ht'|done]. }
    erewrite bind_done by (by apply opt_ok). cbn.
    eapply tnew_storei; [exact Ht'|lia]. }
  intros s2 Ht2 Hr2. apply wp_ret. apply wp_ret. left. exists q. split; [done|].
  rewrite seq_lookup_list in Ht2.
  2:{ intros k x Hk. by rewrite Hk. }
  eapply tnew_makes; [done| |exact Ht2|by rewrite Hr2].
  split; [done|]. cbn. lia.
Qed.

Lemma cast_same p T o E s : holds (heap s) p T ->
  aitisa_cast (HPtr p) (dtype_of (a_type T)) o E s = Done (SUCCESS, o) s.
Proof.
  intros (_ & bx & tg & ex & Hv & _). unfold aitisa_cast.
  erewrite bind_done by (by eapply tensor_dtype_ok). by rewrite Z.eqb_refl.
Qed.

(** ** memcpy of whole element ranges *)
Lemma memcpy_ok d s' soff E s tg tg' bs src n :
  heap s !! s' = Some (Blk tg' (CData src)) ->
  heap s !! d = Some (Blk tg (CData bs)) ->
  0 <= soff -> 0 <= n <= PTRDIFF_MAX ->
  soff + n <= Z.of_nat (length src) -> n <= Z.of_nat (length bs) ->
  memcpy (HPtr d) 0 (HPtr s') soff n E s
  = Done tt (upd s d (Blk tg (CData (take (Z.to_nat n) (drop (Z.to_nat soff) src)
                                     ++ drop (Z.to_nat n) bs)))).
Proof.
  intros Hs Hd Ho Hn Hls Hld. unfold memcpy. rewrite to_size_id by done.
  destruct (Z.eqb_spec n 0) as [->|Hn0].
  - cbn. rewrite drop_0. symmetry. unfold ret. f_equal. by apply upd_id.
  - erewrite bind_done by (by eapply get_bytes_ok).
    erewrite bind_done by (apply check_ok; lia).
    unfold store_bytes. erewrite bind_done by (by eapply get_bytes_ok).
    erewrite bind_done.
    2:{ apply check_ok. rewrite take_length, drop_length. lia. }
    erewrite set_content_ok by done. do 4 f_equal. change (Z.to_nat 0) with 0%nat. rewrite take_0. cbn [app Nat.add].
    rewrite take_length, drop_length. f_equal. f_equal. lia.
Qed.

(** ** reshape *)
Lemma reshape_rule p T dims o E s :
  wf s -> holds (heap s) p T -> fits (tsz (a_type T)) dims ->
  prodZ dims = prodZ (a_dims T) ->
  makes_or_nomem (aitisa_reshape (HPtr p) dims (Z.of_nat (length dims)) o) E s o
    (AT (a_type T) (a_dev T) dims (a_vals T)).
Proof.
  intros Hwf HT Hfit Hp. apply Qmakes_elim. unfold aitisa_reshape.
  pose proof HT as (HvT & bx & tg & ex & Hv & Hx).
  pose proof (valid_len _ HvT) as Hlen. pose proof (tsz_pos (a_type T)).
  pose proof (fits_bytes _ _ Hfit).
  eapply wp_step; [by eapply tensor_size_ok|].
  eapply wp_step; [apply size_of_dims_ok; [by eapply fits_prefixes|done|by eapply fits_len]|].
  rewrite Hp, Z.eqb_refl. cbn [negb].
  eapply wp_step; [by eapply tensor_device_ok|].
  eapply wp_step; [by eapply tensor_dtype_ok|].
  apply wp_bind. apply create_t_rule; [done|done| |].
  2:{ intros s' Hn Hk Hr. cbv beta match. rewrite bool_decide_eq_false_2 by done.
      apply wp_ret. right. done. }
  intros s1 q pd pm ps px Ht Hr. cbv beta match. rewrite bool_decide_eq_true_2 by done. cbn [negb].
  pose proof (view_mono _ _ _ _ _ _ _ _ (tnew_base _ _ Ht) Hv) as Hv1.
  eapply wp_step; [by eapply tensor_data_ok|].
  eapply wp_step; [by eapply tensor_data_ok, tnew_view|].
  cbn [dtype_of d_size].
  eapply wp_step; [apply ck64_ok; rewrite <-Hp; llia|].
  eapply wp_step.
  { eapply memcpy_ok; [eapply tnew_lookup; [exact Ht|exact Hx]|by eapply tnew_px|done| | |].
    - rewrite <-Hp. llia.
    - rewrite app_length, cells_length. lia.
    - rewrite cells_length, replicate_length. lia. }
  apply wp_ret. left. exists q. split; [done|].
  rewrite drop_0, take_app_alt by (rewrite cells_length; lia).
  rewrite drop_ge, app_nil_r by (rewrite cells_length, replicate_length; lia).
  eapply tnew_makes; [done| |by eapply tnew_upd|done].
  split; [done|]. cbn. lia.
Qed.

Lemma reshape_mismatch p T dims o E s :
  holds (heap s) p T -> prefixes_fit dims -> Z.of_nat (length dims) <= INT_MAX ->
  prodZ dims <> prodZ (a_dims T) ->
  refuses (aitisa_reshape (HPtr p) dims (Z.of_nat (length dims)) o) E s o DIMENSIONS_MISMATCH.
Proof.
  intros (HvT & bx & tg & ex & Hv & Hx) Hpre Hlen Hne. unfold refuses, aitisa_reshape.
  erewrite bind_done by (by eapply tensor_size_ok).
  erewrite bind_done by (by apply size_of_dims_ok).
  replace (prodZ (a_dims T) =? prodZ dims) with false by lia. done.
Qed.
