(** * ProofUnknown: tensors whose type code is none of the ten supported ones *)
From stdpp Require Import gmap list.
From Coq Require Import ZArith Lia Floats.SpecFloat.
From Coq Require Import ZifyBool ZifyNat.
From Verif Require Import Base Mem Spec SpecReal SpecNN SpecUnknown ModelCore ModelBasic ModelMath ModelNN Logic
  ProofCore ProofCore2 ProofCore3 ProofKernel ProofKernel2 ProofBasic ProofLayout ProofIndex ProofSlice ProofFrame ProofMath ProofSqrt
  ProofSqueeze ProofNN ProofSoftmax ProofDropout.
Open Scope Z_scope.

Ltac Zify.zify_post_hook ::= Z.div_mod_to_equations.

Lemma unknown_none dt : unknown dt -> tc_of (d_code dt) = None.
Proof.
  intros H. unfold tc_of. unfold unknown in H.
  destruct dt as [c sz]. cbn [d_code] in *.
  repeat match goal with
  | |- (match ?x with _ => _ end) = None => destruct x eqn:?; try done; try lia
  end.
Qed.

Lemma dispatch_all_unknown {A} dt (k : tcode -> M A) d : unknown dt -> dispatch_all dt k d = d.
Proof. intros H. unfold dispatch_all. by rewrite unknown_none. Qed.
Lemma dispatch_float_unknown {A} dt (k : tcode -> M A) d : unknown dt -> dispatch_float dt k d = d.
Proof. intros H. unfold dispatch_float. by rewrite unknown_none. Qed.

Lemma sized_pos dt dims : sized dt dims -> (0 < Z.to_nat (d_size dt))%nat.
Proof. intros [? _]. lia. Qed.
Lemma sized_bytes dt dims : sized dt dims -> 0 <= d_size dt * prodZ dims <= INT64_MAX.
Proof.
  intros [H Hf]. pose proof (fits_bytes _ _ Hf). pose proof (fits_nonneg _ _ Hf).
  rewrite Z2Nat.id in * by lia. lia.
Qed.
Lemma create_sized dt dev dims o E s (Q : status * hval -> st -> Prop) :
  wf s -> sized dt dims ->
  (forall s' p pd pm ps px,
     tnew (e_alloc E) (ctr s) (heap s) s' p pd pm ps px dt dev dims
          (replicate (Z.to_nat (d_size dt * prodZ dims)) MU) ->
     rpos s' = rpos s -> Q (SUCCESS, HPtr p) s') ->
  (forall s', ~ alloc_all E -> keeps s s' -> rpos s' = rpos s -> Q (ALLOC_FAILED, o) s') ->
  wp (aitisa_create dt dev dims (Z.of_nat (length dims)) HNull 0 o) E s Q.
Proof.
  intros Hwf Hs HQ HF. apply create_rule; [done| | | |done|done].
  - eapply fits_prefixes; [by eapply sized_pos|apply Hs].
  - eapply fits_len, Hs.
  - by apply sized_bytes.
Qed.

Lemma tnew_fresh E s s' q pd pm ps px dt dev dims bytes :
  wf s -> tnew (e_alloc E) (ctr s) (heap s) s' q pd pm ps px dt dev dims bytes -> heap s !! q = None.
Proof.
  intros Hwf Ht. apply wf_fresh; [done|].
  destruct Ht as (_ & _ & _ & H4 & _). destruct (H4 q) as [? _]; [|done].
  apply tensor_map_dom. auto.
Qed.

Notation Qunsup E s o := (fun (r : status * hval) (s' : st) => keeps s s' /\
  ((r.1 = NOT_SUPPORTED /\ (r.2 = o \/ exists q, r.2 = HPtr q /\ heap s !! q = None)) \/
   ~ alloc_all E /\ r = (ALLOC_FAILED, o))).

Lemma unsup_intro m o E s : wp m E s (Qunsup E s o) -> unsupported m E s o.
Proof. intros H. apply wp_elim in H as (r & s' & H1 & H2). by exists r, s'. Qed.

(** ** sqrt, relu, sigmoid, tanh *)
Lemma unary_unknown K p dt dev dims order px o E s :
  wf s -> view (heap s) p dt dev dims order px -> sized dt dims ->
  (forall q, K (prodZ dims) dt q = ret NOT_SUPPORTED) ->
  unsupported (unary K (HPtr p) o) E s o.
Proof.
  intros Hwf Hv Hs HK. apply unsup_intro.
  unfold unary, nn_create_like.
  apply wp_bind.
  eapply wp_step; [by eapply tensor_dims_ok|].
  eapply wp_step; [by eapply tensor_ndim_ok|].
  eapply wp_step; [by eapply tensor_dtype_ok|].
  eapply wp_step; [by eapply tensor_device_ok|].
  apply wp_bind. apply create_sized; [done|done| |].
  2:{ intros s' Hn Hk Hr. cbv beta match. rewrite bool_decide_eq_false_2 by done.
      apply wp_ret. cbv beta match. rewrite bool_decide_eq_false_2 by done. cbn [negb]. apply wp_ret.
      auto. }
  intros s1 q pd pm ps px' Ht Hr. cbv beta match. rewrite bool_decide_eq_true_2 by done.
  apply wp_ret. cbv beta match. rewrite bool_decide_eq_true_2 by done. cbn [negb].
  pose proof (view_mono _ _ _ _ _ _ _ _ (tnew_base _ _ Ht) Hv) as Hv1.
  eapply wp_step; [by eapply tensor_size_ok|].
  eapply wp_step; [by eapply tensor_dtype_ok|].
  rewrite HK. apply wp_bind. apply wp_ret. apply wp_ret. split; [by eapply wf_keeps_tnew|].
  left. split; [done|]. right. exists q. split; [done|]. by eapply tnew_fresh.
Qed.

Lemma sqrt_unknown p dt dev dims order px o E s :
  wf s -> view (heap s) p dt dev dims order px -> sized dt dims -> unknown dt ->
  unsupported (aitisa_sqrt (HPtr p) o) E s o.
Proof.
  intros Hwf Hv Hs Hu.
  apply (unary_unknown (fun size dt q => dispatch_all dt (fun t => sqrt_kernel t (HPtr p) q size) (ret NOT_SUPPORTED))
           p dt dev dims order px); try done.
  intros q. by apply dispatch_all_unknown.
Qed.
Lemma relu_unknown p dt dev dims order px o E s :
  wf s -> view (heap s) p dt dev dims order px -> sized dt dims -> unknown dt ->
  unsupported (aitisa_relu (HPtr p) o) E s o.
Proof.
  intros Hwf Hv Hs Hu.
  apply (unary_unknown (fun size dt q => dispatch_all dt (fun t => map_kernel (relu_elem t) t (HPtr p) q size) (ret NOT_SUPPORTED))
           p dt dev dims order px); try done.
  intros q. by apply dispatch_all_unknown.
Qed.
Lemma sigmoid_unknown p dt dev dims order px o E s :
  wf s -> view (heap s) p dt dev dims order px -> sized dt dims -> unknown dt ->
  unsupported (aitisa_sigmoid (HPtr p) o) E s o.
Proof.
  intros Hwf Hv Hs Hu.
  apply (unary_unknown (fun size dt q => dispatch_float dt (fun t => map_kernel (sigmoid_elem t) t (HPtr p) q size) (ret NOT_SUPPORTED))
           p dt dev dims order px); try done.
  intros q. by apply dispatch_float_unknown.
Qed.
Lemma tanh_unknown p dt dev dims order px o E s :
  wf s -> view (heap s) p dt dev dims order px -> sized dt dims -> unknown dt ->
  unsupported (aitisa_tanh (HPtr p) o) E s o.
Proof.
  intros Hwf Hv Hs Hu.
  apply (unary_unknown (fun size dt q => dispatch_float dt (fun t => map_kernel (tanh_elem t) t (HPtr p) q size) (ret NOT_SUPPORTED))
           p dt dev dims order px); try done.
  intros q. by apply dispatch_float_unknown.
Qed.

(** ** cast *)
Lemma cast_unknown p dt dt' dev dims order px o E s :
  wf s -> view (heap s) p dt dev dims order px -> sized dt' dims ->
  unknown dt \/ unknown dt' -> d_code dt <> d_code dt' ->
  unsupported (aitisa_cast (HPtr p) dt' o) E s o.
Proof.
  intros Hwf Hv Hs Hu Hne. apply unsup_intro. unfold aitisa_cast.
  eapply wp_step; [by eapply tensor_dtype_ok|].
  replace (d_code dt =? d_code dt') with false by lia.
  eapply wp_step; [by eapply tensor_device_ok|].
  eapply wp_step; [by eapply tensor_dims_ok|].
  eapply wp_step; [by eapply tensor_ndim_ok|].
  apply wp_bind. apply create_sized; [done|done| |].
  2:{ intros s' Hn Hk Hr. cbv beta match. rewrite bool_decide_eq_false_2 by done.
      cbn [negb]. apply wp_ret. auto. }
  intros s1 q pd pm ps px' Ht Hr. cbv beta match. rewrite bool_decide_eq_true_2 by done. cbn [negb].
  pose proof (view_mono _ _ _ _ _ _ _ _ (tnew_base _ _ Ht) Hv) as Hv1.
  unfold cast_template. apply wp_bind.
  eapply wp_step; [by eapply tensor_dtype_ok|].
  eapply wp_step; [by eapply tensor_size_ok|].
  eapply wp_step; [by eapply tensor_data_ok|].
  eapply wp_step; [by eapply tensor_data_ok, tnew_view|].
  assert (forall (k : tcode -> tcode -> M status),
    dispatch_all dt (fun t1 => dispatch_all dt' (fun t2 => k t1 t2) (ret NOT_SUPPORTED)) (ret NOT_SUPPORTED)
    = ret NOT_SUPPORTED) as Hd.
  { intros k. destruct Hu as [Hu|Hu]; [by apply dispatch_all_unknown|].
    unfold dispatch_all. destruct (tc_of (d_code dt)); [|done]. by rewrite (unknown_none dt'). }
  rewrite Hd. apply wp_ret. apply wp_ret. split; [by eapply wf_keeps_tnew|].
  left. split; [done|]. right. exists q. split; [done|]. by eapply tnew_fresh.
Qed.

Lemma cast_same p dt dt' dev dims order px o E s :
  view (heap s) p dt dev dims order px -> d_code dt = d_code dt' ->
  aitisa_cast (HPtr p) dt' o E s = Done (SUCCESS, o) s.
Proof.
  intros Hv Hd. unfold aitisa_cast. erewrite bind_done by (by eapply tensor_dtype_ok).
  rewrite Hd, Z.eqb_refl. done.
Qed.

(** ** softmax *)
Lemma softmax_all_unknown p dt dev dims order px o E s :
  wf s -> view (heap s) p dt dev dims order px -> sized dt dims -> unknown dt -> alloc_all E ->
  unsupported (aitisa_softmax (HPtr p) (-1) o) E s o.
Proof.
  intros Hwf Hv Hs Hu HA. apply unsup_intro. unfold aitisa_softmax, softmax_create_output.
  eapply wp_step; [by eapply tensor_ndim_ok|].
  replace ((-1 <? -1) || (Z.of_nat (length dims) - 1 <? -1)) with false by lia.
  apply wp_bind.
  eapply wp_step; [by eapply tensor_dims_ok|].
  eapply wp_step; [by eapply tensor_ndim_ok|].
  eapply wp_step; [by eapply tensor_dtype_ok|].
  eapply wp_step; [by eapply tensor_device_ok|].
  apply create_sized; [done|done| |done].
  intros s1 q pd pm ps px' Ht Hr. cbv beta match. rewrite bool_decide_eq_true_2 by done. cbn [negb].
  pose proof (view_mono _ _ _ _ _ _ _ _ (tnew_base _ _ Ht) Hv) as Hv1.
  unfold softmax_with_all. apply wp_bind. cbv beta match. change (-1 =? -1) with true. cbv match.
  eapply wp_step; [by eapply tensor_dtype_ok|].
  rewrite dispatch_all_unknown by done. apply wp_ret. apply wp_ret.
  split; [by eapply wf_keeps_tnew|].
  left. split; [done|]. right. exists q. split; [done|]. by eapply tnew_fresh.
Qed.

Lemma softmax_axis_unknown p dt dev dims order px a o E s :
  wf s -> view (heap s) p dt dev dims order px -> sized dt dims -> unknown dt -> alloc_all E ->
  (a < length dims)%nat -> Forall (fun d => 0 < d) dims ->
  unsupported (aitisa_softmax (HPtr p) (Z.of_nat a) o) E s o.
Proof.
  intros Hwf Hv Hs Hu HA Ha Hpos. apply unsup_intro. unfold aitisa_softmax, softmax_create_output.
  pose proof (fits_len _ _ (proj2 Hs)) as Hlen.
  eapply wp_step; [by eapply tensor_ndim_ok|].
  replace ((Z.of_nat a <? -1) || (Z.of_nat (length dims) - 1 <? Z.of_nat a)) with false by lia.
  apply wp_bind.
  eapply wp_step; [by eapply tensor_dims_ok|].
  eapply wp_step; [by eapply tensor_ndim_ok|].
  eapply wp_step; [by eapply tensor_dtype_ok|].
  eapply wp_step; [by eapply tensor_device_ok|].
  apply create_sized; [done|done| |done].
  intros s1 q pd pm ps px' Ht Hr. cbv beta match. rewrite bool_decide_eq_true_2 by done. cbn [negb].
  replace (Z.of_nat a =? -1) with false by lia. cbv match.
  pose proof (view_mono _ _ _ _ _ _ _ _ (tnew_base _ _ Ht) Hv) as Hv1.
  pose proof (wf_keeps_tnew Ht) as Hk1.
  unfold softmax_along_axis. apply wp_bind.
  eapply wp_step; [by eapply tensor_dims_ok|].
  eapply wp_step; [by eapply tensor_ndim_ok|].
  destruct (lookup_lt_is_Some_2 dims a Ha) as [d Hd].
  assert (dims = take a dims ++ d :: drop (S a) dims) as D by (by rewrite take_drop_middle).
  set (b1 := take a dims) in *. set (b2 := drop (S a) dims) in *.
  assert (length b1 = a) as Lb1 by (unfold b1; rewrite take_length; lia).
  assert (forall k, 0 <= prodZ (drop k dims) <= INT64_MAX) as Hdrop.
  { intros k. eapply fits_drop; [by eapply sized_pos|apply Hs]. }
  assert (prodZ dims <= INT64_MAX) as Hmax by (apply (Hdrop 0%nat)).
  eapply wp_step.
  { rewrite D, <-Lb1. apply batch_loop; rewrite <-D; [done|done]. }
  apply wp_scratch; [llia| |done]. set (s2 := st_alloc s1 _).
  apply wp_scratch; [llia| |done]. set (s3 := st_alloc s2 _).
  cbn [is_null orb].
  assert (keeps s s3) as Hk3.
  { eapply keeps_trans; [exact Hk1|]. pose proof (proj1 (proj2 Hk1)).
    eapply keeps_trans; apply keeps_alloc; [done|]. by apply wf_alloc. }
  eapply wp_step; [by apply row_offsets_ok; [|lia|]|].
  eapply wp_step.
  { apply aget_nat. apply suffs_lookup. lia. }
  eapply wp_step; [eapply tensor_dtype_ok, view_mono; [|exact Hv]; apply Hk3|].
  rewrite dispatch_all_unknown by done. apply wp_bind. apply wp_ret. cbv beta match.
  rewrite bool_decide_eq_false_2 by done. cbn [negb]. apply wp_ret. apply wp_ret.
  split; [done|].
  left. split; [done|]. right. exists q. split; [done|]. by eapply tnew_fresh.
Qed.
