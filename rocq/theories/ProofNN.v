(** * ProofNN: elementwise operations of src/nn: relu, sigmoid, tanh *)
From stdpp Require Import gmap list.
From Coq Require Import ZArith Lia Reals Floats.SpecFloat.
From Coq Require Import ZifyBool ZifyNat.
From Flocq Require Core.
From Flocq Require Import IEEE754.BinarySingleNaN.
From Verif Require Import Base Mem Spec SpecReal SpecNN ModelCore ModelBasic ModelMath ModelNN Logic
  ProofCore ProofCore2 ProofCore3 ProofKernel ProofBasic ProofFloat ProofFloat2 ProofFloat3 ProofCast
  ProofSlice ProofFrame ProofMath ProofSqrt.
Open Scope Z_scope.

Ltac Zify.zify_post_hook ::= Z.div_mod_to_equations.

Definition unary (K : Z -> dtype -> hval -> M status) (input o : hval) : M (status * hval) :=
  let* (s, o) := nn_create_like input o in
  if negb (bool_decide (s = SUCCESS)) then ret (s, o)
  else
    let* size := tensor_size input in
    let* dt := tensor_dtype input in
    let* s := K size dt o in
    ret (s, o).

Lemma unary_rule K f p T ws o E s :
  wf s -> holds (heap s) p T ->
  (forall q, K (prodZ (a_dims T)) (dtype_of (a_type T)) q
             = map_kernel f (a_type T) (HPtr p) q (prodZ (a_dims T))) ->
  Forall2 (fun v w => forall s', f v E s' = Done w s') (a_vals T) ws ->
  makes_or_nomem (unary K (HPtr p) o) E s o (AT (a_type T) (a_dev T) (a_dims T) ws).
Proof.
  intros Hwf HT HK Hws. apply Qmakes_elim. unfold unary, nn_create_like.
  pose proof HT as (HvT & bx & tg & ex & Hv & Hx).
  pose proof (valid_len _ HvT) as Hlen. pose proof (valid_fits _ HvT) as Hfit.
  pose proof (Forall2_length _ _ _ Hws) as Hlw.
  apply wp_bind.
  eapply wp_step; [by eapply tensor_dims_ok|].
  eapply wp_step; [by eapply tensor_ndim_ok|].
  eapply wp_step; [by eapply tensor_dtype_ok|].
  eapply wp_step; [by eapply tensor_device_ok|].
  apply wp_bind. apply create_t_rule; [done|done| |].
  2:{ intros s' Hn Hk Hr. cbv beta match. rewrite bool_decide_eq_false_2 by done.
      apply wp_ret. cbv beta match. rewrite bool_decide_eq_false_2 by done. cbn [negb]. apply wp_ret.
      right. auto. }
  intros s1 q pd pm ps px Ht Hr. cbv beta match. rewrite bool_decide_eq_true_2 by done.
  apply wp_ret. cbv beta match. rewrite bool_decide_eq_true_2 by done. cbn [negb].
  pose proof (view_mono _ _ _ _ _ _ _ _ (tnew_base _ _ Ht) Hv) as Hv1.
  eapply wp_step; [by eapply tensor_size_ok|].
  eapply wp_step; [by eapply tensor_dtype_ok|].
  rewrite HK. unfold map_kernel. apply wp_bind.
  eapply wp_step; [by eapply tensor_data_ok|].
  eapply wp_step; [by eapply tensor_data_ok, tnew_view|].
  rewrite (valid_len_nat _ HvT), Hlw in Ht.
  eapply (wp_fill64 (length ws) (fun k => default VU (ws !! k))); [exact Ht|lia| |].
  { intros k vs s' Hk Hvs Ht' Hr'.
    destruct (lookup_lt_is_Some_2 ws k Hk) as [w Hw]. rewrite Hw. cbn [default].
    destruct (Forall2_lookup_r _ _ _ _ _ Hws Hw) as (v & Hvk & Hvw).
    erewrite bind_done.
    2:{ eapply loadi_cells; [|done]. eapply tnew_lookup; [exact Ht'|done]. }
    erewrite bind_done by (exact (Hvw s')). cbn.
    eapply tnew_storei; [exact Ht'|lia]. }
  intros s2 Ht2 Hr2. apply wp_ret. apply wp_ret. left. exists q. split; [done|].
  rewrite seq_lookup_list in Ht2.
  2:{ intros k x Hk. by rewrite Hk. }
  eapply tnew_makes; [done| |exact Ht2|by rewrite Hr2].
  split; [done|]. cbn. lia.
Qed.

(** When the kernel refuses the type, *output has been set already. *)
Lemma unary_refused K p T o E s :
  wf s -> holds (heap s) p T ->
  (forall q, K (prodZ (a_dims T)) (dtype_of (a_type T)) q = ret NOT_SUPPORTED) ->
  exists r s', unary K (HPtr p) o E s = Done r s' /\ keeps s s' /\
    ((exists q, r = (NOT_SUPPORTED, HPtr q) /\ heap s !! q = None) \/
     ~ alloc_all E /\ r = (ALLOC_FAILED, o)).
Proof.
  intros Hwf HT HK.
  cut (wp (unary K (HPtr p) o) E s (fun r s' => keeps s s' /\
    ((exists q, r = (NOT_SUPPORTED, HPtr q) /\ heap s !! q = None) \/
     ~ alloc_all E /\ r = (ALLOC_FAILED, o)))).
  { intros H. apply wp_elim in H as (r & s' & H1 & H2). eauto. }
  unfold unary, nn_create_like.
  pose proof HT as (HvT & bx & tg & ex & Hv & Hx).
  pose proof (valid_fits _ HvT) as Hfit.
  apply wp_bind.
  eapply wp_step; [by eapply tensor_dims_ok|].
  eapply wp_step; [by eapply tensor_ndim_ok|].
  eapply wp_step; [by eapply tensor_dtype_ok|].
  eapply wp_step; [by eapply tensor_device_ok|].
  apply wp_bind. apply create_t_rule; [done|done| |].
  2:{ intros s' Hn Hk Hr. cbv beta match. rewrite bool_decide_eq_false_2 by done.
      apply wp_ret. cbv beta match. rewrite bool_decide_eq_false_2 by done. cbn [negb]. apply wp_ret.
      auto. }
  intros s1 q pd pm ps px Ht Hr. cbv beta match. rewrite bool_decide_eq_true_2 by done.
  apply wp_ret. cbv beta match. rewrite bool_decide_eq_true_2 by done. cbn [negb].
  pose proof (view_mono _ _ _ _ _ _ _ _ (tnew_base _ _ Ht) Hv) as Hv1.
  eapply wp_step; [by eapply tensor_size_ok|].
  eapply wp_step; [by eapply tensor_dtype_ok|].
  rewrite HK. apply wp_bind. apply wp_ret. apply wp_ret. split; [by eapply wf_keeps_tnew|].
  left. exists q. split; [done|]. apply wf_fresh; [done|].
  destruct Ht as (_ & _ & _ & H4 & _). destruct (H4 q) as [? _]; [|done].
  apply tensor_map_dom. auto.
Qed.

(** ** relu *)
Lemma gt0_spec t v : val_ok t v ->
  exists b, gt0_val t v = Some b /\ (b = true <-> positive v).
Proof.
  destruct v as [z|f|]; cbn [val_ok]; [| |done]; intros [Ht Hv]; unfold gt0_val; rewrite Ht.
  - eexists. split; [done|]. cbn. lia.
  - eexists. split; [done|]. unfold positive, SFltb. destruct f as [[|]|[|]| |[|] m e]; cbn; split; try done.
    + intros [H|H]; [|done]. by apply Rlt_irrefl in H.
    + intros [H|H]; [|done]. by apply Rlt_irrefl in H.
    + intros [H|H]; [|done]. by apply Rlt_irrefl in H.
    + intros _. by right.
    + intros [H|H]; [|done]. by apply Rlt_irrefl in H.
    + intros [H|H]; [|done]. exfalso. revert H. apply Rle_not_lt. apply Float_prop.F2R_le_0. done.
    + intros _. left. apply Float_prop.F2R_gt_0. done.
Qed.

Definition relu_val (t : tcode) (v : val) : val :=
  if default false (gt0_val t v) then v else zero_val t.

Lemma relu_elem_ok t v E s : val_ok t v -> relu_elem t v E s = Done (relu_val t v) s.
Proof.
  intros Hv. destruct (gt0_spec t v Hv) as (b & Hb & _).
  unfold relu_elem, relu_val. rewrite Hb. cbn. by destruct b.
Qed.
Lemma relu_val_spec t v : val_ok t v -> relu_spec t v (relu_val t v).
Proof.
  intros Hv. destruct (gt0_spec t v Hv) as (b & Hb & Hp). unfold relu_val. rewrite Hb. cbn.
  unfold relu_spec. rewrite <-Hp. split; [by intros ->|]. intros H. destruct b; done.
Qed.
Lemma relu_spec_fun t v w w' : val_ok t v -> relu_spec t v w -> relu_spec t v w' -> w = w'.
Proof.
  intros Hv [H1 H2] [H3 H4]. destruct (gt0_spec t v Hv) as (b & Hb & Hp). destruct b.
  - rewrite H1, H3 by (by apply Hp). done.
  - assert (~ positive v) by (by rewrite <-Hp). by rewrite H2, H4.
Qed.
Lemma zero_val_ok t : val_ok t (zero_val t).
Proof. destruct t; repeat split; vm_compute; congruence. Qed.
Lemma zero_val_not_pos t : ~ positive (zero_val t).
Proof.
  unfold zero_val. destruct (is_float t); cbn; [|lia]. intros [H|H]; [|done].
  by apply Rlt_irrefl in H.
Qed.
Lemma relu_val_ok t v : val_ok t v -> val_ok t (relu_val t v).
Proof.
  intros Hv. unfold relu_val. destruct (default false _); [done|apply zero_val_ok].
Qed.

Lemma relu_rule p T o E s :
  wf s -> holds (heap s) p T -> init T ->
  makes_or_nomem (aitisa_relu (HPtr p) o) E s o
    (AT (a_type T) (a_dev T) (a_dims T) (relu_val (a_type T) <$> a_vals T)).
Proof.
  intros Hwf HT Hin.
  apply (unary_rule (fun size dt o => dispatch_all dt
    (fun t => map_kernel (relu_elem t) t (HPtr p) o size) (ret NOT_SUPPORTED)) (relu_elem (a_type T)));
    [done|done| |].
  - intros q. by rewrite dispatch_all_t.
  - apply Forall2_fmap_r. apply Forall_Forall2_diag. eapply Forall_impl; [exact Hin|]. cbv beta.
    intros v Hv s'. by apply relu_elem_ok.
Qed.

Lemma relu_makes p T ws o E s :
  wf s -> holds (heap s) p T -> init T ->
  Forall2 (relu_spec (a_type T)) (a_vals T) ws ->
  makes_or_nomem (aitisa_relu (HPtr p) o) E s o (AT (a_type T) (a_dev T) (a_dims T) ws).
Proof.
  intros Hwf HT Hin Hws.
  replace ws with (relu_val (a_type T) <$> a_vals T); [by apply relu_rule|].
  unfold init in Hin. clear HT. induction Hws as [|v w vs ws Hw Hws IH]; [done|].
  apply Forall_cons in Hin as [H1 H2]. cbn. f_equal; [|auto].
  eapply relu_spec_fun; [done|by apply relu_val_spec|done].
Qed.
Lemma relu_total T : init T ->
  exists ws, Forall2 (relu_spec (a_type T)) (a_vals T) ws /\ Forall (val_ok (a_type T)) ws.
Proof.
  intros Hin. exists (relu_val (a_type T) <$> a_vals T). split.
  - apply Forall2_fmap_r, Forall_Forall2_diag. eapply Forall_impl; [exact Hin|].
    intros v. apply relu_val_spec.
  - apply Forall_fmap. eapply Forall_impl; [exact Hin|]. intros v. apply relu_val_ok.
Qed.
Lemma relu_idempotent t vs ws : Forall2 (relu_spec t) vs ws -> Forall (val_ok t) vs ->
  Forall2 (relu_spec t) ws ws.
Proof.
  intros H Hv. induction H as [|v w vs ws [H1 H2] H IH]; [constructor|].
  apply Forall_cons in Hv as [Hv Hvs]. constructor; [|auto].
  destruct (gt0_spec t v Hv) as (b & Hb & Hp). destruct b.
  - assert (positive v) as Hpos by (by apply Hp). rewrite (H1 Hpos). split; [done|]. done.
  - assert (~ positive v) as Hpos by (by rewrite <-Hp). rewrite (H2 Hpos). split; [|done].
    intros Hz. by apply zero_val_not_pos in Hz.
Qed.
Lemma relu_unsigned t vs : is_float t = false -> tmin t = 0 -> Forall (val_ok t) vs ->
  Forall2 (relu_spec t) vs vs.
Proof.
  intros Hf Hm H. apply Forall_Forall2_diag. eapply Forall_impl; [exact H|]. cbv beta.
  intros v Hv. destruct v as [z|f|]; [|destruct Hv; congruence|done].
  destruct Hv as [_ Hz]. split; [done|]. cbn. intros Hn. unfold zero_val. rewrite Hf. f_equal. lia.
Qed.
(** The same statements about memory *)
Lemma relu_twice p T o E s :
  wf s -> holds (heap s) p T -> init T ->
  exists T', makes_or_nomem (aitisa_relu (HPtr p) o) E s o T' /\
    (forall p' o' E' s', wf s' -> holds (heap s') p' T' ->
       makes_or_nomem (aitisa_relu (HPtr p') o') E' s' o' T').
Proof.
  intros Hwf HT Hin. destruct (relu_total T Hin) as (ws & Hws & Hok).
  exists (AT (a_type T) (a_dev T) (a_dims T) ws). split; [by apply relu_makes|].
  intros p' o' E' s' Hwf' HT'. eapply (relu_makes p' (AT _ _ _ ws)); [done|done|done|].
  by eapply relu_idempotent.
Qed.
Lemma relu_id_unsigned p T o E s :
  wf s -> holds (heap s) p T -> init T -> is_float (a_type T) = false -> tmin (a_type T) = 0 ->
  makes_or_nomem (aitisa_relu (HPtr p) o) E s o T.
Proof.
  intros Hwf HT Hin Hf Hm. replace T with (AT (a_type T) (a_dev T) (a_dims T) (a_vals T)) at 2.
  - apply relu_makes; [done|done|done|]. by apply relu_unsigned.
  - by destruct T.
Qed.

(** ** sigmoid and tanh *)
Lemma is_float_cases t : is_float t = true -> t = F32 \/ t = F64.
Proof. destruct t; try done; auto. Qed.

Lemma same_float_conv t f : is_float t = true -> vb t f = true -> same_float f (flt_conv F64 f).
Proof.
  intros Ht Hf. split; [apply (flt_conv_valid F64)|]. split; [by destruct f|].
  intros Hfin. destruct f as [z| | |z m e]; try discriminate Hfin.
  - done.
  - destruct (flt_conv_exact F64 z m e) as (H1 & H2 & H3); [| |done].
    + apply (fmt_incl t F64); [destruct t; done..|]. by apply fmt_val.
    + eapply Rlt_le_trans; [by apply (val_small t)|]. apply Raux.bpow_le. by destruct t.
Qed.
Lemma same_float_fun f g h : same_float f g -> same_float f h -> g = h.
Proof.
  intros (Hg1 & Hg2 & Hg3) (Hh1 & Hh2 & Hh3). destruct (is_finite_SF f) eqn:Hf.
  - destruct (Hg3 eq_refl) as (? & ? & ?). destruct (Hh3 eq_refl) as (? & ? & ?).
    apply (SF_inj F64); [exact Hg1|exact Hh1|congruence..| |congruence].
    transitivity (R64 f); [done|by symmetry].
  - rewrite Hg2, Hh2 by done. done.
Qed.
Lemma SFopp_valid t f : vb t f = true -> vb t (SFopp f) = true.
Proof. by destruct f. Qed.

Lemma sigmoid_rule p T ws o E s :
  wf s -> holds (heap s) p T -> init T -> is_float (a_type T) = true ->
  Forall2 (sigmoid_spec (e_exp E) (a_type T)) (a_vals T) ws ->
  makes_or_nomem (aitisa_sigmoid (HPtr p) o) E s o (AT (a_type T) (a_dev T) (a_dims T) ws).
Proof.
  intros Hwf HT Hin Hf Hws.
  apply (unary_rule (fun size dt o => dispatch_float dt
    (fun t => map_kernel (sigmoid_elem t) t (HPtr p) o size) (ret NOT_SUPPORTED)) (sigmoid_elem (a_type T)));
    [done|done| |].
  - intros q. by rewrite dispatch_float_t, Hf.
  - apply Forall2_same_length_lookup. split; [by eapply Forall2_length|].
    intros i v w Hv Hw s'.
    pose proof (Forall2_lookup_lr _ _ _ _ _ _ Hws Hv Hw) as (x & g & -> & Hg & ->).
    pose proof (Forall_lookup_1 _ _ _ _ Hin Hv) as [_ Hok].
    unfold sigmoid_elem, exp_of, neg_float, to_double, of_double. rewrite Hf.
    rewrite (same_float_fun _ _ _ Hg (same_float_conv _ _ Hf (SFopp_valid _ _ Hok))). done.
Qed.
Lemma tanh_rule p T ws o E s :
  wf s -> holds (heap s) p T -> init T -> is_float (a_type T) = true ->
  Forall2 (tanh_spec (e_exp E) (a_type T)) (a_vals T) ws ->
  makes_or_nomem (aitisa_tanh (HPtr p) o) E s o (AT (a_type T) (a_dev T) (a_dims T) ws).
Proof.
  intros Hwf HT Hin Hf Hws.
  apply (unary_rule (fun size dt o => dispatch_float dt
    (fun t => map_kernel (tanh_elem t) t (HPtr p) o size) (ret NOT_SUPPORTED)) (tanh_elem (a_type T)));
    [done|done| |].
  - intros q. by rewrite dispatch_float_t, Hf.
  - apply Forall2_same_length_lookup. split; [by eapply Forall2_length|].
    intros i v w Hv Hw s'.
    pose proof (Forall2_lookup_lr _ _ _ _ _ _ Hws Hv Hw) as (x & g & h & -> & Hg & Hh & ->).
    pose proof (Forall_lookup_1 _ _ _ _ Hin Hv) as [_ Hok].
    unfold tanh_elem, exp_of, neg_float, to_double, of_double. rewrite Hf.
    rewrite (same_float_fun _ _ _ Hg (same_float_conv _ _ Hf Hok)).
    rewrite (same_float_fun _ _ _ Hh (same_float_conv _ _ Hf (SFopp_valid _ _ Hok))). done.
Qed.
Lemma float_vals T : init T -> is_float (a_type T) = true ->
  Forall (fun v => exists x, v = VF x /\ vb (a_type T) x = true) (a_vals T).
Proof.
  intros Hin Hf. eapply Forall_impl; [exact Hin|]. cbv beta. intros [z|x|] Hv; [destruct Hv; congruence| |done].
  destruct Hv. eauto.
Qed.
Lemma Forall_exists2 {A B} (P : A -> Prop) (R : A -> B -> Prop) l :
  Forall P l -> (forall x, P x -> exists y, R x y) -> exists k, Forall2 R l k.
Proof.
  intros H HR. induction H as [|x l Hx H [k IH]]; [exists []; constructor|].
  destruct (HR x Hx) as [y Hy]. exists (y :: k). by constructor.
Qed.
Lemma sigmoid_total T ex : init T -> is_float (a_type T) = true ->
  exists ws, Forall2 (sigmoid_spec ex (a_type T)) (a_vals T) ws /\ Forall (val_ok (a_type T)) ws.
Proof.
  intros Hin Hf. destruct (Forall_exists2 _ (sigmoid_spec ex (a_type T)) _ (float_vals T Hin Hf))
    as [ws Hws].
  - intros v (x & -> & Hx). do 3 eexists. split; [done|].
    split; [by eapply (same_float_conv (a_type T)), SFopp_valid|done].
  - exists ws. split; [done|]. clear -Hws Hf. induction Hws as [|v w vs ws (x & g & -> & _ & ->) H IH];
      constructor; [|done]. split; [done|]. apply flt_conv_valid.
Qed.
Lemma tanh_total T ex : init T -> is_float (a_type T) = true ->
  exists ws, Forall2 (tanh_spec ex (a_type T)) (a_vals T) ws /\ Forall (val_ok (a_type T)) ws.
Proof.
  intros Hin Hf. destruct (Forall_exists2 _ (tanh_spec ex (a_type T)) _ (float_vals T Hin Hf))
    as [ws Hws].
  - intros v (x & -> & Hx). do 4 eexists. split; [done|].
    split; [by eapply (same_float_conv (a_type T))|].
    split; [by eapply (same_float_conv (a_type T)), SFopp_valid|done].
  - exists ws. split; [done|]. clear -Hws Hf. induction Hws as [|v w vs ws (x & g & h & -> & _ & _ & ->) H IH];
      constructor; [|done]. split; [done|]. apply flt_conv_valid.
Qed.

Lemma sigmoid_refused p T o E s :
  wf s -> holds (heap s) p T -> is_float (a_type T) = false ->
  exists r s', aitisa_sigmoid (HPtr p) o E s = Done r s' /\ keeps s s' /\
    ((exists q, r = (NOT_SUPPORTED, HPtr q) /\ heap s !! q = None) \/
     ~ alloc_all E /\ r = (ALLOC_FAILED, o)).
Proof.
  intros Hwf HT Hf. eapply (unary_refused (fun size dt o => dispatch_float dt
    (fun t => map_kernel (sigmoid_elem t) t (HPtr p) o size) (ret NOT_SUPPORTED))); [done|exact HT|].
  intros q. by rewrite dispatch_float_t, Hf.
Qed.
Lemma tanh_refused p T o E s :
  wf s -> holds (heap s) p T -> is_float (a_type T) = false ->
  exists r s', aitisa_tanh (HPtr p) o E s = Done r s' /\ keeps s s' /\
    ((exists q, r = (NOT_SUPPORTED, HPtr q) /\ heap s !! q = None) \/
     ~ alloc_all E /\ r = (ALLOC_FAILED, o)).
Proof.
  intros Hwf HT Hf. eapply (unary_refused (fun size dt o => dispatch_float dt
    (fun t => map_kernel (tanh_elem t) t (HPtr p) o size) (ret NOT_SUPPORTED))); [done|exact HT|].
  intros q. by rewrite dispatch_float_t, Hf.
Qed.
