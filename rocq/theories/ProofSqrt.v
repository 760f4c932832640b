(** * ProofSqrt: meaning of elementwise arithmetic; square root *)
From stdpp Require Import gmap list.
From Coq Require Import ZArith Lia Reals Floats.SpecFloat.
From Coq Require Import ZifyBool ZifyNat.
From Flocq Require Core.
From Flocq Require Import IEEE754.BinarySingleNaN.
From Verif Require Import Base Mem Spec SpecReal ModelCore ModelBasic ModelMath Logic ProofCore ProofCore2 ProofCore3
  ProofKernel ProofBasic ProofFloat ProofFloat2 ProofFloat3 ProofCast ProofSlice ProofFrame ProofMath.
Open Scope Z_scope.

Ltac Zify.zify_post_hook ::= Z.div_mod_to_equations.

(** ** Integers *)
Lemma int_op_some t o x y : is_float t = false -> int_defined t o x y ->
  exists r, int_op (promote t) o x y = Some r /\
            r mod 2 ^ bits t = op_int o x y mod 2 ^ bits t.
Proof.
  intros Ht [Hy Hd].
  assert (int_op (promote t) o x y =
    if is_signed (promote t) then (if in_range (promote t) (op_int o x y) then Some (op_int o x y) else None)
    else Some (wrap (promote t) (op_int o x y))) as ->.
  { destruct o; try done. cbn. replace (y =? 0) with false; [done|]. specialize (Hy eq_refl). lia. }
  generalize dependent (op_int o x y). intros z Hd.
  destruct t; try discriminate Ht; cbn [promote is_signed] in *;
    try (replace (in_range _ _) with true;
         [eexists; split; reflexivity|symmetry; apply in_range_spec; unfold tmin, tmax; unfold bits; cbn; lia]).
  - eexists. split; [done|]. by rewrite wrap_congr.
  - eexists. split; [done|]. by rewrite wrap_congr.
Qed.
Lemma int_op_none t o x y : is_float t = false -> ~ int_defined t o x y ->
  int_op (promote t) o x y = None.
Proof.
  intros Ht Hn. destruct (int_op (promote t) o x y) as [r|] eqn:Ho; [|done].
  destruct Hn. unfold int_op in Ho.
  assert ((o = OpDiv -> y <> 0) /\
    (if is_signed (promote t) then (if in_range (promote t) (op_int o x y) then Some (op_int o x y) else None)
    else Some (wrap (promote t) (op_int o x y))) = Some r) as [Hy Hr].
  { destruct o; try done. destruct (Z.eqb_spec y 0); [done|]. done. }
  split; [done|]. clear Ho. generalize dependent (op_int o x y). intros z Hr.
  destruct t; try discriminate Ht; cbn [promote is_signed] in *; try done;
    destruct (in_range _ _) eqn:Hin in Hr; try done; apply in_range_spec in Hin;
    unfold tmin, tmax in Hin; unfold bits in Hin; cbn in Hin; lia.
Qed.

Lemma bin_val_spec t o a b : val_ok t a -> val_ok t b -> bin_spec t o a b (bin_val t o a b).
Proof.
  destruct a as [x|x|], b as [y|y|]; cbn [val_ok]; try done.
  - intros [Ht Hx] [_ Hy]. unfold bin_spec, bin_val. rewrite Ht. split.
    + intros Hd. destruct (int_op_some t o x y Ht Hd) as (r & -> & Hr).
      eexists. split; [done|]. split; [apply wrap_range|]. by rewrite wrap_congr.
    + intros Hd. by rewrite int_op_none.
  - intros [Ht Hx] [Ht' Hy]. unfold bin_spec, bin_val. rewrite Ht in *.
    eexists. split; [done|]. split; [by apply flt_op_valid|].
    destruct (op_special o x y) as [v|] eqn:Hs; [by apply flt_op_special|by apply flt_op_full].
Qed.

Lemma bin_val_ok t o a b w : val_ok t a -> val_ok t b -> bin_val t o a b = Some w -> val_ok t w.
Proof.
  destruct a as [x|x|], b as [y|y|]; cbn [val_ok]; try done.
  - intros [Ht Hx] [_ Hy]. unfold bin_val. rewrite Ht.
    destruct (int_op _ _ _ _); [|done]. intros [= <-]. split; [done|apply wrap_range].
  - intros [Ht Hx] [_ Hy]. unfold bin_val. rewrite Ht. intros [= <-]. split; [done|by apply flt_op_valid].
Qed.

(** Types for which addition, subtraction and multiplication cannot overflow. *)
Lemma int_total t o x y : t ∈ [I8; U8; I16; U32; U64] -> o <> OpDiv ->
  val_ok t (VI x) -> val_ok t (VI y) -> int_defined t o x y.
Proof.
  intros Hin Ho [Ht Hx] [_ Hy].
  split; [done|]. rewrite !elem_of_cons, elem_of_nil in Hin. unfold tmin, tmax in *.
  assert (t = U32 \/ t = U64 \/ -32768 <= x <= 32767 /\ -32768 <= y <= 32767) as [->|[->|[H1 H2]]]; [|done|done|].
  { unfold bits in *. destruct Hin as [->|[->|[->|[->|[->|[]]]]]]; cbn in Hx, Hy; auto; right; right; lia. }
  assert (- 2 ^ 31 <= op_int o x y < 2 ^ 31) by (destruct o; cbn; try done; nia).
  by destruct Hin as [->|[->|[->|[->|[->|[]]]]]].
Qed.

(** ** Square root *)
Lemma lt0_spec t v : val_ok t v ->
  exists b, lt0_val t v = Some b /\ (b = true <-> negative v).
Proof.
  destruct v as [z|f|]; cbn [val_ok]; [| |done]; intros [Ht Hv]; unfold lt0_val; rewrite Ht.
  - eexists. split; [done|]. cbn. lia.
  - eexists. split; [done|]. unfold negative, SFltb. destruct f as [[|]|[|]| |[|] m e]; cbn; split; try done.
    + intros [H|H]; [|done]. by apply Rlt_irrefl in H.
    + intros [H|H]; [|done]. by apply Rlt_irrefl in H.
    + intros _. by right.
    + intros [H|H]; [|done]. by apply Rlt_irrefl in H.
    + intros [H|H]; [|done]. by apply Rlt_irrefl in H.
    + intros _. left. apply Float_prop.F2R_lt_0. done.
    + intros [H|H]; [|done]. exfalso. revert H. apply Rle_not_lt. apply Float_prop.F2R_ge_0. done.
Qed.

Lemma sqrt_val_spec t v : val_ok t v -> ~ negative v -> sqrt_spec t v (sqrt_val t v).
Proof.
  destruct v as [z|f|]; cbn [val_ok negative]; [| |done]; intros [Ht Hv] Hn;
    unfold sqrt_spec, sqrt_val, to_double, of_double; rewrite Ht.
  - assert (0 <= z <= 2 ^ 64) as Hz.
    { revert Hv. unfold tmin, tmax. unfold bits. destruct t; try done; cbn; lia. }
    rewrite sqrt_int_val by done.
    set (y := Raux.Ztrunc _).
    assert (tmin t <= y <= tmax t) as Hy.
    { assert (exists k, 0 <= k <= 32 /\ z <= 2 ^ (2 * k) /\ tmin t <= 0 /\ 2 ^ k <= tmax t)
        as (k & H1 & H2 & H3 & H4).
      { revert Hv. unfold tmin, tmax. unfold bits.
        destruct t; try done; cbn; intros;
          [exists 4|exists 4|exists 8|exists 8|exists 16|exists 16|exists 32|exists 32]; lia. }
      pose proof (sqrt_int_bound z k H1 ltac:(lia)) as Hb. fold y in Hb. lia. }
    replace (in_range t y) with true by (symmetry; by apply in_range_spec).
    eexists. split; [done|]. split; [done|]. split; [done|].
    intros Hlt. unfold y. rewrite sqrt_int_floor by lia.
    pose proof (Z.sqrt_spec z ltac:(lia)). cbv zeta in H. lia.
  - destruct (sqrt_flt t f Ht Hv) as (H1 & H2 & H3).
    + intros ->. apply Hn. by right.
    + destruct (Rle_or_lt 0 (RV f)) as [H|H]; [done|]. destruct Hn. by left.
    + eexists. split; [done|]. done.
Qed.

Lemma sqrt_val_some t v : val_ok t v -> ~ negative v -> exists w, sqrt_val t v = Some w.
Proof.
  intros Hv Hn. pose proof (sqrt_val_spec t v Hv Hn) as H.
  destruct v as [z|f|]; [| |done]; destruct H as (w & -> & _); eauto.
Qed.

Lemma wf_keeps_tnew {E s s' p pd pm ps px dt dev dims bytes} :
  tnew (e_alloc E) (ctr s) (heap s) s' p pd pm ps px dt dev dims bytes -> keeps s s'.
Proof.
  intros (H1 & H2 & H3 & H4 & H5). split_and!.
  - rewrite H2. by apply map_union_subseteq_r.
  - intros b Hb. rewrite H2, lookup_union_is_Some in Hb. destruct Hb as [Hb|Hb]; [|by apply H5].
    by apply H4 in Hb as [_ ?].
  - destruct (H4 p) as [? ?]; [|lia]. apply tensor_map_dom. auto.
Qed.

(** Outcome of the square root, negative elements or not. *)
Lemma sqrt_rule p T o E s :
  wf s -> holds (heap s) p T -> init T ->
  wp (aitisa_sqrt (HPtr p) o) E s (fun r s' =>
    (exists q ws, r = (SUCCESS, HPtr q) /\ Forall (fun v => ~ negative v) (a_vals T) /\
       Forall2 (fun v w => sqrt_val (a_type T) v = Some w) (a_vals T) ws /\
       created E s s' q (AT (a_type T) (a_dev T) (a_dims T) ws)) \/
    (exists q, r = (MATH_ERROR, HPtr q) /\ Exists negative (a_vals T) /\ keeps s s') \/
    (~ alloc_all E /\ r = (ALLOC_FAILED, o) /\ keeps s s')).
Proof.
  intros Hwf HT Hin. unfold aitisa_sqrt, sqrt_create_output.
  pose proof HT as (HvT & bx & tg & ex & Hv & Hx).
  pose proof (valid_len _ HvT) as Hlen. pose proof (valid_fits _ HvT) as Hfit.
  apply wp_bind.
  eapply wp_step; [by eapply tensor_dims_ok|].
  eapply wp_step; [by eapply tensor_ndim_ok|].
  eapply wp_step; [by eapply tensor_dtype_ok|].
  eapply wp_step; [by eapply tensor_device_ok|].
  apply wp_bind. apply create_t_rule; [done|done| |].
  2:{ intros s' Hn Hk Hr. cbv beta match. rewrite bool_decide_eq_false_2 by done.
      apply wp_ret. cbv beta match. rewrite bool_decide_eq_false_2 by done. cbn [negb]. apply wp_ret. auto. }
  intros s1 q pd pm ps px Ht Hr. cbv beta match. rewrite bool_decide_eq_true_2 by done.
  apply wp_ret. cbv beta match. rewrite bool_decide_eq_true_2 by done. cbn [negb].
  pose proof (view_mono _ _ _ _ _ _ _ _ (tnew_base _ _ Ht) Hv) as Hv1.
  eapply wp_step; [by eapply tensor_size_ok|].
  eapply wp_step; [by eapply tensor_dtype_ok|].
  rewrite dispatch_all_t. unfold sqrt_kernel. apply wp_bind.
  eapply wp_step; [by eapply tensor_data_ok|].
  eapply wp_step; [by eapply tensor_data_ok, tnew_view|].
  rewrite (valid_len_nat _ HvT) in *.
  set (t := a_type T) in *. set (n := length (a_vals T)) in *.
  apply wp_bind. eapply wp_mono.
  - eapply (iter_ret_rule_gen
      (fun k (_ : unit) s' => exists ws,
         Forall (fun v => ~ negative v) (take k (a_vals T)) /\
         Forall2 (fun v w => sqrt_val t v = Some w) (take k (a_vals T)) ws /\
         tnew (e_alloc E) (ctr s) (heap s) s' q pd pm ps px (dtype_of t) (a_dev T) (a_dims T)
           (cells t (ws ++ replicate (n - k) VU)) /\ rpos s' = rpos s)
      (fun r s' => r = MATH_ERROR /\ Exists negative (a_vals T) /\ keeps s s')).
    + exists []. rewrite Nat.sub_0_r. split_and!; [constructor|constructor|done|done].
    + intros k [] s' Hk (ws & Hn & Hw & Ht' & Hr').
      destruct (lookup_lt_is_Some_2 (a_vals T) k Hk) as [v Hvk]. rewrite Z.add_0_l.
      assert (val_ok t v) as Hok by (by eapply Forall_lookup_1).
      destruct (lt0_spec t v Hok) as (b & Hb & Hbn).
      eapply wp_step.
      { eapply loadi_cells; [|exact Hvk]. eapply tnew_lookup; [exact Ht'|]. done. }
      eapply wp_step; [by apply opt_ok|].
      destruct b.
      * apply wp_ret. split; [done|]. split; [|by eapply wf_keeps_tnew].
        apply Exists_exists. exists v. split; [by eapply elem_of_list_lookup_2|by apply Hbn].
      * assert (~ negative v) as Hnn by (by rewrite <-Hbn).
        destruct (sqrt_val_some t v Hok Hnn) as [w Hvw].
        eapply wp_step; [by apply opt_ok|].
        assert (length ws = k) as Hlw.
        { apply Forall2_length in Hw. rewrite take_length in Hw. lia. }
        eapply wp_step.
        { eapply tnew_storei; [exact Ht'|]. rewrite app_length, replicate_length. lia. }
        apply wp_ret. exists (ws ++ [w]). rewrite (take_S_r _ _ v Hvk). split_and!.
        -- apply Forall_app. split; [done|]. by constructor.
        -- apply Forall2_app; [done|]. by constructor.
        -- eapply tnew_upd in Ht'.
           replace ((ws ++ [w]) ++ replicate (n - S k) VU)
             with (<[k:=w]> (ws ++ replicate (n - k) VU)); [exact Ht'|].
           rewrite insert_app_r_alt by lia. rewrite Hlw, Nat.sub_diag.
           replace (n - k)%nat with (S (n - S k)) by lia. cbn. by rewrite <-app_assoc.
        -- done.
  - intros c s' Hc. destruct c as [[]|r].
    + destruct Hc as (ws & Hn & Hw & Ht' & Hr'). apply wp_ret. apply wp_ret. left.
      rewrite take_ge in * by done. exists q, ws. split_and!; [done|done|done|].
      rewrite Nat.sub_diag, app_nil_r in Ht'.
      eapply tnew_makes; [done| |exact Ht'|congruence].
      split; [done|]. cbn. apply Forall2_length in Hw. lia.
    + destruct Hc as (-> & He & Hk). apply wp_ret. apply wp_ret. right. left. eauto.
Qed.

(** ** Elementwise arithmetic, stated with the specification of the operations *)
Lemma bin_vals t op xs ys :
  Forall (val_ok t) xs -> Forall (val_ok t) ys -> Forall2 (op_defined t op) xs ys ->
  exists ws, Forall3 (fun x y w => bin_val t op x y = Some w) xs ys ws.
Proof.
  intros Hx Hy H. induction H as [|x y xs ys Hd H IH]; [exists []; constructor|].
  apply Forall_cons in Hx as [Hx1 Hx2]. apply Forall_cons in Hy as [Hy1 Hy2].
  destruct (IH Hx2 Hy2) as [ws Hws].
  assert (exists w, bin_val t op x y = Some w) as [w Hw].
  { pose proof (bin_val_spec t op x y Hx1 Hy1) as Hs.
    destruct x as [a|a|], y as [b|b|]; try done.
    - destruct Hs as [Hs _]. destruct (Hs Hd) as (w & -> & _). eauto.
    - by destruct Hx1, Hy1; congruence.
    - by destruct Hx1, Hy1; congruence.
    - destruct Hs as (w & -> & _). eauto. }
  exists (w :: ws). by constructor.
Qed.
Lemma bin_vals_spec t op xs ys ws :
  Forall (val_ok t) xs -> Forall (val_ok t) ys ->
  Forall3 (fun x y w => bin_val t op x y = Some w) xs ys ws ->
  Forall3 (fun x y w => bin_spec t op x y (Some w)) xs ys ws.
Proof.
  intros Hx Hy H. induction H as [|x y w xs ys ws Hw H IH]; [constructor|].
  apply Forall_cons in Hx as [Hx1 Hx2]. apply Forall_cons in Hy as [Hy1 Hy2].
  constructor; [|auto]. rewrite <-Hw. by apply bin_val_spec.
Qed.

Lemma binary_spec_rule op p1 p2 T1 T2 o E s :
  wf s -> alloc_all E -> holds (heap s) p1 T1 -> holds (heap s) p2 T2 ->
  a_type T2 = a_type T1 -> a_dims T2 = a_dims T1 ->
  dev_type (a_dev T1) = 0 -> dev_type (a_dev T2) = 0 ->
  prodZ (a_dims T1) <= INT_MAX -> init T1 -> init T2 ->
  Forall2 (op_defined (a_type T1) op) (a_vals T1) (a_vals T2) ->
  exists ws, Forall3 (fun x y w => bin_spec (a_type T1) op x y (Some w)) (a_vals T1) (a_vals T2) ws /\
  makes (aitisa_binary_op op (HPtr p1) (HPtr p2) o) E s (AT (a_type T1) (a_dev T1) (a_dims T1) ws).
Proof.
  intros Hwf HA H1 H2 Hty Hdi Hc1 Hc2 Hmax Hi1 Hi2 Hd.
  unfold init in Hi2. rewrite Hty in Hi2.
  destruct (bin_vals _ _ _ _ Hi1 Hi2 Hd) as [ws Hws]. exists ws.
  split; [by apply bin_vals_spec|]. by eapply binary_rule.
Qed.

Lemma int_total_defined t o xs ys : t ∈ [I8; U8; I16; U32; U64] -> o <> OpDiv ->
  Forall (val_ok t) xs -> Forall (val_ok t) ys -> length xs = length ys ->
  Forall2 (op_defined t o) xs ys.
Proof.
  intros Ht Ho Hx Hy Hl. apply Forall2_same_length_lookup. split; [done|].
  intros i x y Hxi Hyi.
  pose proof (Forall_lookup_1 _ _ _ _ Hx Hxi) as Hx1. pose proof (Forall_lookup_1 _ _ _ _ Hy Hyi) as Hy1.
  cbv beta in Hx1, Hy1. destruct x as [a|a|], y as [b|b|]; try done.
  cbn [op_defined].
  by apply int_total.
Qed.

(** The two outcomes of sqrt *)
Lemma Forall2_fun {A B} (R : A -> B -> Prop) l k k' :
  (forall x y z, R x y -> R x z -> y = z) -> Forall2 R l k -> Forall2 R l k' -> k = k'.
Proof.
  intros HR H. revert k'. induction H as [|x y l k Hxy H IH]; intros k' H'.
  - by apply Forall2_nil_inv_l in H' as ->.
  - apply Forall2_cons_inv_l in H' as (y' & k'' & Hxy' & H' & ->). f_equal; eauto.
Qed.
Lemma sqrt_ok p T o E s :
  wf s -> holds (heap s) p T -> init T -> Forall (fun v => ~ negative v) (a_vals T) ->
  exists ws, Forall2 (fun v w => sqrt_spec (a_type T) v (Some w)) (a_vals T) ws /\
  makes_or_nomem (aitisa_sqrt (HPtr p) o) E s o (AT (a_type T) (a_dev T) (a_dims T) ws).
Proof.
  intros Hwf HT Hin Hn.
  assert (exists ws, Forall2 (fun v w => sqrt_val (a_type T) v = Some w) (a_vals T) ws) as [ws Hws].
  { unfold init in Hin. induction (a_vals T) as [|v vs IH]; [exists []; constructor|].
    apply Forall_cons in Hin as [Hi1 Hi2]. apply Forall_cons in Hn as [Hn1 Hn2].
    destruct (IH Hi2 Hn2) as [ws Hws]. destruct (sqrt_val_some _ _ Hi1 Hn1) as [w Hw].
    exists (w :: ws). by constructor. }
  exists ws. split.
  - apply Forall2_same_length_lookup. split; [by eapply Forall2_length|].
    intros i v w Hv Hw. pose proof (Forall2_lookup_lr _ _ _ _ _ _ Hws Hv Hw) as He. cbv beta in He.
    rewrite <-He. apply sqrt_val_spec.
    + exact (Forall_lookup_1 _ _ _ _ Hin Hv).
    + exact (Forall_lookup_1 _ _ _ _ Hn Hv).
  - pose proof (sqrt_rule p T o E s Hwf HT Hin) as H.
    apply wp_elim in H as (r & s' & Hr & [(q & ws' & -> & _ & Hw & Hc)|[(q & -> & He & _)|(Hno & -> & Hk)]]).
    + left. exists s', q. split; [done|].
      replace ws with ws'; [done|]. eapply Forall2_fun; [|exact Hw|exact Hws].
      intros x y z H1 H2. congruence.
    + exfalso. apply Exists_exists in He as (v & Hv & He). rewrite Forall_forall in Hn. by apply (Hn v).
    + right. eauto.
Qed.
Lemma sqrt_negative p T o E s :
  wf s -> holds (heap s) p T -> init T -> Exists negative (a_vals T) ->
  exists r s', aitisa_sqrt (HPtr p) o E s = Done r s' /\ keeps s s' /\
    (r.1 = MATH_ERROR \/ ~ alloc_all E /\ r = (ALLOC_FAILED, o)).
Proof.
  intros Hwf HT Hin Hn. pose proof (sqrt_rule p T o E s Hwf HT Hin) as H.
  apply wp_elim in H as (r & s' & Hr & [(q & ws' & -> & Hnn & _)|[(q & -> & He & Hk)|(Hno & -> & Hk)]]).
  - exfalso. apply Exists_exists in Hn as (v & Hv & He). rewrite Forall_forall in Hnn. by apply (Hnn v).
  - eauto 10.
  - eauto 10.
Qed.

(** Integer square roots of at most 32-bit types are exact. *)
Lemma sqrt_floor p T o E s :
  wf s -> holds (heap s) p T -> init T -> is_float (a_type T) = false ->
  Forall (fun v => exists z, v = VI z /\ 0 <= z < 2 ^ 52) (a_vals T) ->
  exists ys, Forall2 (fun v y => exists z, v = VI z /\ 0 <= y /\ y * y <= z < (y + 1) * (y + 1)) (a_vals T) ys /\
  makes_or_nomem (aitisa_sqrt (HPtr p) o) E s o (AT (a_type T) (a_dev T) (a_dims T) (VI <$> ys)).
Proof.
  intros Hwf HT Hin Hf Hz.
  destruct (sqrt_ok p T o E s Hwf HT Hin) as (ws & Hws & Hm).
  { eapply Forall_impl; [exact Hz|]. cbv beta. intros v (z & -> & Hz'). cbn. lia. }
  assert (exists ys, ws = VI <$> ys /\
    Forall2 (fun v y => exists z, v = VI z /\ 0 <= y /\ y * y <= z < (y + 1) * (y + 1)) (a_vals T) ys)
    as (ys & -> & Hys); [|eauto].
  clear Hm Hin HT. induction Hws as [|v w vs ws Hw Hws IH]; [exists []; split; constructor|].
  apply Forall_cons in Hz as [(z & -> & Hz) Hzs]. destruct (IH Hzs) as (ys & -> & Hys).
  destruct Hw as (y & [= ->] & _ & Hy & Hlt).
  exists (y :: ys). split; [done|]. constructor; [|done]. exists z.
  split; [done|]. split; [|apply Hlt; lia]. rewrite Hy.
  destruct (sqrt_int_bound z 26) as [H _]; [lia|cbn; lia|exact H].
Qed.

Lemma sqrt_vals p T ws o E s :
  wf s -> alloc_all E -> holds (heap s) p T -> init T -> Forall (fun v => ~ negative v) (a_vals T) ->
  Forall2 (fun v w => sqrt_val (a_type T) v = Some w) (a_vals T) ws ->
  makes (aitisa_sqrt (HPtr p) o) E s (AT (a_type T) (a_dev T) (a_dims T) ws).
Proof.
  intros Hwf HA HT Hin Hn Hws. pose proof (sqrt_rule p T o E s Hwf HT Hin) as H.
  apply wp_elim in H as (r & s' & Hr & [(q & ws' & -> & _ & Hw & Hc)|[(q & -> & He & _)|(Hno & _)]]); [| |done].
  - exists s', q. split; [done|].
    replace ws with ws'; [done|]. eapply Forall2_fun; [|exact Hw|exact Hws].
    intros x y z H1 H2. congruence.
  - exfalso. apply Exists_exists in He as (v & Hv & He). rewrite Forall_forall in Hn. by apply (Hn v).
Qed.
