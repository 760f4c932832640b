(** * ProofError: error bounds for sums of products *)
From stdpp Require Import list list_numbers.
From Coq Require Import ZArith Lia Reals Lra Floats.SpecFloat.
From Flocq Require Import Core Relative Plus_error IEEE754.BinarySingleNaN.
From Verif Require Import Base Mem Spec SpecReal SpecNN SpecError.
From Verif Require Import ProofFloat ProofFloat2 ProofFloat3 ProofFloat4.
Open Scope Z_scope.

Lemma uround_pos t : (0 < uround t)%R. Proof. apply bpow_gt_0. Qed.
Lemma tiny_pos t : (0 < tiny t)%R. Proof. apply bpow_gt_0. Qed.
Lemma u_ro_eq t : u_ro radix2 (fprec t) = uround t.
Proof.
  unfold u_ro, uround. change (/ 2)%R with (bpow radix2 (-1)). rewrite <-bpow_plus. f_equal. lia.
Qed.
Lemma u_le t : (uround t / (1 + uround t) <= uround t)%R.
Proof.
  pose proof (uround_pos t). apply Rmult_le_reg_r with (1 + uround t)%R; [lra|].
  unfold Rdiv. rewrite Rmult_assoc, Rinv_l by lra. nra.
Qed.

(** One rounding, and one rounding of a sum *)
Lemma rnd_err t x : exists e h, (Rabs e <= uround t)%R /\ (Rabs h <= tiny t)%R /\
  rnd t x = (x * (1 + e) + h)%R.
Proof.
  destruct (relative_error_N_FLT'_ex radix2 (3 - femax t - fprec t) (fprec t) (Hp t)
    (fun z => negb (Z.even z)) x) as (e & h & He & Hh & _ & Hr).
  exists e, h. split_and!.
  - eapply Rle_trans; [exact He|]. rewrite u_ro_eq. apply u_le.
  - eapply Rle_trans; [exact Hh|]. right. unfold tiny. change (/ 2)%R with (bpow radix2 (-1)).
    rewrite <-bpow_plus. f_equal. lia.
  - exact Hr.
Qed.
Lemma rnd_add_err t x y : fmt t x -> fmt t y -> exists e, (Rabs e <= uround t)%R /\
  rnd t (x + y) = ((x + y) * (1 + e))%R.
Proof.
  intros Hx Hy.
  destruct (FLT_plus_error_N_ex radix2 (3 - femax t - fprec t) (fprec t) (fun z => negb (Z.even z)) x y Hx Hy)
    as (e & He & Hr).
  exists e. split; [|exact Hr]. eapply Rle_trans; [exact He|]. rewrite u_ro_eq. apply u_le.
Qed.

(** An operation with a finite result had finite operands and is a rounding. *)
Lemma flt_op_finite t o x y : o <> OpDiv -> vb t x = true -> vb t y = true ->
  is_finite_SF (flt_op t o x y) = true ->
  is_finite_SF x = true /\ is_finite_SF y = true /\
  RV (flt_op t o x y) = rnd t (op_real o (RV x) (RV y)).
Proof.
  intros Ho Hx Hy Hf. destruct (op_special o x y) as [v|] eqn:Hs.
  - exfalso. rewrite (flt_op_special _ _ _ _ _ Hs) in Hf. revert Hs Hf.
    destruct x as [?|?| |? ? ?], y as [?|?| |? ? ?], o; try done; cbn; intros [= <-];
      repeat match goal with |- context [Bool.eqb ?a ?b] => destruct (Bool.eqb a b) end; done.
  - destruct (special_finite _ _ _ Hs) as (H1 & H2 & _). split; [done|]. split; [done|].
    destruct (flt_op_full t o x y Hx Hy Hs) as [Ha Hb].
    destruct (Rlt_or_le (Rabs (rnd t (op_real o (RV x) (RV y)))) (bpow radix2 (femax t))) as [Hlt|Hge].
    + by apply Ha.
    + rewrite (Hb Hge) in Hf. done.
Qed.
Lemma flt_op_small t o x y : o <> OpDiv -> vb t x = true -> vb t y = true ->
  is_finite_SF x = true -> is_finite_SF y = true ->
  (Rabs (rnd t (op_real o (RV x) (RV y))) < bpow radix2 (femax t))%R ->
  is_finite_SF (flt_op t o x y) = true.
Proof.
  intros Ho Hx Hy Fx Fy Hlt.
  destruct (flt_op_spec t o x y Hx Hy Fx Fy ltac:(by intros ->)) as [H _]. by apply H.
Qed.

Lemma Rabs_1 e u : (Rabs e <= u)%R -> (Rabs (1 + e) <= 1 + u)%R.
Proof. intros H. eapply Rle_trans; [apply Rabs_triang|]. rewrite Rabs_R1. lra. Qed.

(** ** The recurrence *)
Section step.
  Context (t : tcode) (n : nat) (A S c x y : R).
  Hypothesis (HA : (0 <= A)%R) (HS : (Rabs S <= A)%R).
  Hypothesis (Hc : (Rabs (c - S) <= dot_error t n A)%R).
  Let u := uround t.
  Let h := tiny t.
  Lemma pow_ge1 m : (1 <= (1 + u) ^ m)%R.
  Proof. apply pow_R1_Rle. pose proof (uround_pos t). unfold u. lra. Qed.

  Lemma prod_err : (Rabs (rnd t (x * y) - x * y) <= u * Rabs (x * y) + h)%R.
  Proof.
    destruct (rnd_err t (x * y)) as (e & k & He & Hk & ->).
    replace (x * y * (1 + e) + k - x * y)%R with (x * y * e + k)%R by ring.
    eapply Rle_trans; [apply Rabs_triang|]. rewrite Rabs_mult.
    pose proof (Rabs_pos (x * y)). unfold u, h. nra.
  Qed.

  Lemma dot_error_S :
    ((dot_error t n A + u * Rabs (x * y) + h) * (1 + u) + u * (A + Rabs (x * y))
     <= dot_error t (Datatypes.S n) (A + Rabs (x * y)))%R.
  Proof.
    unfold dot_error. fold u h. pose proof (Rabs_pos (x * y)) as Hxy.
    set (z := Rabs (x * y)) in *.
    assert (0 < u)%R as Hu by apply uround_pos. assert (0 < h)%R as Hh by apply tiny_pos.
    pose proof (pow_ge1 n) as Hn. rewrite S_INR, !Nat.add_1_r. cbn [pow].
    set (w := ((1 + u) ^ n)%R) in *. pose proof (pos_INR n) as HN.
    assert (0 <= ((1 + u) * (1 + u)) * (w - 1) * z)%R as H1 by (repeat apply Rmult_le_pos; lra).
    assert (0 <= h * (1 + u) * (w - 1))%R as H2 by (repeat apply Rmult_le_pos; lra).
    match goal with |- (?l <= ?r)%R =>
      assert (r - l = ((1 + u) * (1 + u)) * (w - 1) * z + h * (1 + u) * (w - 1))%R as H3 by ring end. lra.
  Qed.

  Lemma step_ok : fmt t c -> 
    (Rabs (rnd t (c + rnd t (x * y)) - (S + x * y)) <= dot_error t (Datatypes.S n) (A + Rabs (x * y)))%R.
  Proof.
    intros Hf. destruct (rnd_add_err t c (rnd t (x * y)) Hf) as (e & He & ->).
    { unfold rnd. apply generic_format_round; typeclasses eauto. }
    pose proof prod_err as Hp. set (p := rnd t (x * y)) in *.
    replace ((c + p) * (1 + e) - (S + x * y))%R
      with ((c - S + (p - x * y)) * (1 + e) + (S + x * y) * e)%R by ring.
    eapply Rle_trans; [apply Rabs_triang|]. rewrite (Rabs_mult _ (1 + e)), (Rabs_mult _ e).
    eapply Rle_trans; [|exact dot_error_S].
    assert (0 < u)%R as Hu by apply uround_pos.
    apply Rplus_le_compat.
    - apply Rmult_le_compat; [apply Rabs_pos|apply Rabs_pos| |by apply Rabs_1].
      eapply Rle_trans; [apply Rabs_triang|]. lra.
    - rewrite Rmult_comm. apply Rmult_le_compat; [apply Rabs_pos|apply Rabs_pos|exact He|].
      eapply Rle_trans; [apply Rabs_triang|]. lra.
  Qed.
  Lemma prod_bound : (Rabs (rnd t (x * y)) <= A + Rabs (x * y) + dot_error t (Datatypes.S n) (A + Rabs (x * y)))%R.
  Proof.
    pose proof prod_err as Hp. pose proof dot_error_S as Hd.
    assert (0 <= dot_error t n A)%R as H0 by (pose proof (Rabs_pos (c - S)); lra).
    assert (0 < u)%R as Hu by apply uround_pos. assert (0 < h)%R as Hh by apply tiny_pos.
    pose proof (Rabs_pos (x * y)).
    pose proof (Rabs_triang (rnd t (x * y) - x * y) (x * y)) as Ht.
    replace (rnd t (x * y) - x * y + x * y)%R with (rnd t (x * y)) in Ht by ring. nra.
  Qed.
End step.

(** ** Lists of products *)
Lemma dot_real_snoc l x y : dot_real (l ++ [(x, y)]) = (dot_real l + val_real x * val_real y)%R.
Proof. induction l as [|[a b] l IH]; cbn; [ring|]. unfold dot_real, dot_abs in IH. rewrite IH. ring. Qed.
Lemma dot_abs_snoc l x y : dot_abs (l ++ [(x, y)]) = (dot_abs l + Rabs (val_real x * val_real y))%R.
Proof. induction l as [|[a b] l IH]; cbn; [ring|]. unfold dot_real, dot_abs in IH. rewrite IH. ring. Qed.
Lemma dot_abs_nonneg l : (0 <= dot_abs l)%R.
Proof. induction l as [|[a b] l IH]; cbn; [lra|]. pose proof (Rabs_pos (val_real a * val_real b)). unfold dot_abs in IH. lra. Qed.
Lemma dot_abs_ge l : (Rabs (dot_real l) <= dot_abs l)%R.
Proof.
  induction l as [|[a b] l IH]; cbn; [rewrite Rabs_R0; lra|].
  eapply Rle_trans; [apply Rabs_triang|]. unfold dot_real, dot_abs in IH. lra.
Qed.
Lemma dot_error_mono t n A B : (0 <= A <= B)%R -> (dot_error t n A <= dot_error t n B)%R.
Proof.
  intros H. unfold dot_error. pose proof (pow_ge1 t (n + 1)). apply Rplus_le_compat_r. nra.
Qed.
Lemma dot_error_nonneg t n A : (0 <= A)%R -> (0 <= dot_error t n A)%R.
Proof.
  intros H. unfold dot_error. pose proof (pow_ge1 t (n + 1)). pose proof (pow_ge1 t n).
  pose proof (pos_INR n). pose proof (tiny_pos t).
  apply Rplus_le_le_0_compat; [nra|]. apply Rmult_le_pos; [nra|lra].
Qed.

Lemma mac_all_snoc t c l x y : mac_all t c (l ++ [(x, y)]) = mac_all t c l ≫= fun c => mac_val t c x y.
Proof. unfold mac_all. rewrite foldl_app. done. Qed.

Lemma zero_R t : is_float t = true -> zero_val t = VF fzero. Proof. by destruct t. Qed.
Lemma fzero_vb t : vb t fzero = true. Proof. done. Qed.

Lemma mac_val_float t c x y w : is_float t = true -> val_ok t c -> val_ok t x -> val_ok t y ->
  mac_val t c x y = Some w ->
  exists c' x' y', c = VF c' /\ x = VF x' /\ y = VF y' /\ vb t c' = true /\ vb t x' = true /\ vb t y' = true /\
    w = VF (flt_op t OpAdd c' (flt_op t OpMul x' y')) /\ val_ok t w.
Proof.
  intros Ht Hc Hx Hy. destruct c as [?|c'|], x as [?|x'|], y as [?|y'|]; try done; cbn in *; rewrite Ht in *.
  - by destruct Hc. 
  - intros [= <-]. destruct Hc, Hx, Hy. exists c', x', y'. split_and!; try done.
    cbn. split; [done|]. apply (flt_op_valid t OpAdd); [done|]. by apply (flt_op_valid t OpMul).
Qed.

Lemma mac_all_val t l c w : is_float t = true -> val_ok t c ->
  Forall (fun p => val_ok t p.1 /\ val_ok t p.2) l -> mac_all t c l = Some w -> val_ok t w.
Proof.
  intros Ht Hc Hl. revert w. induction l as [|[x y] l IH] using rev_ind; intros w Hw.
  - cbn in Hw. by simplify_eq.
  - apply Forall_app in Hl as [Hl [[Hx Hy] _]%Forall_cons]. rewrite mac_all_snoc in Hw.
    destruct (mac_all t c l) as [v|] eqn:Hv; [|done]. cbn [mbind option_bind] in Hw.
    destruct (mac_val_float t v x y w Ht (IH Hl v eq_refl) Hx Hy Hw) as (? & ? & ? & ? & ? & ? & ? & ? & ? & ? & ?). done.
Qed.

Theorem mac_all_close t l w : is_float t = true ->
  Forall (fun p => val_ok t p.1 /\ val_ok t p.2) l ->
  mac_all t (zero_val t) l = Some w -> finite_val w ->
  Forall (fun p => finite_val p.1 /\ finite_val p.2) l /\ dot_close t l w.
Proof.
  intros Ht Hl. revert w. induction l as [|[x y] l IH] using rev_ind; intros w Hw Hf.
  - cbn in Hw. simplify_eq. split; [done|]. unfold dot_close. rewrite zero_R by done. cbn.
    unfold dot_error. cbn. rewrite Rminus_0_r, Rabs_R0. lra.
  - apply Forall_app in Hl as [Hl [[Hx Hy] _]%Forall_cons]. cbn [fst snd] in Hx, Hy. rewrite mac_all_snoc in Hw.
    destruct (mac_all t (zero_val t) l) as [v|] eqn:Hv; [|done]. cbn [mbind option_bind] in Hw.
    assert (val_ok t v) as Hvok.
    { eapply mac_all_val; [done| |exact Hl|exact Hv]. rewrite zero_R by done. done. }
    destruct (mac_val_float t v x y w Ht Hvok Hx Hy Hw)
      as (c' & x' & y' & -> & -> & -> & Vc & Vx & Vy & -> & _).
    destruct Hf as (f & [= <-] & Hf).
    assert (vb t (flt_op t OpMul x' y') = true) as Vm by by apply flt_op_valid.
    destruct (flt_op_finite t OpAdd _ _ ltac:(done) Vc Vm Hf) as (Fc & Fm & Rs).
    destruct (flt_op_finite t OpMul _ _ ltac:(done) Vx Vy Fm) as (Fx & Fy & Rm).
    destruct (IH Hl (VF c') eq_refl) as [Hfl Hcl]; [by eexists|]. split.
    { apply Forall_app. split; [done|]. apply Forall_singleton. split; by eexists. }
    unfold dot_close in *. cbn [val_real] in *. rewrite dot_real_snoc, dot_abs_snoc, app_length. cbn [length val_real].
    rewrite Nat.add_1_r, Rs, Rm. cbn [op_real]. apply step_ok; [apply dot_abs_ge|exact Hcl|by apply fmt_val].
Qed.

Theorem mac_all_safe t l w : is_float t = true ->
  Forall (fun p => val_ok t p.1 /\ val_ok t p.2) l ->
  Forall (fun p => finite_val p.1 /\ finite_val p.2) l -> dot_safe t l ->
  mac_all t (zero_val t) l = Some w -> finite_val w.
Proof.
  intros Ht Hl. revert w. induction l as [|[x y] l IH] using rev_ind; intros w Hfin Hs Hw.
  - cbn in Hw. simplify_eq. rewrite zero_R by done. by eexists.
  - apply Forall_app in Hl as [Hl [[Hx Hy] _]%Forall_cons]. cbn [fst snd] in Hx, Hy. rewrite mac_all_snoc in Hw.
    apply Forall_app in Hfin as [Hfin [[Fx Fy] _]%Forall_cons]. cbn [fst snd] in Fx, Fy.
    destruct (mac_all t (zero_val t) l) as [v|] eqn:Hv; [|done]. cbn [mbind option_bind] in Hw.
    assert (val_ok t v) as Hvok.
    { eapply mac_all_val; [done| |exact Hl|exact Hv]. rewrite zero_R by done. done. }
    destruct (mac_val_float t v x y w Ht Hvok Hx Hy Hw)
      as (c' & x' & y' & -> & -> & -> & Vc & Vx & Vy & -> & _).
    unfold dot_safe in Hs. rewrite dot_abs_snoc, app_length in Hs. cbn [length val_real] in Hs.
    rewrite Nat.add_1_r in Hs.
    pose proof (dot_abs_nonneg l) as HA. pose proof (dot_abs_ge l) as HS.
    pose proof (Rabs_pos (RV x' * RV y')) as Hxy.
    destruct (IH Hl (VF c') Hfin) as (? & [= <-] & Fc); [|done|].
    { unfold dot_safe. eapply Rle_lt_trans; [|exact Hs].
      pose proof (dot_error_S t (length l) (dot_abs l) (RV x') (RV y')) as He.
      pose proof (uround_pos t). pose proof (tiny_pos t). pose proof (dot_error_nonneg t (length l) _ HA). nra. }
    destruct (mac_all_close t l (VF c') Ht Hl Hv ltac:(by eexists)) as [_ Hcl].
    unfold dot_close in Hcl. cbn [val_real] in Hcl.
    destruct Fx as (? & [= <-] & Fx), Fy as (? & [= <-] & Fy).
    assert (is_finite_SF (flt_op t OpMul x' y') = true) as Fm.
    { apply flt_op_small; [done..|]. cbn [op_real]. eapply Rle_lt_trans; [|exact Hs].
      by apply (prod_bound t (length l) (dot_abs l) (dot_real l) (RV c')). }
    assert (vb t (flt_op t OpMul x' y') = true) as Vm by by apply flt_op_valid.
    destruct (flt_op_finite t OpMul _ _ ltac:(done) Vx Vy Fm) as (_ & _ & Rm).
    eexists. split; [done|]. apply flt_op_small; [done..|]. cbn [op_real]. rewrite Rm. cbn [op_real].
    eapply Rle_lt_trans; [|exact Hs].
    pose proof (step_ok t (length l) (dot_abs l) (dot_real l) (RV c') (RV x') (RV y') HS Hcl
      (fmt_val _ _ Vc)) as Hst.
    set (r := rnd t (RV c' + rnd t (RV x' * RV y'))) in *.
    pose proof (Rabs_triang (r - (dot_real l + RV x' * RV y')) (dot_real l + RV x' * RV y')) as H1.
    replace (r - (dot_real l + RV x' * RV y') + (dot_real l + RV x' * RV y'))%R with r in H1 by ring.
    pose proof (Rabs_triang (dot_real l) (RV x' * RV y')). lra.
Qed.

(** ** Inner products *)
Lemma inner_terms t k f g : inner t k f g = mac_all t (zero_val t) (terms k f g).
Proof.
  unfold inner, mac_all, terms. generalize (Some (zero_val t)) as a. generalize (seq 0 (Z.to_nat k)) as l.
  intros l. induction l as [|q l IH]; intros a; [done|]. cbn. apply IH.
Qed.

Lemma mac_accurate t l v : is_float t = true ->
  Forall (fun p => val_ok t p.1 /\ val_ok t p.2) l -> mac_all t (zero_val t) l = Some v -> accurate t l v.
Proof.
  intros Ht Hl Hv. split.
  - intros Hf. by apply mac_all_close.
  - intros Hf Hs. by eapply mac_all_safe.
Qed.
Lemma inner_accurate t k f g w : is_float t = true ->
  (forall q, 0 <= q < k -> val_ok t (f q) /\ val_ok t (g q)) -> inner t k f g = Some w ->
  accurate t (terms k f g) w.
Proof.
  intros Ht Hl Hw. rewrite inner_terms in Hw. apply mac_accurate; [done| |done].
  apply Forall_forall. intros [x y] Hxy. apply elem_of_list_fmap in Hxy as (q & [= -> ->] & Hq).
  apply elem_of_seq in Hq. apply Hl. lia.
Qed.

(** ** A simpler bound *)
Lemma pow_1u u n : (0 <= u)%R -> (INR n * u <= / 2)%R -> ((1 + u) ^ n * (1 - INR n * u) <= 1)%R.
Proof.
  intros Hu. induction n as [|n IH]; [cbn; lra|]. rewrite S_INR. intros H. cbn [pow].
  pose proof (pos_INR n) as HN. assert (INR n * u <= / 2)%R as H' by nra. specialize (IH H').
  assert (0 <= (1 + u) ^ n)%R by (apply pow_le; lra).
  assert ((1 + u) * (1 - (INR n + 1) * u) <= 1 - INR n * u)%R by nra. nra.
Qed.
Lemma dot_error_simple t n A : (0 <= A)%R -> (INR (n + 1) * uround t <= / 2)%R ->
  (dot_error t n A <= 2 * INR (n + 1) * uround t * A + 2 * INR n * tiny t)%R.
Proof.
  intros HA Hn. unfold dot_error. pose proof (uround_pos t). pose proof (tiny_pos t). pose proof (pos_INR n) as HN.
  pose proof (pow_1u (uround t) (n + 1) ltac:(lra) Hn) as H1.
  pose proof (pow_1u (uround t) n) as H2. rewrite plus_INR in *. cbn [INR] in *.
  specialize (H2 ltac:(lra) ltac:(nra)).
  pose proof (pow_ge1 t (n + 1)) as G1. pose proof (pow_ge1 t n) as G2. cbv zeta in *.
  apply Rplus_le_compat.
  - apply Rmult_le_compat_r; [done|]. set (w := ((1 + uround t) ^ (n + 1))%R) in *. nra.
  - set (w := ((1 + uround t) ^ n)%R) in *. assert (w <= 2)%R as Hw by nra.
    assert (0 <= INR n * tiny t)%R by (apply Rmult_le_pos; lra). nra.
Qed.
Lemma dot_safe_simple t l : (INR (length l + 1) * uround t <= / 2)%R ->
  (2 * dot_abs l + 2 * INR (length l) * tiny t < bpow radix2 (femax t))%R -> dot_safe t l.
Proof.
  intros Hn Hs. unfold dot_safe. pose proof (dot_abs_nonneg l) as HA.
  pose proof (dot_error_simple t (length l) _ HA Hn) as He. nra.
Qed.
