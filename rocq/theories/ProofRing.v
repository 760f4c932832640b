(** * ProofRing: products and sums of unsigned matrices *)
From stdpp Require Import gmap list.
From Coq Require Import ZArith Lia.
From Coq Require Import ZifyBool ZifyNat.
From Verif Require Import Base Mem Spec SpecReal SpecRing ModelCore ModelBasic ModelMath.
From Verif Require Import Logic ProofCore ProofCore2 ProofCast ProofMatmul ProofMatmul3 ProofSqrt ProofIndex ProofKernel ProofKernel2 ProofError2 ProofLaws ProofDot4
  PropMath PropMath2.
Open Scope Z_scope.
Ltac Zify.zify_post_hook ::= idtac.

(** ** Sums *)
Lemma sum_to_ext n f g : (forall q, 0 <= q < Z.of_nat n -> f q = g q) -> sum_to n f = sum_to n g.
Proof.
  induction n as [|n IH]; intros H; [done|]. rewrite !sum_to_S, IH, H by (intros; apply H || lia; lia). done.
Qed.
Lemma sum_to_mod n f g M : (forall q, 0 <= q < Z.of_nat n -> f q mod M = g q mod M) -> sum_to n f mod M = sum_to n g mod M.
Proof.
  induction n as [|n IH]; intros H; [done|]. rewrite !sum_to_S.
  rewrite Zplus_mod, IH, H by (intros; apply H || lia; lia). by rewrite <-Zplus_mod.
Qed.
Lemma sum_to_add n f g : sum_to n (fun q => f q + g q) = sum_to n f + sum_to n g.
Proof. induction n as [|n IH]; [done|]. rewrite !sum_to_S, IH. lia. Qed.
Lemma sum_to_scale n f c : sum_to n (fun q => c * f q) = c * sum_to n f.
Proof. induction n as [|n IH]; [cbn; lia|]. rewrite !sum_to_S, IH. lia. Qed.
Lemma sum_to_scale_r n f c : sum_to n (fun q => f q * c) = sum_to n f * c.
Proof. induction n as [|n IH]; [cbn; lia|]. rewrite !sum_to_S, IH. lia. Qed.
Lemma sum_to_zero n : sum_to n (fun _ => 0) = 0.
Proof. induction n as [|n IH]; [done|]. rewrite sum_to_S, IH. lia. Qed.
Lemma sum_to_swap n m f : sum_to n (fun q => sum_to m (fun r => f q r)) = sum_to m (fun r => sum_to n (fun q => f q r)).
Proof.
  induction n as [|n IH].
  - symmetry. apply sum_to_zero.
  - rewrite sum_to_S, IH, <-sum_to_add. apply sum_to_ext. intros q _. by rewrite sum_to_S.
Qed.
Lemma sum_to_one n f j : 0 <= j < Z.of_nat n -> sum_to n (fun q => if q =? j then f q else 0) = f j.
Proof.
  induction n as [|n IH]; intros Hj; [lia|]. rewrite sum_to_S.
  destruct (Z.eqb_spec (Z.of_nat n) j) as [He|Hne].
  - rewrite He. rewrite (sum_to_ext n _ (fun _ => 0)), sum_to_zero by (intros q Hq; destruct (Z.eqb_spec q j); lia). lia.
  - rewrite IH by lia. lia.
Qed.

(** ** Integer tensors *)
Definition iv (T : atensor) (c : list Z) : Z := match at_ T c with VI z => z | _ => 0 end.
Lemma iv_at T c : valid T -> init T -> is_float (a_type T) = false -> in_box (a_dims T) c ->
  at_ T c = VI (iv T c) /\ tmin (a_type T) <= iv T c <= tmax (a_type T).
Proof.
  intros Hv Hi Hf Hc. pose proof (init_at T (a_type T) c Hv eq_refl Hi Hc) as H. unfold iv.
  destruct (at_ T c) as [z|f|]; [by destruct H|destruct H as [H _]; congruence|done].
Qed.
Lemma tensor_ext T T' : valid T -> valid T' -> a_type T = a_type T' -> a_dev T = a_dev T' -> a_dims T = a_dims T' ->
  (forall c, in_box (a_dims T) c -> at_ T c = at_ T' c) -> T = T'.
Proof.
  intros H1 H2 Ht Hd Hs Ha. destruct T as [t d l v] eqn:ET, T' as [t' d' l' v'] eqn:ET'. cbn in Ht, Hd, Hs. subst t' d' l'.
  f_equal. change v with (a_vals (AT t d l v)). change v' with (a_vals (AT t d l v')).
  rewrite <-(tab_at _ H1), <-(tab_at _ H2). cbn [a_dims]. apply tab_ext; [exact Ha|]. apply H1.
Qed.
Lemma init_of T : valid T -> (forall c, in_box (a_dims T) c -> val_ok (a_type T) (at_ T c)) -> init T.
Proof.
  intros Hv H. unfold init. rewrite <-(tab_at _ Hv). apply Forall_lookup. intros i x Hi.
  pose proof (lookup_lt_Some _ _ _ Hi) as Hl. rewrite tab_length in Hl. rewrite tab_lookup in Hi by done. injection Hi as <-.
  apply H. apply unravel_in_box. apply prodZ_pos_inv; [apply Hv|lia].
Qed.
Lemma box2 m n c : in_box [m; n] c <-> exists i j, c = [i; j] /\ 0 <= i < m /\ 0 <= j < n.
Proof.
  split.
  - intros H. inversion H as [|i m' c1 l1 Hi H1]; subst. inversion H1 as [|j n' c2 l2 Hj H2]; subst. inversion H2; subst. eauto.
  - intros (i & j & -> & Hi & Hj). unfold in_box. constructor; [done|]. constructor; [done|]. constructor.
Qed.
Lemma fits2 t m n : 0 <= m -> 0 <= n -> m <= INT_MAX -> n <= INT_MAX -> m * n <= INT_MAX -> fits (tsz t) [m; n].
Proof.
  intros Hm Hn Hm' Hn' Hmn. split_and!; [by repeat constructor|cbn; llia|].
  cbn [fmap list_fmap]. rewrite !prodZ_cons, prodZ_nil.
  assert (Z.max 1 m * (Z.max 1 n * 1) <= INT_MAX).
  { destruct (Z.eq_dec m 0) as [->|]; [llia|]. destruct (Z.eq_dec n 0) as [->|]; [llia|].
    rewrite !Z.max_r by lia. lia. }
  assert (Z.of_nat (tsz t) <= 8) by (destruct t; cbn; lia). lims. nia.
Qed.

(** ** Products *)
Lemma product_int t T1 T2 m k n :
  is_float t = false -> valid T1 -> valid T2 -> init T1 -> init T2 -> a_type T1 = t -> a_type T2 = t ->
  dev_type (a_dev T1) = 0 -> dev_type (a_dev T2) = 0 -> a_dims T1 = [m; k] -> a_dims T2 = [k; n] ->
  m <= INT_MAX -> k <= INT_MAX -> n <= INT_MAX -> m * n <= INT_MAX ->
  (forall i j, 0 <= i < m -> 0 <= j < n -> is_Some (inner t k (fun q => at_ T1 [i; q]) (fun q => at_ T2 [q; j]))) ->
  exists P, valid P /\ init P /\ a_type P = t /\ a_dev P = a_dev T1 /\ a_dims P = [m; n] /\
    (forall i j, 0 <= i < m -> 0 <= j < n -> iv P [i; j] = wrap t (sum_to (Z.to_nat k) (fun q => iv T1 [i; q] * iv T2 [q; j]))) /\
    (forall p1 p2 o E s, wf s -> alloc_all E -> holds (heap s) p1 T1 -> holds (heap s) p2 T2 ->
       makes (aitisa_matmul (HPtr p1) (HPtr p2) o) E s P).
Proof.
  intros Hf V1 V2 I1 I2 Y1 Y2 C1 C2 D1 D2 Hm Hk Hn Hmn Hd.
  assert (0 <= m /\ 0 <= k /\ 0 <= n) as (Hm0 & Hk0 & Hn0).
  { destruct V1 as [[W1 _] _]. destruct V2 as [[W2 _] _]. rewrite D1 in W1. rewrite D2 in W2.
    inversion W1 as [|? ? A1 A2]; subst. inversion W2 as [|? ? B1 B2]; subst. inversion B2; subst. done. }
  pose proof (fits2 t m n Hm0 Hn0 Hm Hn Hmn) as Hfit.
  assert (forall i q, 0 <= i < m -> 0 <= q < k -> at_ T1 [i; q] = VI (iv T1 [i; q])) as A1.
  { intros i q Hi Hq. apply iv_at; [done|done|congruence|]. rewrite D1. apply box2. eauto. }
  assert (forall q j, 0 <= q < k -> 0 <= j < n -> at_ T2 [q; j] = VI (iv T2 [q; j])) as A2.
  { intros q j Hq Hj. apply iv_at; [done|done|congruence|]. rewrite D2. apply box2. eauto. }
  destruct (tab_choose t (a_dev T1) [m; n] (fun c => match c with [i; j] =>
     inner t k (fun q => at_ T1 [i; q]) (fun q => at_ T2 [q; j]) | _ => None end) Hfit) as (P & VP & YP & DP & SP & HP).
  { intros c (i & j & -> & Hi & Hj)%box2. by apply Hd. }
  assert (forall i j, 0 <= i < m -> 0 <= j < n ->
    at_ P [i; j] = VI (wrap t (sum_to (Z.to_nat k) (fun q => iv T1 [i; q] * iv T2 [q; j])))) as HV.
  { intros i j Hi Hj. assert (in_box [m; n] [i; j]) as Hb by (apply box2; eauto 10). pose proof (HP _ Hb) as H. cbv beta match in H.
    rewrite (inner_ext t k _ _ (fun q => VI (iv T1 [i; q])) (fun q => VI (iv T2 [q; j]))) in H by (intros q Hq; auto).
    by apply inner_int in H. }
  exists P. split_and!; [done| |done|done|done| |].
  - apply init_of; [done|]. rewrite SP. intros c (i & j & -> & Hi & Hj)%box2. rewrite HV by done. rewrite YP.
    split; [done|apply wrap_range].
  - intros i j Hi Hj. unfold iv at 1. by rewrite HV.
  - intros p1 p2 o E s W HE H1 H2. eapply makes_enough; [done|].
    eapply (C31_matrix_matrix p1 p2 T1 T2 P o E s); try done; try congruence.
    + rewrite SP, !prodZ_cons, prodZ_nil. lia.
    + intros i j Hi Hj. rewrite Y1. apply (HP [i; j]). apply box2; eauto 10.
Qed.
Lemma product_u t T1 T2 m k n :
  t ∈ [I8; U8; I16; U32; U64] -> valid T1 -> valid T2 -> init T1 -> init T2 -> a_type T1 = t -> a_type T2 = t ->
  dev_type (a_dev T1) = 0 -> dev_type (a_dev T2) = 0 -> a_dims T1 = [m; k] -> a_dims T2 = [k; n] ->
  m <= INT_MAX -> k <= INT_MAX -> n <= INT_MAX -> m * n <= INT_MAX ->
  exists P, valid P /\ init P /\ a_type P = t /\ a_dev P = a_dev T1 /\ a_dims P = [m; n] /\
    (forall i j, 0 <= i < m -> 0 <= j < n -> iv P [i; j] = wrap t (sum_to (Z.to_nat k) (fun q => iv T1 [i; q] * iv T2 [q; j]))) /\
    (forall p1 p2 o E s, wf s -> alloc_all E -> holds (heap s) p1 T1 -> holds (heap s) p2 T2 ->
       makes (aitisa_matmul (HPtr p1) (HPtr p2) o) E s P).
Proof.
  intros Ht V1 V2 I1 I2 Y1 Y2 C1 C2 D1 D2 Hm Hk Hn Hmn. rewrite !elem_of_cons, elem_of_nil in Ht.
  apply product_int; try done; [destruct_or! Ht; subst; done|].
  intros i j Hi Hj. destruct (C31_inner_defined t k (fun q => at_ T1 [i; q]) (fun q => at_ T2 [q; j])) as [w ->]; [| |done].
  - rewrite !elem_of_cons. tauto.
  - intros q Hq. split; [apply (init_at T1)|apply (init_at T2)]; try done; [rewrite D1|rewrite D2]; apply box2; eauto.
Qed.

(** ** Sums *)
Lemma sum_u t T1 T2 m n :
  t ∈ [I8; U8; I16; U32; U64] -> valid T1 -> valid T2 -> init T1 -> init T2 -> a_type T1 = t -> a_type T2 = t ->
  dev_type (a_dev T1) = 0 -> dev_type (a_dev T2) = 0 -> a_dims T1 = [m; n] -> a_dims T2 = [m; n] -> m * n <= INT_MAX ->
  exists P, valid P /\ init P /\ a_type P = t /\ a_dev P = a_dev T1 /\ a_dims P = [m; n] /\
    (forall i j, 0 <= i < m -> 0 <= j < n -> iv P [i; j] = wrap t (iv T1 [i; j] + iv T2 [i; j])) /\
    (forall p1 p2 o E s, wf s -> alloc_all E -> holds (heap s) p1 T1 -> holds (heap s) p2 T2 ->
       makes (aitisa_add (HPtr p1) (HPtr p2) o) E s P).
Proof.
  intros Ht V1 V2 I1 I2 Y1 Y2 C1 C2 D1 D2 Hmn.
  assert (is_float t = false) as Hf by (rewrite !elem_of_cons, elem_of_nil in Ht; destruct_or! Ht; subst; done).
  set (P := AT t (a_dev T1) [m; n] (tab [m; n] (fun c => VI (wrap t (iv T1 c + iv T2 c))))).
  assert (fits (tsz t) [m; n]) as Hfit by (rewrite <-Y1, <-D1; apply V1).
  assert (valid P) as VP by (by apply tab_valid).
  assert (forall c, in_box [m; n] c -> at_ P c = VI (wrap t (iv T1 c + iv T2 c))) as HP by (intros c Hc; by apply (at_tab t (a_dev T1) [m; n])).
  exists P. split_and!; [done| |done|done|done| |].
  - apply init_of; [done|]. intros c Hc. rewrite HP by done. split; [done|apply wrap_range].
  - intros i j Hi Hj. unfold iv at 1. rewrite HP by (apply box2; eauto). done.
  - intros p1 p2 o E s W HE H1 H2.
    destruct (C26_arithmetic OpAdd p1 p2 T1 T2 o E s) as (ws & K1 & K2); try done; try congruence.
    { rewrite D1, !prodZ_cons, prodZ_nil. lia. }
    { rewrite Y1. apply int_total_defined; [rewrite !elem_of_cons in *; tauto|done| | |].
      - unfold init in I1. by rewrite Y1 in I1.
      - unfold init in I2. by rewrite Y2 in I2.
      - rewrite (valid_len _ V1), (valid_len _ V2) || idtac. pose proof (valid_len _ V1). pose proof (valid_len _ V2). rewrite D1, D2 in *. lia. }
    replace P with (AT (a_type T1) (a_dev T1) (a_dims T1) ws); [done|].
    unfold P. rewrite Y1, D1. f_equal. rewrite Y1 in K1.
    rewrite <-(tab_at T1 V1), <-(tab_at T2 V2), D1, D2 in K1. clear -Ht K1 V1 V2 I1 I2 Y1 Y2 D1 D2 Hf Hfit.
    apply list_eq. intros q. pose proof (Forall3_length_lm _ _ _ _ K1) as L1. pose proof (Forall3_length_lr _ _ _ _ K1) as L2.
    rewrite !tab_length in *.
    destruct (decide (q < Z.to_nat (prodZ [m; n]))%nat) as [Hq|Hq].
    2: { rewrite !lookup_ge_None_2; [done|rewrite tab_length; lia|lia]. }
    destruct (Forall3_lookup_l _ _ _ _ q (at_ T1 (unravel [m; n] (Z.of_nat q))) K1) as (y & w & Hy & Hw & Hb).
    { by rewrite tab_lookup. }
    rewrite Hw, tab_lookup by done. rewrite tab_lookup in Hy by done.
    assert (y = at_ T2 (unravel [m; n] (Z.of_nat q))) as -> by congruence. clear Hy. f_equal.
    assert (in_box [m; n] (unravel [m; n] (Z.of_nat q))) as Hc.
    { apply unravel_in_box. apply prodZ_pos_inv; [apply Hfit|lia]. }
    set (c := unravel [m; n] (Z.of_nat q)) in *.
    destruct (iv_at T1 c V1 I1 ltac:(congruence) ltac:(by rewrite D1)) as [E1 R1].
    destruct (iv_at T2 c V2 I2 ltac:(congruence) ltac:(by rewrite D2)) as [E2 R2].
    rewrite E1, E2 in Hb. cbn [bin_spec] in Hb. destruct Hb as [Hb Hb'].
    rewrite Y1 in R1. rewrite Y2 in R2.
    assert (int_defined t OpAdd (iv T1 c) (iv T2 c)) as Hd by (by apply int_total).
    destruct (Hb Hd) as (r & [= ->] & Hr & Hm). cbn [op_int] in Hm. f_equal.
    rewrite <-(wrap_id t r Hr). by apply wrap_eqm.
Qed.

(** ** Matrices *)
Notation total := [I8; U8; I16; U32; U64].
Definition entries (P : atensor) t m n (f : Z -> Z -> Z) : Prop := forall i j, 0 <= i < m -> 0 <= j < n -> iv P [i; j] = wrap t (f i j).

Lemma times t A B m k n : t ∈ total -> matrix t m k A -> matrix t k n B ->
  m <= INT_MAX -> k <= INT_MAX -> n <= INT_MAX -> m * n <= INT_MAX ->
  exists P, matrix t m n P /\ a_dev P = a_dev A /\
    entries P t m n (fun i j => sum_to (Z.to_nat k) (fun q => iv A [i; q] * iv B [q; j])) /\ gives aitisa_matmul A B P.
Proof.
  intros Ht (V1 & I1 & Y1 & C1 & D1) (V2 & I2 & Y2 & C2 & D2) Hm Hk Hn Hmn.
  destruct (product_u t A B m k n) as (P & VP & IP & YP & EP & DP & HP & HG); try done.
  exists P. split_and!; try done. unfold matrix. by rewrite EP.
Qed.
Lemma plus t A B m n : t ∈ total -> matrix t m n A -> matrix t m n B -> m * n <= INT_MAX ->
  exists P, matrix t m n P /\ a_dev P = a_dev A /\
    entries P t m n (fun i j => iv A [i; j] + iv B [i; j]) /\ gives aitisa_add A B P.
Proof.
  intros Ht (V1 & I1 & Y1 & C1 & D1) (V2 & I2 & Y2 & C2 & D2) Hmn.
  destruct (sum_u t A B m n) as (P & VP & IP & YP & EP & DP & HP & HG); try done.
  exists P. split_and!; try done. unfold matrix. by rewrite EP.
Qed.
Lemma matrix_eq t m n P Q f g : is_float t = false -> matrix t m n P -> matrix t m n Q -> a_dev P = a_dev Q ->
  entries P t m n f -> entries Q t m n g ->
  (forall i j, 0 <= i < m -> 0 <= j < n -> f i j mod 2 ^ bits t = g i j mod 2 ^ bits t) -> P = Q.
Proof.
  intros Hf (V1 & I1 & Y1 & C1 & D1) (V2 & I2 & Y2 & C2 & D2) Hd HP HQ H.
  apply tensor_ext; try done; try congruence. intros c Hc.
  destruct (iv_at P c V1 I1 ltac:(congruence) Hc) as [-> _].
  destruct (iv_at Q c V2 I2 ltac:(congruence) ltac:(by rewrite D2, <-D1)) as [-> _].
  rewrite D1 in Hc. apply box2 in Hc as (i & j & -> & Hi & Hj). rewrite HP, HQ by done. f_equal. by apply wrap_eqm, H.
Qed.
Lemma total_int t : t ∈ total -> is_float t = false.
Proof. rewrite !elem_of_cons, elem_of_nil. intros H. destruct_or! H; subst; done. Qed.
Lemma mod_mul_l t x y : (wrap t x * y) mod 2 ^ bits t = (x * y) mod 2 ^ bits t.
Proof. rewrite <-Zmult_mod_idemp_l, wrap_congr. apply Zmult_mod_idemp_l. Qed.
Lemma mod_mul_r t x y : (x * wrap t y) mod 2 ^ bits t = (x * y) mod 2 ^ bits t.
Proof. rewrite <-Zmult_mod_idemp_r, wrap_congr. apply Zmult_mod_idemp_r. Qed.
Lemma mod_add2 t x y : (wrap t x + wrap t y) mod 2 ^ bits t = (x + y) mod 2 ^ bits t.
Proof. rewrite Zplus_mod, !wrap_congr. symmetry. apply Zplus_mod. Qed.

Lemma assoc t A B C m k l n : t ∈ total -> matrix t m k A -> matrix t k l B -> matrix t l n C ->
  m <= INT_MAX -> k <= INT_MAX -> l <= INT_MAX -> n <= INT_MAX -> m * l <= INT_MAX -> k * n <= INT_MAX -> m * n <= INT_MAX ->
  exists AB BC P, matrix t m l AB /\ matrix t k n BC /\ matrix t m n P /\
    gives aitisa_matmul A B AB /\ gives aitisa_matmul B C BC /\
    gives aitisa_matmul AB C P /\ gives aitisa_matmul A BC P.
Proof.
  intros Ht HA HB HC Hm Hk Hl Hn Hml Hkn Hmn.
  destruct (times t A B m k l) as (AB & MAB & DAB & EAB & GAB); try done.
  destruct (times t B C k l n) as (BC & MBC & DBC & EBC & GBC); try done.
  destruct (times t AB C m l n) as (P & MP & DP & EP & GP); try done.
  destruct (times t A BC m k n) as (Q & MQ & DQ & EQ & GQ); try done.
  assert (P = Q) as <-.
  { eapply (matrix_eq t m n); [by apply total_int|done|done|congruence|exact EP|exact EQ|].
    assert (0 <= k /\ 0 <= l) as [Hk0 Hl0].
    { destruct HB as ([[W _] _] & _ & _ & _ & D). rewrite D in W. inversion W as [|? ? W1 W2]; subst. inversion W2; subst. done. }
    intros i j Hi Hj.
    transitivity (sum_to (Z.to_nat l) (fun q => sum_to (Z.to_nat k) (fun r => iv A [i; r] * iv B [r; q] * iv C [q; j])) mod 2 ^ bits t).
    - apply sum_to_mod. intros q Hq. rewrite EAB by lia. rewrite mod_mul_l. by rewrite sum_to_scale_r.
    - rewrite sum_to_swap. apply sum_to_mod. intros r Hr. rewrite EBC by lia. rewrite mod_mul_r, <-sum_to_scale.
      f_equal. apply sum_to_ext. intros q Hq. lia. }
  exists AB, BC, P. done.
Qed.
Lemma distr_l t A B C m k n : t ∈ total -> matrix t m k A -> matrix t k n B -> matrix t k n C ->
  m <= INT_MAX -> k <= INT_MAX -> n <= INT_MAX -> m * n <= INT_MAX -> k * n <= INT_MAX ->
  exists BC AB AC P, matrix t k n BC /\ matrix t m n AB /\ matrix t m n AC /\ matrix t m n P /\
    gives aitisa_add B C BC /\ gives aitisa_matmul A B AB /\ gives aitisa_matmul A C AC /\
    gives aitisa_matmul A BC P /\ gives aitisa_add AB AC P.
Proof.
  intros Ht HA HB HC Hm Hk Hn Hmn Hkn.
  destruct (plus t B C k n) as (BC & MBC & DBC & EBC & GBC); try done.
  destruct (times t A B m k n) as (AB & MAB & DAB & EAB & GAB); try done.
  destruct (times t A C m k n) as (AC & MAC & DAC & EAC & GAC); try done.
  destruct (times t A BC m k n) as (P & MP & DP & EP & GP); try done.
  destruct (plus t AB AC m n) as (Q & MQ & DQ & EQ & GQ); try done.
  assert (P = Q) as <-.
  { eapply (matrix_eq t m n); [by apply total_int|done|done|congruence|exact EP|exact EQ|].
    intros i j Hi Hj. cbv beta. rewrite EAB, EAC by done. rewrite mod_add2, <-sum_to_add. apply sum_to_mod.
    intros q Hq. rewrite EBC by lia. rewrite mod_mul_r. f_equal. lia. }
  exists BC, AB, AC, P. done.
Qed.
Lemma distr_r t A B C m k n : t ∈ total -> matrix t m k A -> matrix t m k B -> matrix t k n C ->
  m <= INT_MAX -> k <= INT_MAX -> n <= INT_MAX -> m * n <= INT_MAX -> m * k <= INT_MAX ->
  exists AB AC BC P, matrix t m k AB /\ matrix t m n AC /\ matrix t m n BC /\ matrix t m n P /\
    gives aitisa_add A B AB /\ gives aitisa_matmul A C AC /\ gives aitisa_matmul B C BC /\
    gives aitisa_matmul AB C P /\ gives aitisa_add AC BC P.
Proof.
  intros Ht HA HB HC Hm Hk Hn Hmn Hkn.
  destruct (plus t A B m k) as (AB & MAB & DAB & EAB & GAB); try done.
  destruct (times t A C m k n) as (AC & MAC & DAC & EAC & GAC); try done.
  destruct (times t B C m k n) as (BC & MBC & DBC & EBC & GBC); try done.
  destruct (times t AB C m k n) as (P & MP & DP & EP & GP); try done.
  destruct (plus t AC BC m n) as (Q & MQ & DQ & EQ & GQ); try done.
  assert (P = Q) as <-.
  { eapply (matrix_eq t m n); [by apply total_int|done|done|congruence|exact EP|exact EQ|].
    intros i j Hi Hj. cbv beta. rewrite EAC, EBC by done. rewrite mod_add2, <-sum_to_add. apply sum_to_mod.
    intros q Hq. rewrite EAB by lia. rewrite mod_mul_l. f_equal. lia. }
  exists AB, AC, BC, P. done.
Qed.

(** ** Unit matrices *)
Lemma int_op_in t o a b z : is_float t = false -> o = OpAdd \/ o = OpMul -> op_int o a b = z -> tmin t <= z <= tmax t ->
  int_op (promote t) o a b = Some z.
Proof.
  intros Hf Ho Hz Hr. assert (tmin (promote t) <= z <= tmax (promote t)) as Hp.
  { assert (tmin (promote t) <= tmin t /\ tmax t <= tmax (promote t)) by (destruct t; vm_compute; split; discriminate). lia. }
  assert ((if is_signed (promote t) then if in_range (promote t) z then Some z else None else Some (wrap (promote t) z)) = Some z).
  { destruct (is_signed (promote t)); [|by rewrite wrap_id]. unfold in_range. destruct (_ && _) eqn:E; [done|].
    lia. }
  destruct Ho as [-> | ->]; cbn [op_int] in Hz; unfold int_op; rewrite Hz; done.
Qed.
Lemma in_zero t : tmin t <= 0 <= tmax t.
Proof. destruct t; vm_compute; split; discriminate. Qed.
Lemma inner_unit_r t k j f : is_float t = false -> 0 <= j < k -> (forall q, 0 <= q < k -> tmin t <= f q <= tmax t) ->
  inner t k (fun q => VI (f q)) (fun q => VI (if q =? j then 1 else 0)) = Some (VI (f j)).
Proof.
  intros Hf Hj Hr. rewrite inner_psum.
  assert (forall n, (n <= Z.to_nat k)%nat -> psum t (fun q => VI (f q)) (fun q => VI (if q =? j then 1 else 0)) n
    = Some (VI (if j <? Z.of_nat n then f j else 0))) as H.
  { induction n as [|n IH]; intros Hn.
    - cbn. unfold zero_val. rewrite Hf. destruct (Z.ltb_spec j (Z.of_nat 0)); [lia|]. done.
    - rewrite psum_S, IH by lia. cbn [mbind option_bind]. unfold mac_val. rewrite Hf.
      pose proof (Hr j Hj) as Hrj. pose proof (in_zero t) as Hz.
      rewrite (int_op_in t OpMul _ _ (if Z.of_nat n =? j then f j else 0)); [|done|by right| |].
      2: { cbn [op_int]. destruct (Z.eqb_spec (Z.of_nat n) j) as [->|]; lia. }
      2: { destruct (Z.of_nat n =? j); [exact Hrj|exact Hz]. }
      rewrite (int_op_in t OpAdd _ _ (if j <? Z.of_nat (S n) then f j else 0)); [|done|by left| |].
      2: { cbn [op_int]. destruct (Z.eqb_spec (Z.of_nat n) j), (Z.ltb_spec j (Z.of_nat n)), (Z.ltb_spec j (Z.of_nat (S n))); lia. }
      2: { destruct (j <? Z.of_nat (S n)); [exact Hrj|exact Hz]. }
      rewrite wrap_id; [done|]. destruct (j <? Z.of_nat (S n)); [exact Hrj|exact Hz]. }
  rewrite H by lia. destruct (Z.ltb_spec j (Z.of_nat (Z.to_nat k))); [done|lia].
Qed.
Lemma int_op_comm t o a b : o = OpAdd \/ o = OpMul -> int_op t o a b = int_op t o b a.
Proof. intros [-> | ->]; unfold int_op; [by rewrite Z.add_comm|by rewrite Z.mul_comm]. Qed.
Lemma inner_comm t k f g : is_float t = false -> inner t k (fun q => VI (f q)) (fun q => VI (g q)) = inner t k (fun q => VI (g q)) (fun q => VI (f q)).
Proof.
  intros Hf. rewrite !inner_psum. generalize (Z.to_nat k). intros n. induction n as [|n IH]; [done|].
  rewrite !psum_S, IH. clear IH. destruct (psum _ _ _ n) as [[z|z|]|]; try done. cbn [mbind option_bind]. unfold mac_val.
  by rewrite (int_op_comm (promote t) OpMul) by auto.
Qed.
Lemma unit_matrix_init t d n U : is_float t = false -> unit_matrix t d n U -> init U.
Proof.
  intros Hf (V & Y & D & S & H). apply init_of; [done|]. rewrite S. intros c (i & j & -> & Hi & Hj)%box2. rewrite H by done.
  rewrite Y. split; [done|]. pose proof (in_zero t). destruct (_ =? _); [|done]. destruct t; try discriminate Hf; vm_compute; split; discriminate.
Qed.
Lemma unit_r t A U d m n : is_float t = false -> matrix t m n A -> unit_matrix t d n U -> dev_type d = 0 ->
  m <= INT_MAX -> n <= INT_MAX -> m * n <= INT_MAX -> gives aitisa_matmul A U A.
Proof.
  intros Hf (V & I & Y & C & S) HU Hd Hm Hn Hmn p1 p2 o E s W HE H1 H2.
  pose proof HU as (VU & YU & DU & SU & EU).
  eapply makes_enough; [done|]. eapply (C31_matrix_matrix p1 p2 A U A o E s); try done; try congruence.
  - rewrite S, !prodZ_cons, prodZ_nil. lia.
  - intros i j Hi Hj. rewrite Y.
    assert (forall q, 0 <= q < n -> at_ A [i; q] = VI (iv A [i; q]) /\ tmin t <= iv A [i; q] <= tmax t) as HA.
    { intros q Hq. rewrite <-Y at 1 2. apply iv_at; [done|done|congruence|]. rewrite S. apply box2. eauto. }
    rewrite (inner_ext t n _ _ (fun q => VI (iv A [i; q])) (fun q => VI (if q =? j then 1 else 0))).
    + rewrite inner_unit_r by (try done; intros; by apply HA). f_equal. symmetry. by apply HA.
    + intros q Hq. split; [by apply HA|by apply EU].
Qed.
Lemma unit_l t A U d m n : is_float t = false -> matrix t m n A -> unit_matrix t d m U -> d = a_dev A ->
  m <= INT_MAX -> n <= INT_MAX -> m * n <= INT_MAX -> gives aitisa_matmul U A A.
Proof.
  intros Hf (V & I & Y & C & S) HU Hd Hm Hn Hmn p1 p2 o E s W HE H1 H2.
  pose proof HU as (VU & YU & DU & SU & EU).
  eapply makes_enough; [done|]. eapply (C31_matrix_matrix p1 p2 U A A o E s); try done; try congruence.
  - rewrite S, !prodZ_cons, prodZ_nil. lia.
  - intros i j Hi Hj. rewrite YU.
    assert (forall q, 0 <= q < m -> at_ A [q; j] = VI (iv A [q; j]) /\ tmin t <= iv A [q; j] <= tmax t) as HA.
    { intros q Hq. rewrite <-Y at 1 2. apply iv_at; [done|done|congruence|]. rewrite S. apply box2. eauto. }
    rewrite (inner_ext t m _ _ (fun q => VI (if q =? i then 1 else 0)) (fun q => VI (iv A [q; j]))).
    + rewrite inner_comm, inner_unit_r by (try done; intros; by apply HA). f_equal. symmetry. by apply HA.
    + intros q Hq. split; [rewrite EU by done; by rewrite Z.eqb_sym|by apply HA].
Qed.
