(** * ProofNarrow: conversions to narrower integer types commute with sums, differences and products *)
From stdpp Require Import gmap list.
From Coq Require Import ZArith Lia.
From Coq Require Import ZifyBool ZifyNat.
From Verif Require Import Base Mem Spec SpecReal SpecRing SpecCommute ModelCore ModelBasic ModelMath.
From Verif Require Import Logic ProofCore ProofCore2 ProofCast ProofBasic2 ProofMath ProofMatmul ProofMatmul3 ProofSqrt ProofLaws ProofRing PropBasic.
Open Scope Z_scope.
Ltac Zify.zify_post_hook ::= idtac.

Definition nv (u : tcode) (v : val) : val := match v with VI z => VI (wrap u z) | v => v end.
Definition narrow (u : tcode) (T : atensor) : atensor := AT u (a_dev T) (a_dims T) (nv u <$> a_vals T).

Lemma bits_tsz t u : bits u <= bits t -> (tsz u <= tsz t)%nat.
Proof. by destruct t, u; vm_compute; try lia; intros H; destruct H. Qed.
Lemma fits_narrow t u d : bits u <= bits t -> fits (tsz t) d -> fits (tsz u) d.
Proof.
  intros Hb (H1 & H2 & H3). split_and!; [done|done|]. apply bits_tsz in Hb. pose proof (prodZ_max_pos d). nia.
Qed.
Lemma narrow_valid t u T : a_type T = t -> bits u <= bits t -> valid T -> valid (narrow u T).
Proof.
  intros <- Hb [V1 V2]. split; [by eapply fits_narrow|]. unfold narrow. cbn [a_vals a_dims a_type]. by rewrite fmap_length.
Qed.
Lemma narrow_init u T : is_float u = false -> is_float (a_type T) = false -> init T -> init (narrow u T).
Proof.
  intros Hu Ht. unfold init, narrow. cbn [a_vals a_type]. rewrite Forall_fmap. intros HI. eapply Forall_impl; [exact HI|].
  intros [z|f|] H; cbn [compose nv val_ok] in *; [|destruct H; congruence|done]. split; [done|apply wrap_range].
Qed.
Lemma narrow_at u T c : at_ (narrow u T) c = nv u (at_ T c).
Proof. unfold at_, narrow. cbn [a_vals a_dims]. rewrite list_lookup_fmap. by destruct (a_vals T !! _). Qed.
Lemma narrow_cast ex u T : valid T -> init T -> is_float u = false -> is_float (a_type T) = false -> u <> a_type T -> bits u <= bits (a_type T) ->
  gives1 ex (fun p o => aitisa_cast p (dtype_of u) o) T (narrow u T).
Proof.
  intros V I Hu Ht Hne Hb p o E s W HE HK _ Hh. apply (makes_enough E HE _ s o). apply C16_cast; try done; [eapply fits_narrow; [done|apply V]|].
  unfold init in I. cbn [narrow a_vals]. clear -I Hu Ht. induction I as [|x xs H _ IH]; [constructor|]. cbn [fmap list_fmap]. constructor; [|exact IH].
  destruct x as [z|f|]; [cbn; by rewrite Ht, Hu|destruct H; congruence|done].
Qed.

Lemma mod_sub2 t x y : (wrap t x - wrap t y) mod 2 ^ bits t = (x - y) mod 2 ^ bits t.
Proof. rewrite Zminus_mod, !wrap_congr. symmetry. apply Zminus_mod. Qed.
Lemma op_wrap t o x y : o <> OpDiv -> op_int o (wrap t x) (wrap t y) mod 2 ^ bits t = op_int o x y mod 2 ^ bits t.
Proof. intros Ho. destruct o; cbn [op_int]; [apply mod_add2|apply mod_sub2|by rewrite mod_mul_l, mod_mul_r|done]. Qed.
Lemma bin_narrow t u o x y : is_float t = false -> u ∈ [I8; U8; I16; U32; U64] -> bits u <= bits t -> o <> OpDiv -> int_defined t o x y ->
  exists r, bin_val t o (VI x) (VI y) = Some (VI r) /\ bin_val u o (VI (wrap u x)) (VI (wrap u y)) = Some (VI (wrap u r)).
Proof.
  intros Ht Hu Hb Ho Hd. pose proof (total_int u Hu) as Hf. destruct (int_op_some t o x y Ht Hd) as (r & E1 & C1).
  destruct (int_op_some u o (wrap u x) (wrap u y) Hf) as (r' & E2 & C2).
  { apply int_total; try done; split; try done; apply wrap_range. }
  exists (wrap t r). cbn [bin_val]. rewrite Ht, Hf, E1, E2. split; [done|]. do 2 f_equal.
  rewrite <-(wrap_wrap u t r') by done. rewrite (wrap_wrap u t r') by done. rewrite wrap_wrap by done.
  transitivity (wrap u (op_int o x y)).
  - apply wrap_eqm. rewrite C2. by apply op_wrap.
  - rewrite <-(wrap_wrap u t r), <-(wrap_wrap u t (op_int o x y)) by done. f_equal. symmetry. by apply wrap_eqm.
Qed.

Lemma ew_narrow ex o u A B : valid A -> valid B -> init A -> init B -> is_float (a_type A) = false ->
  a_type B = a_type A -> a_dims B = a_dims A -> dev_type (a_dev A) = 0 -> dev_type (a_dev B) = 0 -> prodZ (a_dims A) <= INT_MAX ->
  u ∈ [I8; U8; I16; U32; U64] -> bits u <= bits (a_type A) -> u <> a_type A -> o <> OpDiv ->
  Forall2 (op_defined (a_type A) o) (a_vals A) (a_vals B) ->
  commute2 ex (aitisa_binary_op o) (fun p o => aitisa_cast p (dtype_of u) o) A B.
Proof.
  intros VA VB IA IB Ht Hty Hd DA DB Hn Hu Hb Hne Ho HD. pose proof (total_int u Hu) as Hf.
  assert (exists ws, Forall3 (fun x y w => bin_val (a_type A) o x y = Some w) (a_vals A) (a_vals B) ws /\
    Forall3 (fun x y w => bin_val u o x y = Some w) (nv u <$> a_vals A) (nv u <$> a_vals B) (nv u <$> ws) /\ Forall (val_ok (a_type A)) ws) as (ws & W1 & W2 & W3).
  { unfold init in IA, IB. rewrite Hty in IB. clear -IA IB HD Ht Hu Hb Ho. induction HD as [|x y xs ys Hxy _ IH].
    - exists []. split_and!; constructor.
    - inversion IA as [|? ? Hx IA']; subst. inversion IB as [|? ? Hy IB']; subst. destruct (IH IA' IB') as (ws & W1 & W2 & W3).
      destruct x as [x|x|]; [|destruct Hx; congruence|done]. destruct y as [y|y|]; [|destruct Hy; congruence|done].
      destruct (bin_narrow (a_type A) u o x y) as (r & E1 & E2); try done.
      exists (VI r :: ws). split_and!; cbn [fmap list_fmap]; constructor; try done.
      cbn [bin_val] in E1. rewrite Ht in E1. destruct (int_op _ o x y); [|done]. injection E1 as <-. split; [done|apply wrap_range]. }
  pose proof (Forall3_length_lr _ _ _ _ W1) as HL.
  set (C := AT (a_type A) (a_dev A) (a_dims A) ws).
  assert (valid C) as VC by (destruct VA as [V1 V2]; split; [exact V1|cbn [C a_vals a_dims]; by rewrite <-HL]).
  exists C, (narrow u A), (narrow u B), (narrow u C). split_and!.
  - intros p1 p2 oo E s W HE HK H1 H2. by apply (binary_rule o p1 p2 A B).
  - by apply narrow_cast.
  - apply narrow_cast; try done; by rewrite Hty.
  - by apply narrow_cast.
  - intros p1 p2 oo E s W HE HK H1 H2. by apply (binary_rule o p1 p2 (narrow u A) (narrow u B)).
Qed.

Lemma mm_narrow ex t u m k n A B : is_float t = false -> matrix t m k A -> matrix t k n B ->
  m <= INT_MAX -> k <= INT_MAX -> n <= INT_MAX -> m * n <= INT_MAX ->
  (forall i j, 0 <= i < m -> 0 <= j < n -> is_Some (inner t k (fun q => at_ A [i; q]) (fun q => at_ B [q; j]))) ->
  u ∈ [I8; U8; I16; U32; U64] -> bits u <= bits t -> u <> t ->
  commute2 ex aitisa_matmul (fun p o => aitisa_cast p (dtype_of u) o) A B.
Proof.
  intros Ht (VA & IA & YA & DA & SA) (VB & IB & YB & DB & SB) Hm Hk Hn Hmn HD Hu Hb Hne. pose proof (total_int u Hu) as Hf.
  destruct (product_int t A B m k n) as (P & VP & IP & YP & EP & DP & HP & HG); try done.
  assert (matrix u m k (narrow u A)) as MA.
  { split_and!; try done; [by eapply narrow_valid|apply narrow_init; congruence]. }
  assert (matrix u k n (narrow u B)) as MB.
  { split_and!; try done; [by eapply narrow_valid|apply narrow_init; congruence]. }
  destruct (times u (narrow u A) (narrow u B) m k n) as (Q & MQ & EQ & HQ & GQ); try done.
  assert (narrow u P = Q) as <-.
  { eapply (matrix_eq u m n _ _ (fun i j => sum_to (Z.to_nat k) (fun q => iv A [i; q] * iv B [q; j]))); try done.
    - split_and!; try done; [by eapply narrow_valid|apply narrow_init; congruence|by cbn [narrow a_dev]; rewrite EP].
    - cbn [narrow a_dev]. by rewrite EP, EQ.
    - intros i j Hi Hj. unfold iv at 1. rewrite narrow_at. destruct (iv_at P [i; j]) as [-> _]; try done; [congruence|rewrite DP; apply box2; eauto|].
      cbn [nv]. rewrite HP by done. by apply wrap_wrap.
    - intros i j Hi Hj. apply sum_to_mod. intros q Hq.
      assert (iv (narrow u A) [i; q] = wrap u (iv A [i; q])) as ->.
      { unfold iv at 1. rewrite narrow_at. destruct (iv_at A [i; q]) as [-> _]; try done; [congruence|rewrite SA; apply box2; exists i, q; split_and!; lia || done]. }
      assert (iv (narrow u B) [q; j] = wrap u (iv B [q; j])) as ->.
      { unfold iv at 1. rewrite narrow_at. destruct (iv_at B [q; j]) as [-> _]; try done; [congruence|rewrite SB; apply box2; exists q, j; split_and!; lia || done]. }
      by rewrite mod_mul_l, mod_mul_r. }
  exists P, (narrow u A), (narrow u B), (narrow u P). split_and!.
  - intros p1 p2 o E s W HE HK H1 H2. by apply HG.
  - apply narrow_cast; congruence.
  - apply narrow_cast; congruence.
  - apply narrow_cast; congruence.
  - intros p1 p2 o E s W HE HK H1 H2. by apply GQ.
Qed.
