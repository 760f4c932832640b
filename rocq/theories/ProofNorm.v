(** * ProofNorm: src/nn/batch_norm.c, one lane *)
From stdpp Require Import gmap list.
From Coq Require Import ZArith Lia Floats.SpecFloat.
From Coq Require Import ZifyBool ZifyNat.
From Verif Require Import Base Mem Spec SpecReal SpecNN SpecNorm ModelCore ModelBasic ModelMath ModelNN Logic
  ProofCore ProofCore2 ProofCore3 ProofIndex ProofKernel ProofKernel2 ProofBasic ProofSqueeze ProofSlice ProofFrame
  ProofMatmul ProofMath ProofSqrt ProofSoftmax ProofOwn.
Open Scope Z_scope.

Ltac Zify.zify_post_hook ::= Z.div_mod_to_equations.

(** Copying one element *)
Lemma memcpy_cell d src E s tg tg' t vs ex ws ex' w (i j : nat) doff soff n :
  heap s !! src = Some (Blk tg' (CData (cells t ws ++ ex'))) ->
  heap s !! d = Some (Blk tg (CData (cells t vs ++ ex))) ->
  (i < length vs)%nat -> ws !! j = Some w ->
  doff = Z.of_nat i * Z.of_nat (tsz t) -> soff = Z.of_nat j * Z.of_nat (tsz t) -> n = Z.of_nat (tsz t) ->
  memcpy (HPtr d) doff (HPtr src) soff n E s
  = Done tt (upd s d (Blk tg (CData (cells t (<[i := w]> vs) ++ ex)))).
Proof.
  intros Hs Hd Hi Hw -> -> ->. unfold memcpy. pose proof (tsz_pos t). pose proof (tsz_range t).
  pose proof (lookup_lt_Some _ _ _ Hw) as Hj.
  rewrite to_size_id by llia.
  replace (Z.of_nat (tsz t) =? 0) with false by lia.
  erewrite bind_done by (by eapply get_bytes_ok).
  erewrite bind_done by (apply check_ok; rewrite app_length, cells_length; nia).
  rewrite (cells_split t ws j w ex' Hw).
  rewrite drop_app_alt by (rewrite cells_length, take_length; lia). rewrite Nat2Z.id.
  rewrite take_app_alt by (by rewrite encode_length).
  change (store (HPtr d) t (Z.of_nat i * Z.of_nat (tsz t)) w E s
          = Done tt (upd s d (Blk tg (CData (cells t (<[i := w]> vs) ++ ex))))).
  by eapply store_cells.
Qed.

(** ** The formula on lists *)
Lemma bn_lists t n xs mes des scs bis ws :
  length xs = n -> length mes = n -> length des = n -> length scs = n -> length bis = n -> length ws = n ->
  (forall i x m d c b w, xs !! i = Some x -> mes !! i = Some m -> des !! i = Some d -> scs !! i = Some c ->
     bis !! i = Some b -> ws !! i = Some w -> bn_out t d c b m x = Some w) ->
  exists ys zs us,
    Forall3 (fun x y w => bin_val t OpSub x y = Some w) xs mes ys /\
    Forall3 (fun x y w => bin_val t OpDiv x y = Some w) ys des zs /\
    Forall3 (fun x y w => bin_val t OpMul x y = Some w) scs zs us /\
    Forall3 (fun x y w => bin_val t OpAdd x y = Some w) us bis ws.
Proof.
  revert xs mes des scs bis ws. induction n as [|n IH]; intros xs mes des scs bis ws L1 L2 L3 L4 L5 L6 H.
  - destruct xs, mes, des, scs, bis, ws; try discriminate. exists [], [], []. split_and!; constructor.
  - destruct xs as [|x xs], mes as [|m mes], des as [|d des], scs as [|c scs], bis as [|b bis], ws as [|w ws];
      try discriminate.
    injection L1 as L1. injection L2 as L2. injection L3 as L3. injection L4 as L4. injection L5 as L5.
    injection L6 as L6.
    destruct (IH xs mes des scs bis ws) as (ys & zs & us & H1 & H2 & H3 & H4); [done..| |].
    { intros i. apply (H (S i)). }
    specialize (H 0%nat x m d c b w eq_refl eq_refl eq_refl eq_refl eq_refl eq_refl).
    unfold bn_out in H.
    destruct (bin_val t OpSub x m) as [y|] eqn:E1; [|done].
    destruct (bin_val t OpDiv y d) as [z|] eqn:E2; [|done].
    destruct (bin_val t OpMul c z) as [u|] eqn:E3; [|done].
    exists (y :: ys), (z :: zs), (u :: us). split_and!; by constructor.
Qed.

(** ** The chain of operations shared by both forms *)
Section chain.
Context {E : env} {s0 : st} (HA : alloc_all E) (HE : hooks_ok E).
Context {A : Type} {Q : ctl A status -> st -> Prop}.

Lemma chain_ok (k : hval -> hval -> M (ctl A status)) L s pT pM pD pS pB T Me De Sc Bi t dev pd xs ws bs ss ts axes nax :
  own E s0 L s ->
  holds (heap s) pT T -> holds (heap s) pM Me -> holds (heap s) pD De -> holds (heap s) pS Sc ->
  holds (heap s) pB Bi ->
  a_type T = t -> a_dev T = dev ->
  a_type Me = t -> a_type De = t -> a_type Sc = t -> a_type Bi = t ->
  dev_type dev = 0 -> dev_type (a_dev Me) = 0 -> dev_type (a_dev De) = 0 -> dev_type (a_dev Sc) = 0 ->
  dev_type (a_dev Bi) = 0 ->
  a_dims Me = pd -> a_dims De = pd -> a_dims Sc = pd -> a_dims Bi = pd -> prodZ pd <= INT_MAX ->
  a_dims T <> [] -> slice_ok (a_dims T) bs ss ts -> prodZ (slice_dims ss ts) <= INT_MAX ->
  Forall (fun d => d <> 0) (slice_dims ss ts) -> axes <> [] -> NoDup axes -> nax = Z.of_nat (length axes) ->
  Forall (fun a => 0 <= a < Z.of_nat (length (slice_dims ss ts))) axes ->
  squeeze_dims (fun i => bool_decide (Z.of_nat i ∈ axes)) (slice_dims ss ts) = pd ->
  tab (slice_dims ss ts) (fun c => at_ T (slice_src bs ss ts c)) = xs ->
  length ws = length xs ->
  (forall i x m d c b w, xs !! i = Some x -> a_vals Me !! i = Some m -> a_vals De !! i = Some d ->
     a_vals Sc !! i = Some c -> a_vals Bi !! i = Some b -> ws !! i = Some w -> bn_out t d c b m x = Some w) ->
  (forall q0 q1 s' us, own E s0 (IT q1 (AT t (a_dev Sc) pd ws) :: IT q0 (AT t (a_dev Sc) pd us) :: L) s' ->
     wp (k (HPtr q0) (HPtr q1)) E s' Q) ->
  wp (try_ (aitisa_slice (HPtr pT) bs ss ts HUndef) (fun temp0 =>
      try_ (aitisa_squeeze temp0 axes nax HUndef) (fun temp1 =>
      try_ (aitisa_destroy temp0) (fun temp0 =>
      try_ (aitisa_sub temp1 (HPtr pM) temp0) (fun temp0 =>
      try_ (aitisa_destroy temp1) (fun temp1 =>
      try_ (aitisa_div temp0 (HPtr pD) temp1) (fun temp1 =>
      try_ (aitisa_destroy temp0) (fun temp0 =>
      try_ (aitisa_mul (HPtr pS) temp1 temp0) (fun temp0 =>
      try_ (aitisa_destroy temp1) (fun temp1 =>
      try_ (aitisa_add temp0 (HPtr pB) temp1) (fun temp1 => k temp0 temp1))))))))))) E s Q.
Proof using HA HE.
  intros HO HT HM HD HS HB Ht Hdev TM TD TS TB CT CM CD CS CB DM DD DS DB Hmax Hne Hsl Hsm Hnz Hax Hnd -> Hrange
    Hsq Hxs Lw Hval Hk.
  (* everything that is not owned stays put *)
  pose proof HO as (Hwf & Hctr & Hr & Hp).
  (* re-base the ownership on s so that the operands are below *)
  assert (own E s [] s) as HN by by apply own_nil.
  assert (forall M s', own E s M s' -> own E s0 (M ++ L) s') as Hre.
  { intros M s' (W & C & R & P). split_and!; [done|lia|congruence|].
    clear -P Hp Hctr. induction P as [|x M n h Hx Hd Hb P IH]; [done|].
    cbn. constructor; [done|done| |done]. intros b Hb'. apply Hb in Hb'. lia. }
  assert (forall M s' p U, own E s M s' -> holds (heap s) p U -> holds (heap s') p U) as Hb
    by (intros; by eapply own_base).
  set (X0 := AT t dev (slice_dims ss ts) xs). set (X1 := AT t dev pd xs).
  assert (length xs = Z.to_nat (prodZ pd)) as Lxs.
  { rewrite <-Hxs, tab_length, <-Hsq, squeeze_dims_prod. done. }
  assert (forall U, a_dims U = pd -> valid U -> length (a_vals U) = Z.to_nat (prodZ pd)) as HL.
  { intros U D (_ & V). rewrite D in V. lia. }
  destruct (bn_lists t (Z.to_nat (prodZ pd)) xs (a_vals Me) (a_vals De) (a_vals Sc) (a_vals Bi) ws)
    as (ys & zs & us & F1 & F2 & F3 & F4); [done|apply HL; [done|by destruct HM]|apply HL; [done|by destruct HD]|
      apply HL; [done|by destruct HS]|apply HL; [done|by destruct HB]|lia|exact Hval|].
  (* slice *)
  eapply own_try; [exact HN|apply slice_rule; [by eapply own_wf|done|done|exact HT|done|done|done]|].
  intros q0 s1 O1. rewrite Ht, Hdev, Hxs in O1. fold X0 in O1.
  (* squeeze *)
  eapply own_try; [exact O1| |].
  { eapply makes_or_nomem_alloc; [done|]. apply (squeeze_named q0 X0); try done.
    - by eapply own_wf.
    - eapply own_holds; [exact O1|left]. }
  intros q1 s2 O2. cbn [a_type a_dev a_dims a_vals X0] in O2. rewrite Hsq in O2. fold X1 in O2.
  eapply (own_try_drop q0 X0 _ [_] []); [done|exact O2|]. intros s3 O3. cbn [app] in O3.
  (* subtract *)
  eapply own_try; [exact O3| |].
  { apply (binary_rule OpSub q1 pM X1 Me ys); cbn [a_type a_dev a_dims a_vals X1]; try done; try congruence.
    - by eapply own_wf.
    - eapply own_holds; [exact O3|left].
    - by eapply Hb. }
  intros q2 s4 O4. cbn [a_type a_dev a_dims a_vals X1] in O4.
  eapply (own_try_drop q1 X1 _ [_] []); [done|exact O4|]. intros s5 O5. cbn [app] in O5.
  (* divide *)
  eapply own_try; [exact O5| |].
  { apply (binary_rule OpDiv q2 pD (AT t dev pd ys) De zs); cbn [a_type a_dev a_dims a_vals]; try done; try congruence.
    - by eapply own_wf.
    - eapply own_holds; [exact O5|left].
    - by eapply Hb. }
  intros q3 s6 O6. cbn [a_type a_dev a_dims a_vals] in O6.
  eapply (own_try_drop q2 _ _ [_] []); [done|exact O6|]. intros s7 O7. cbn [app] in O7.
  (* multiply *)
  eapply own_try; [exact O7| |].
  { apply (binary_rule OpMul pS q3 Sc (AT t dev pd zs) us); cbn [a_type a_dev a_dims a_vals]; try done; try congruence.
    - by eapply own_wf.
    - by eapply Hb.
    - eapply own_holds; [exact O7|left].
    - by rewrite TS. }
  intros q4 s8 O8. cbn [a_type a_dev a_dims a_vals] in O8. rewrite TS, DS in O8.
  eapply (own_try_drop q3 _ _ [_] []); [done|exact O8|]. intros s9 O9. cbn [app] in O9.
  (* add *)
  eapply own_try; [exact O9| |].
  { apply (binary_rule OpAdd q4 pB (AT t (a_dev Sc) pd us) Bi ws); cbn [a_type a_dev a_dims a_vals]; try done; try congruence.
    - by eapply own_wf.
    - eapply own_holds; [exact O9|left].
    - by eapply Hb. }
  intros q5 s10 O10. cbn [a_type a_dev a_dims a_vals] in O10.
  apply Hre in O10. cbn [app] in O10. by eapply Hk.
Qed.
End chain.
