(** * ProofConv2: src/nn/conv.c, the interface and the values *)
From stdpp Require Import gmap list.
From Coq Require Import ZArith Lia Reals Lra Floats.SpecFloat.
From Coq Require Import ZifyBool ZifyNat.
From Flocq Require Import Raux IEEE754.BinarySingleNaN.
From Verif Require Import Base Mem Spec SpecReal SpecNN SpecConv ModelCore ModelBasic ModelMath ModelNN Logic
  ProofCore ProofCore2 ProofCore3 ProofIndex ProofKernel ProofKernel2 ProofBasic ProofBasic2 ProofSlice
  ProofMatmul ProofMatmul3 ProofFloat ProofFloat2 ProofFloat3 ProofFloat4 ProofCast ProofNN ProofWindow ProofPool ProofPool2 ProofPool3 ProofConvWin ProofConv.
Open Scope Z_scope.

(** ** The interface *)
Lemma conv_float_conv p pf T ss ps ls g o E s T3 :
  holds (heap s) p T -> a_type T = F32 ->
  makes_saying (e_garbage E 0) (aitisa_conv_float (HPtr p) (HPtr pf) ss ps ls o) E s T3 ->
  makes_saying (conv_status E) (aitisa_conv (HPtr p) (HPtr pf) ss ps ls g o) E s T3.
Proof.
  intros HT Ht (s' & q & Heq & Hc). exists s', q. split; [|done].
  destruct HT as (_ & bA & tgA & exA & Hv & _).
  unfold aitisa_conv. erewrite bind_done by (by eapply tensor_dtype_ok). rewrite Ht.
  change (d_code (dtype_of F32) =? code_of F32) with true. cbv iota.
  erewrite bind_done by exact Heq. cbv beta match. unfold conv_status.
  destruct (bool_decide (e_garbage E 0 = SUCCESS)); done.
Qed.

Lemma conv_wrong_type p pf T ss ps ls g o E s :
  holds (heap s) p T -> a_type T <> F32 ->
  aitisa_conv (HPtr p) pf ss ps ls g o E s = Done (NOT_SUPPORTED, o) s.
Proof.
  intros (_ & bA & tgA & exA & Hv & _) Ht.
  unfold aitisa_conv. erewrite bind_done by (by eapply tensor_dtype_ok).
  replace (d_code (dtype_of (a_type T)) =? code_of F32) with false; [done|]. by destruct (a_type T).
Qed.

Lemma conv2d_conv p T pf ss ps ls g o E s : holds (heap s) p T ->
  aitisa_conv2d (HPtr p) pf ss ps ls g o E s
  = if decide (length (a_dims T) = 4%nat) then aitisa_conv (HPtr p) pf ss ps ls g o E s
    else Done (DIMENSIONS_MISMATCH, o) s.
Proof.
  intros (_ & bA & tgA & exA & Hv & _). unfold aitisa_conv2d.
  erewrite bind_done by (by eapply tensor_ndim_ok).
  destruct (decide _) as [->|Hn]; [done|]. replace (_ =? 4) with false by lia. done.
Qed.
Lemma conv3d_conv p T pf ss ps ls g o E s : holds (heap s) p T ->
  aitisa_conv3d (HPtr p) pf ss ps ls g o E s
  = if decide (length (a_dims T) = 5%nat) then aitisa_conv (HPtr p) pf ss ps ls g o E s
    else Done (DIMENSIONS_MISMATCH, o) s.
Proof.
  intros (_ & bA & tgA & exA & Hv & _). unfold aitisa_conv3d.
  erewrite bind_done by (by eapply tensor_ndim_ok).
  destruct (decide _) as [->|Hn]; [done|]. replace (_ =? 5) with false by lia. done.
Qed.

(** ** Values *)
Lemma conv_terms_forall (P Q : val -> Prop) T F nb nc oc fc sd ks ss ps ls b c o :
  valid T -> valid F -> a_dims T = nb :: nc :: sd -> a_dims F = oc :: fc :: ks -> nc <= fc ->
  Forall (fun d => 0 < d) ks ->
  0 <= b < nb -> 0 <= c < oc -> Forall P (a_vals T) -> Forall Q (a_vals F) ->
  Forall (fun p => P p.1 /\ Q p.2) (conv_terms T F ss ps ls nc b c o).
Proof.
  intros HT HF HdT HdF Hnc Hks Hb Hc HP HQ. apply Forall_forall. intros [x y] Hxy.
  unfold conv_terms in Hxy. apply elem_of_list_bind in Hxy as (ic & Hxy & Hic).
  apply elem_of_seqZ in Hic.
  unfold conv_chan in Hxy. apply elem_of_list_omap in Hxy as (w & Hw & Hxy). cbv zeta in Hxy.
  rewrite HdT in Hxy. change (drop 2 (nb :: nc :: sd)) with sd in Hxy.
  rewrite HdF in Hw. change (drop 2 (oc :: fc :: ks)) with ks in Hw.
  destruct (decide _) as [Hx|]; [|done]. injection Hxy as <- <-. cbn [fst snd].
  rewrite Forall_forall in HP, HQ. split; [apply HP|apply HQ]; (apply at_elem; [done|]).
  - rewrite HdT. constructor; [done|]. constructor; [lia|done].
  - rewrite HdF. constructor; [done|]. constructor; [lia|].
    unfold coords in Hw. apply elem_of_list_fmap in Hw as (k & -> & _). by apply unravel_in_box.
Qed.

Lemma mac_all_ok t c l : mac_total t -> val_ok t c -> Forall (fun p => val_ok t p.1 /\ val_ok t p.2) l ->
  exists w, mac_all t c l = Some w /\ val_ok t w.
Proof.
  intros Ht Hc Hl. revert c Hc. induction Hl as [|[x y] l [Hx Hy] _ IH]; intros c Hc; [by exists c|].
  cbn [fst snd] in *.
  destruct (mac_val_total t c x y Ht Hc Hx Hy) as [c' Hc'].
  destruct (IH c') as (w & Hw & Hok); [exact (mac_val_ok t c x y c' Hc Hx Hy Hc')|].
  exists w. split; [|done]. unfold mac_all. cbn [foldl mbind option_bind]. rewrite Hc'. exact Hw.
Qed.

Section choose.
Context (p pf : nat) (T F : atensor) (nb nc oc fc : Z) (sd ks ss ps ls : list Z) (g : Z) (o : hval) (E : env) (s : st).
Let os := cv_outs sd ks ss ps ls.
Context (Hwf : wf s) (HE : alloc_all E) (HH : hooks_ok E) (HT : holds (heap s) p T) (HF : holds (heap s) pf F)
  (HtT : a_type T = F32) (HtF : a_type F = F32)
  (HdT : a_dims T = nb :: nc :: sd) (HdF : a_dims F = oc :: fc :: ks) (Hnc : nc <= fc) (Hnc0 : 0 < nc)
  (Hrank : (length sd <= 3)%nat) (Hok : cv_ok sd ks ss ps ls)
  (Hfit : fits (tsz F32) (nb :: oc :: os)).

Lemma conv_rule T3 :
  a_type T3 = F32 -> a_dev T3 = a_dev T -> a_dims T3 = nb :: oc :: os -> valid T3 ->
  (forall b c x, in_box (a_dims T3) (b :: c :: x) ->
     mac_all F32 (zero_val F32) (conv_terms T F ss ps ls nc b c x) = Some (at_ T3 (b :: c :: x))) ->
  makes_saying (conv_status E) (aitisa_conv (HPtr p) (HPtr pf) ss ps ls g o) E s T3.
Proof using Hwf HE HH HT HF HtT HtF HdT HdF Hnc Hnc0 Hrank Hok.
  intros. eapply conv_float_conv; [done|done|]. by eapply conv_float_rule.
Qed.

Lemma conv_total : init T -> init F ->
  exists T3, a_type T3 = F32 /\ a_dev T3 = a_dev T /\ a_dims T3 = nb :: oc :: os /\ valid T3 /\ init T3 /\
    (forall b c x, in_box (a_dims T3) (b :: c :: x) ->
       mac_all F32 (zero_val F32) (conv_terms T F ss ps ls nc b c x) = Some (at_ T3 (b :: c :: x))) /\
    makes_saying (conv_status E) (aitisa_conv (HPtr p) (HPtr pf) ss ps ls g o) E s T3.
Proof using Hwf HE HH HT HF HtT HtF HdT HdF Hnc Hnc0 Hrank Hok Hfit.
  intros HiT HiF. unfold init in *. rewrite HtT in HiT. rewrite HtF in HiF.
  assert (forall b c x, 0 <= b < nb -> 0 <= c < oc -> exists w,
     mac_all F32 (zero_val F32) (conv_terms T F ss ps ls nc b c x) = Some w /\ val_ok F32 w) as Hex.
  { intros b c x Hb Hc. apply mac_all_ok; [unfold mac_total; set_solver|apply zero_val_ok|].
    eapply conv_terms_forall; try done; [by eapply holds_valid|by eapply holds_valid|by eapply cv_ks_pos]. }
  destruct (tab_choose F32 (a_dev T) (nb :: oc :: os)
    (fun x => mac_all F32 (zero_val F32)
      (conv_terms T F ss ps ls nc (default 0 (x !! 0%nat)) (default 0 (x !! 1%nat)) (drop 2 x))) Hfit)
    as (T3 & Hv & Ht & Hdv & Hds & H3).
  { intros x Hx. inversion Hx as [|? b ? y Hb Hy]; subst. inversion Hy as [|? c ? z Hc Hz]; subst.
    cbn. destruct (Hex b c z Hb Hc) as (w & Hw & _). eauto. }
  assert (forall b c x, in_box (a_dims T3) (b :: c :: x) ->
     mac_all F32 (zero_val F32) (conv_terms T F ss ps ls nc b c x) = Some (at_ T3 (b :: c :: x))) as Hval.
  { intros b c x Hx. rewrite Hds in Hx. exact (H3 _ Hx). }
  exists T3. split_and!; [done..| |done|by eapply conv_rule].
  rewrite <-(tab_at T3 Hv), Ht, Hds. apply Forall_forall. intros v Hin.
  unfold tab in Hin. apply elem_of_list_fmap in Hin as (k & -> & Hk). apply elem_of_seq in Hk.
  assert (in_box (nb :: oc :: os) (unravel (nb :: oc :: os) (Z.of_nat k))) as Hb.
  { apply unravel_in_box. apply prodZ_pos_inv; [apply Hfit|lia]. }
  specialize (H3 _ Hb). 
  destruct (unravel (nb :: oc :: os) (Z.of_nat k)) as [|b [|c x]] eqn:Hu; [done|done|].
  rewrite Hds in Hval. specialize (Hval b c x Hb).
  inversion Hb as [|? ? ? ? Hb0 Hy]; subst. inversion Hy as [|? ? ? ? Hc0 Hz]; subst.
  destruct (Hex b c x Hb0 Hc0) as (w & Hw & Hok'). congruence.
Qed.
End choose.

(** ** Integers *)
Lemma flt_op_int t op x y zx zy z : is_float t = true -> op <> OpDiv ->
  vb t x = true -> vb t y = true -> is_finite_SF x = true -> is_finite_SF y = true ->
  RV x = IZR zx -> RV y = IZR zy -> op_real op (IZR zx) (IZR zy) = IZR z -> Z.abs z <= 2 ^ 24 ->
  vb t (flt_op t op x y) = true /\ is_finite_SF (flt_op t op x y) = true /\ RV (flt_op t op x y) = IZR z.
Proof.
  intros Ht Hop Vx Vy Fx Fy Rx Ry Hz Hb.
  destruct (flt_op_spec t op x y Vx Vy Fx Fy ltac:(done)) as [Hs _]. cbv zeta in Hs.
  rewrite Rx, Ry, Hz, (rnd_int t z Ht Hb) in Hs.
  destruct Hs as [H1 H2].
  { apply Rle_lt_trans with (bpow Zaux.radix2 24).
    - rewrite <-abs_IZR. change (bpow Zaux.radix2 24) with (IZR (2 ^ 24)). by apply IZR_le.
    - apply bpow_lt. destruct t; try done; unfold femax; lia. }
  split_and!; [by apply flt_op_valid|done|done].
Qed.

Lemma mac_val_int t c x y zc zx zy : is_float t = true ->
  integral t c zc -> integral t x zx -> integral t y zy ->
  Z.abs (zx * zy) <= 2 ^ 24 -> Z.abs (zc + zx * zy) <= 2 ^ 24 ->
  exists w, mac_val t c x y = Some w /\ integral t w (zc + zx * zy).
Proof.
  intros Ht (c' & -> & Vc & Fc & Rc) (x' & -> & Vx & Fx & Rx) (y' & -> & Vy & Fy & Ry) H1 H2.
  destruct (flt_op_int t OpMul x' y' zx zy (zx * zy)) as (V1 & F1 & R1); try done.
  { cbn. by rewrite mult_IZR. }
  destruct (flt_op_int t OpAdd c' (flt_op t OpMul x' y') zc (zx * zy) (zc + zx * zy)) as (V2 & F2 & R2); try done.
  { cbn. by rewrite plus_IZR. }
  exists (VF (flt_op t OpAdd c' (flt_op t OpMul x' y'))). unfold mac_val. rewrite Ht. split; [done|].
  by eexists.
Qed.

Lemma integral_real t v z : integral t v z -> val_real v = IZR z.
Proof. by intros (f & -> & _ & _ & H). Qed.

Lemma mac_all_int t A B c zc l : is_float t = true -> 0 <= A -> 0 <= B ->
  integral t c zc ->
  Forall (fun p => (exists z, integral t p.1 z /\ Z.abs z <= A) /\ (exists z, integral t p.2 z /\ Z.abs z <= B)) l ->
  Z.abs zc + A * B * Z.of_nat (length l) <= 2 ^ 24 ->
  exists w z, mac_all t c l = Some w /\ integral t w z /\ IZR z = (IZR zc + dot_real l)%R.
Proof.
  intros Ht HA HB Hc Hl. revert c zc Hc. induction Hl as [|[x y] l [(zx & Hx & Bx) (zy & Hy & By)] _ IH]; intros c zc Hc Hb.
  { exists c, zc. split_and!; [done|done|]. cbn. by rewrite Rplus_0_r. }
  cbn [fst snd length] in *.
  assert (Z.abs (zx * zy) <= A * B) as Hxy by (rewrite Z.abs_mul; apply Z.mul_le_mono_nonneg; lia).
  assert (0 <= A * B * Z.of_nat (length l)) as Hp by (repeat apply Z.mul_nonneg_nonneg; lia).
  assert (A * B * Z.of_nat (S (length l)) = A * B + A * B * Z.of_nat (length l)) as Hs
    by (rewrite Nat2Z.inj_succ; ring).
  assert (0 <= A * B) as HAB by lia.
  destruct (mac_val_int t c x y zc zx zy Ht Hc Hx Hy) as (c' & Hc' & Hi); [lia|lia|].
  destruct (IH c' (zc + zx * zy) Hi) as (w & z & Hw & Hz & Hr); [lia|].
  exists w, z. split_and!; [|done|].
  - unfold mac_all. cbn [foldl mbind option_bind]. rewrite Hc'. exact Hw.
  - rewrite Hr. cbn [dot_real foldr fst snd]. fold (dot_real l).
    rewrite (integral_real _ _ _ Hx), (integral_real _ _ _ Hy), plus_IZR, mult_IZR. ring.
Qed.

Lemma conv_terms_length T F ks ss ps ls nc b c o : drop 2 (a_dims F) = ks -> 0 <= nc -> 0 <= prodZ ks ->
  Z.of_nat (length (conv_terms T F ss ps ls nc b c o)) <= nc * prodZ ks.
Proof.
  intros Hk Hnc Hp. unfold conv_terms.
  assert (forall l, Z.of_nat (length (l ≫= fun ic => conv_chan T F ss ps ls b c ic o)) <= Z.of_nat (length l) * prodZ ks) as H.
  { intros l. induction l as [|ic l IH]; [done|]. cbn [mbind list_bind]. rewrite app_length.
    assert (length (conv_chan T F ss ps ls b c ic o) <= Z.to_nat (prodZ ks))%nat as Hc.
    { unfold conv_chan. rewrite Hk, <-coords_length. generalize (coords ks). intros cs.
      match goal with |- (length (omap ?f cs) <= _)%nat => generalize f end. intros f.
      induction cs as [|w cs IHc]; [done|]. cbn [omap list_omap]. destruct (f w); cbn [length]; lia. }
    cbn [length]. rewrite Nat2Z.inj_add, Nat2Z.inj_succ, Z.mul_succ_l. lia. }
  specialize (H (seqZ 0 nc)). rewrite seqZ_length, Z2Nat.id in H by done. exact H.
Qed.

Lemma zero_integral t : is_float t = true -> integral t (zero_val t) 0.
Proof.
  intros Ht. destruct t; try done.
  - exists fzero. split_and!; done.
  - exists fzero. split_and!; done.
Qed.

Lemma conv_int p pf T F nb nc oc fc sd ks ss ps ls g A B o E s :
  wf s -> alloc_all E -> hooks_ok E -> holds (heap s) p T -> holds (heap s) pf F ->
  a_type T = F32 -> a_type F = F32 ->
  a_dims T = nb :: nc :: sd -> a_dims F = oc :: fc :: ks -> nc <= fc -> 0 < nc ->
  (length sd <= 3)%nat -> cv_ok sd ks ss ps ls ->
  fits (tsz F32) (nb :: oc :: cv_outs sd ks ss ps ls) ->
  Forall (fun v => exists z, integral F32 v z /\ Z.abs z <= A) (a_vals T) ->
  Forall (fun v => exists z, integral F32 v z /\ Z.abs z <= B) (a_vals F) ->
  0 <= A -> 0 <= B -> A * B * (nc * prodZ ks) <= 2 ^ 24 ->
  exists T3, a_type T3 = F32 /\ a_dev T3 = a_dev T /\ a_dims T3 = nb :: oc :: cv_outs sd ks ss ps ls /\ valid T3 /\
    (forall b c x, in_box (a_dims T3) (b :: c :: x) ->
       exists z, integral F32 (at_ T3 (b :: c :: x)) z /\ IZR z = dot_real (conv_terms T F ss ps ls nc b c x)) /\
    makes_saying (conv_status E) (aitisa_conv (HPtr p) (HPtr pf) ss ps ls g o) E s T3.
Proof.
  intros Hwf HE HH HT HF HtT HtF HdT HdF Hnc Hnc0 Hrank Hok Hfit HA HB A0 B0 Hmax.
  assert (forall t M (vs : list val), Forall (fun v => exists z, integral t v z /\ Z.abs z <= M) vs -> is_float t = true ->
    Forall (val_ok t) vs) as Hinit.
  { intros t M vs H Ht. eapply Forall_impl; [exact H|]. intros v (z & (f & -> & Hv & _) & _). done. }
  destruct (conv_total p pf T F nb nc oc fc sd ks ss ps ls g o E s Hwf HE HH HT HF HtT HtF HdT HdF Hnc Hnc0 Hrank Hok Hfit)
    as (T3 & H1 & H2 & H3 & H4 & _ & H6 & H7).
  { unfold init. rewrite HtT. by eapply Hinit. }
  { unfold init. rewrite HtF. by eapply Hinit. }
  exists T3. split_and!; [done..| |done]. intros b c x Hx. specialize (H6 b c x Hx).
  rewrite H3 in Hx. inversion Hx as [|? ? ? ? Hb Hy]; subst. inversion Hy as [|? ? ? ? Hc Hz]; subst.
  pose proof (prodZ_pos _ (cv_ks_pos _ _ _ _ _ Hok)) as Hkp.
  destruct (mac_all_int F32 A B (zero_val F32) 0 (conv_terms T F ss ps ls nc b c x)) as (w & z & Hw & Hi & Hr);
    [done|done|done|by apply zero_integral| | |].
  - eapply (conv_terms_forall (fun v => exists z, integral F32 v z /\ Z.abs z <= A)
      (fun v => exists z, integral F32 v z /\ Z.abs z <= B)); try done; [by eapply holds_valid|by eapply holds_valid|by eapply cv_ks_pos].
  - pose proof (conv_terms_length T F ks ss ps ls nc b c x ltac:(by rewrite HdF) ltac:(lia) ltac:(lia)) as Hl.
    cbn [Z.abs Z.add]. etrans; [|exact Hmax]. apply Z.mul_le_mono_nonneg_l; [|done]. by apply Z.mul_nonneg_nonneg.
  - rewrite H6 in Hw. injection Hw as ->. exists z. split; [done|]. rewrite Hr. ring.
Qed.

Lemma makes_saying_success m E s T : makes_saying SUCCESS m E s T -> makes m E s T.
Proof. intros (s' & p & H1 & H2). by exists s', p. Qed.
Lemma conv_if_success p pf T F nb nc oc fc sd ks ss ps ls g o E s :
  wf s -> alloc_all E -> hooks_ok E -> holds (heap s) p T -> holds (heap s) pf F ->
  a_type T = F32 -> a_type F = F32 ->
  a_dims T = nb :: nc :: sd -> a_dims F = oc :: fc :: ks -> nc <= fc -> 0 < nc ->
  (length sd <= 3)%nat -> cv_ok sd ks ss ps ls ->
  fits (tsz F32) (nb :: oc :: cv_outs sd ks ss ps ls) -> init T -> init F ->
  e_garbage E 0 = SUCCESS -> e_garbage E 1 = SUCCESS ->
  exists T3, makes (aitisa_conv (HPtr p) (HPtr pf) ss ps ls g o) E s T3 /\ init T3.
Proof.
  intros H1 H2 H3 H4 H5 H6 H7 H8 H9 H10 H11 H12 H13 H14 H15 H16 Hg0 Hg1.
  destruct (conv_total p pf T F nb nc oc fc sd ks ss ps ls g o E s H1 H2 H3 H4 H5 H6 H7 H8 H9 H10 H11 H12 H13 H14 H15 H16)
    as (T3 & _ & _ & _ & _ & Hi & _ & Hm).
  exists T3. split; [|done]. unfold conv_status in Hm. rewrite Hg0, Hg1 in Hm. by apply makes_saying_success.
Qed.
