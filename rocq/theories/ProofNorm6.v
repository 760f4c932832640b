(** * ProofNorm6: batch normalisation, meaning, refusals and totality *)
From stdpp Require Import gmap list.
From Coq Require Import ZArith Lia Reals Lra Floats.SpecFloat.
From Coq Require Import ZifyBool ZifyNat.
From Flocq Require Core.
From Flocq Require Import IEEE754.BinarySingleNaN.
From Verif Require Import Base Mem Spec SpecReal SpecNN SpecNorm ModelCore ModelBasic ModelMath ModelNN Logic
  ProofCore ProofCore2 ProofCore3 ProofIndex ProofKernel ProofKernel2 ProofBasic ProofSqueeze ProofSlice ProofFrame
  ProofMatmul ProofMatmul3 ProofMath ProofCast ProofFloat ProofFloat2 ProofFloat3 ProofSqrt ProofDot3 ProofSoftmax ProofOwn
  ProofPool3 ProofNorm ProofNorm2 ProofNorm3 ProofNorm4 ProofNorm5.
Open Scope Z_scope.

Ltac Zify.zify_post_hook ::= Z.div_mod_to_equations.

(** ** One theorem for all ranks *)
Lemma chan_co b1 b2 a c i : chan (Z.of_nat (S (length b1))) (co b1 b2 a c i) = c.
Proof.
  unfold chan, co. rewrite Nat2Z.id. cbn [nth]. rewrite app_nth2 by (rewrite unravel_length; lia).
  by rewrite unravel_length, Nat.sub_diag.
Qed.

Lemma bn_split T axis : (2 < length (a_dims T))%nat -> axis = 1 \/ axis = Z.of_nat (length (a_dims T)) - 1 ->
  exists nb ch b1 b2, a_dims T = bn_dims nb ch b1 b2 /\ axis = Z.of_nat (S (length b1)) /\ bn_lane T axis = b1 ++ b2 /\
    nth (Z.to_nat axis) (a_dims T) 0 = ch.
Proof.
  unfold bn_lane. destruct (a_dims T) as [|nb l]; [cbn; lia|]. intros Hl Hax. cbn [length] in Hl.
  destruct (decide (axis = 1)) as [->|Hne].
  - destruct l as [|ch b2]; [cbn in Hl; lia|]. exists nb, ch, [], b2. done.
  - destruct Hax as [->|Hax]; [done|]. cbn [length] in Hax.
    destruct (exists_last (l := l)) as (b1 & ch & ->). { intros ->. cbn in Hl. lia. }
    rewrite app_length in Hax. cbn in Hax.
    exists nb, ch, b1, []. assert (axis = Z.of_nat (S (length b1))) as -> by lia. rewrite Nat2Z.id.
    split_and!; [done|done| |].
    + cbn. apply delete_middle.
    + cbn [nth]. rewrite app_nth2 by lia. by rewrite Nat.sub_diag.
Qed.

Section batch_norm.
Context {E : env} {s : st} (p pS pB pM pV : nat) (T Sc Bi Me Va : atensor) (axis : Z) (eps : spec_float) (o : hval).
Context (Hwf : wf s) (HA : alloc_all E) (HE : hooks_ok E).
Context (HT : holds (heap s) p T) (HS : holds (heap s) pS Sc) (HB : holds (heap s) pB Bi)
  (HM : holds (heap s) pM Me) (HV : holds (heap s) pV Va).
Notation run := (aitisa_batch_norm (HPtr p) axis (HPtr pS) (HPtr pB) (HPtr pM) (HPtr pV) eps o).
Notation t := (a_type T).

Lemma bn_rule ds T3 : bn_ok T axis Sc Bi Me Va eps -> bn_sizes T axis -> init Va ->
  Forall (fun U => dev_type (a_dev U) = 0) [T; Sc; Bi; Me; Va] ->
  (forall k, 0 <= k < nth (Z.to_nat axis) (a_dims T) 0 -> bn_den t eps (at_ Va [k]) (ds k)) ->
  valid T3 -> a_type T3 = t -> a_dev T3 = a_dev T -> a_dims T3 = a_dims T ->
  (forall c, in_box (a_dims T) c -> let k := chan axis c in
     bn_out t (ds k) (at_ Sc [k]) (at_ Bi [k]) (at_ Me [k]) (at_ T c) = Some (at_ T3 c)) ->
  makes run E s T3.
Proof using Hwf HA HE HT HS HB HM HV.
  intros Hok (Hpos & Hmax & Hsz) Hin Hcpu Hden V3 T3t T3v T3d Hf. cbv zeta in Hf.
  pose proof Hok as (Hr & Hax & TS & TB & TM & TV & (ch & Hch & DS & DB & DM & DV) & Heps).
  apply nth_lookup_Some with (d := 0) in Hch as Hnth. rewrite Hnth in *.
  assert (0 < ch <= INT_MAX) as Hcr.
  { split; [|by apply (Forall_lookup_1 _ _ _ _ Hmax Hch)].
    assert (tail (a_dims T) !! pred (Z.to_nat axis) = Some ch) as Ht.
    { destruct (a_dims T) as [|d0 l]; [done|]. destruct (Z.to_nat axis) as [|k] eqn:Hk; [cbn in *; lia|]. done. }
    by apply (Forall_lookup_1 _ _ _ _ Hpos Ht). }
  destruct (Hden 0 ltac:(lia)) as (e & _ & _ & He & _).
  rewrite !Forall_cons in Hcpu. destruct Hcpu as (C1 & C2 & C3 & C4 & C5 & _).
  destruct (decide (length (a_dims T) = 2%nat)) as [H2|H2].
  - destruct (a_dims T) as [|nb [|ch' [|]]] eqn:Dt; try done.
    assert (axis = 1) as -> by (cbn in Hax; lia). cbn in Hch. injection Hch as ->.
    rewrite !Forall_cons in Hmax. destruct Hmax as (Hnb & _ & _).
    eapply bn_2d with (ds := ds) (nb := nb) (ch := ch); try done.
    + by rewrite Dt.
    + intros a b Ha Hb. apply (Hf [a; b]). apply in_box_cons. split; [done|]. apply in_box_cons. split; [done|]. constructor.
  - destruct (bn_split T axis ltac:(lia) Hax) as (nb & ch' & b1 & b2 & Dt & -> & Hlane & Hc'). rewrite Hnth in Hc'. subst ch'.
    destruct (Hsz ltac:(lia)) as (S1 & S2 & S3). rewrite Hlane in *. rewrite Dt in Hpos, Hmax. unfold bn_dims in Hpos, Hmax.
    cbn [tail] in Hpos. apply Forall_cons in Hmax as [Hnb Hmax].
    apply Forall_app in Hpos as [P1 P2]. apply Forall_cons in P2 as [_ P2].
    apply Forall_app in Hmax as [M1 M2]. apply Forall_cons in M2 as [_ M2].
    eapply bn_nd with (ds := ds) (nb := nb) (ch := ch) (b1 := b1) (b2 := b2); try done.
    + rewrite Dt in Hr, H2. unfold bn_dims in *. cbn [length] in *. rewrite !app_length in *. cbn [length] in *. lia.
    + intros a c i Ha Hc Hi. specialize (Hf (co b1 b2 a c i)). rewrite chan_co in Hf. apply Hf.
      rewrite Dt. by apply co_box.
Qed.

(** ** Refusals *)
Lemma len1 (l : list Z) ch : l <> [ch] <-> (prodZ l <> ch \/ length l <> 1%nat).
Proof.
  split.
  - intros H. destruct l as [|x [|]]; [right; done| |right; done]. left. intros Hp. apply H. unfold prodZ in Hp. cbn in Hp. f_equal. lia.
  - intros [H|H] ->; [|done]. apply H. unfold prodZ. cbn. lia.
Qed.

Lemma bn_verdict_check :
  batch_norm_check (HPtr p) axis (HPtr pS) (HPtr pB) (HPtr pM) (HPtr pV) eps E s
  = Done (bn_verdict T axis Sc Bi Me Va eps) s.
Proof using HT HS HB HM HV.
  destruct HT as (_ & bx & tg & ex & Vt & _). destruct HS as (_ & bx1 & tg1 & ex1 & VS & _).
  destruct HB as (_ & bx2 & tg2 & ex2 & VB & _). destruct HM as (_ & bx3 & tg3 & ex3 & VM & _).
  destruct HV as (_ & bx4 & tg4 & ex4 & VV & _).
  unfold batch_norm_check, bn_verdict. cbv zeta.
  erewrite bind_done by by eapply tensor_dtype_ok.
  erewrite bind_done by by eapply tensor_ndim_ok.
  case_decide as Hd1.
  { replace ((_ <? 2) || (5 <? _)) with true by lia. done. }
  replace ((_ <? 2) || (5 <? _)) with false by lia.
  case_decide as Hd2.
  { replace (negb (axis =? 1) && _) with true by lia. done. }
  replace (negb (axis =? 1) && _) with false by lia.
  erewrite bind_done by by eapply tensor_dtype_ok. cbn [d_code dtype_of].
  assert (forall U, negb (code_of (a_type U) =? code_of t) = bool_decide (a_type U <> t)) as Hcode.
  { intros U. case_bool_decide as H.
    - destruct (a_type U), (a_type T); done.
    - destruct (decide (a_type U = t)) as [->|]; [|done]. by rewrite Z.eqb_refl. }
  rewrite Hcode. case_bool_decide as Hs1. { rewrite decide_True by by left. done. }
  erewrite bind_done by by eapply tensor_dtype_ok. cbn [d_code dtype_of].
  rewrite Hcode. case_bool_decide as Hs2. { rewrite decide_True by by right. done. }
  rewrite (decide_False (P := _ \/ _)) by tauto.
  destruct (lookup_lt_is_Some_2 (a_dims T) (Z.to_nat axis)) as [ch Hch]; [lia|].
  pose proof (nth_lookup_Some _ _ 0 _ Hch) as Hnth. rewrite Hnth.
  assert (forall U1 U2 : atensor,
    (negb (prodZ (a_dims U1) =? ch) || negb (prodZ (a_dims U2) =? ch)
     || (negb (Z.of_nat (length (a_dims U1)) =? 1) || negb (Z.of_nat (length (a_dims U2)) =? 1)))
    = bool_decide (a_dims U1 <> [ch] \/ a_dims U2 <> [ch])) as Hdims.
  { intros U1 U2. case_bool_decide as H; rewrite !len1 in H; lia. }
  erewrite bind_done by (eapply tensor_dim_ok; [exact Vt|lia|exact Hch]).
  erewrite bind_done by by eapply tensor_size_ok. erewrite bind_done by by eapply tensor_size_ok.
  pose proof (Hdims Sc Bi) as HdSB.
  destruct (negb (prodZ (a_dims Sc) =? ch) || negb (prodZ (a_dims Bi) =? ch)) eqn:Hq1.
  { cbn [orb] in HdSB. symmetry in HdSB. apply bool_decide_eq_true in HdSB. by rewrite decide_True. }
  erewrite bind_done by by eapply tensor_ndim_ok. erewrite bind_done by by eapply tensor_ndim_ok.
  cbn [orb] in HdSB. rewrite HdSB. case_bool_decide as Hd3.
  { by rewrite decide_True. }
  rewrite (decide_False (P := _ \/ _)) by done. clear HdSB Hd3 Hq1.
  erewrite bind_done by by eapply tensor_dtype_ok. cbn [d_code dtype_of].
  rewrite Hcode. case_bool_decide as Hs3. { rewrite decide_True by by left. done. }
  erewrite bind_done by by eapply tensor_dtype_ok. cbn [d_code dtype_of].
  rewrite Hcode. case_bool_decide as Hs4. { rewrite decide_True by by right. done. }
  rewrite (decide_False (P := _ \/ _)) by tauto.
  erewrite bind_done by by eapply tensor_size_ok. erewrite bind_done by by eapply tensor_size_ok.
  pose proof (Hdims Me Va) as HdSB.
  destruct (negb (prodZ (a_dims Me) =? ch) || negb (prodZ (a_dims Va) =? ch)) eqn:Hq1.
  { cbn [orb] in HdSB. symmetry in HdSB. apply bool_decide_eq_true in HdSB. by rewrite decide_True. }
  erewrite bind_done by by eapply tensor_ndim_ok. erewrite bind_done by by eapply tensor_ndim_ok.
  cbn [orb] in HdSB. rewrite HdSB. case_bool_decide as Hd3.
  { by rewrite decide_True. }
  rewrite (decide_False (P := _ \/ _)) by done. by destruct (SFltb eps fzero).
Qed.

Lemma bn_rejects : bn_verdict T axis Sc Bi Me Va eps <> SUCCESS ->
  refuses run E s o (bn_verdict T axis Sc Bi Me Va eps).
Proof using HT HS HB HM HV.
  intros H. unfold refuses, aitisa_batch_norm. erewrite bind_done by apply bn_verdict_check.
  by rewrite bool_decide_eq_false_2.
Qed.
End batch_norm.

Lemma bn_verdict_ok T axis Sc Bi Me Va eps :
  bn_verdict T axis Sc Bi Me Va eps = SUCCESS <-> bn_ok T axis Sc Bi Me Va eps.
Proof.
  unfold bn_verdict, bn_ok. cbv zeta. split.
  - case_decide as H1; [done|]. case_decide as H2; [done|]. case_decide as H3; [done|]. case_decide as H4; [done|].
    case_decide as H5; [done|]. case_decide as H6; [done|]. destruct (SFltb eps fzero); [done|]. intros _.
    apply Decidable.not_or in H3 as [H3 H3'], H4 as [H4 H4'], H5 as [H5 H5'], H6 as [H6 H6'].
    apply dec_stable in H3, H3', H4, H4', H5, H5', H6, H6'.
    assert (axis = 1 \/ axis = Z.of_nat (length (a_dims T)) - 1) as Hax by lia.
    split_and!; try done; [lia|lia|].
    destruct (lookup_lt_is_Some_2 (a_dims T) (Z.to_nat axis)) as [ch Hch]; [lia|].
    rewrite (nth_lookup_Some _ _ 0 _ Hch) in *. exists ch. done.
  - intros (H1 & H2 & H3 & H4 & H5 & H6 & (ch & Hch & D1 & D2 & D3 & D4) & He).
    rewrite (nth_lookup_Some _ _ 0 _ Hch). rewrite decide_False by lia. rewrite decide_False by lia.
    rewrite decide_False by tauto. rewrite decide_False by tauto. rewrite decide_False by tauto. rewrite decide_False by tauto.
    by rewrite He.
Qed.

(** ** Meaning *)
Lemma bn_meaning t eps va sc bi me x d w :
  valid_binary (fprec F64) (femax F64) eps = true ->
  val_ok t va -> val_ok t sc -> val_ok t bi -> val_ok t me -> val_ok t x ->
  bn_den t eps va d -> bn_out t d sc bi me x = Some w -> bn_is t eps va sc bi me x w.
Proof.
  intros Hv Va Vs Vb Vm Vx (e & a & f & He & Ha & Hn & Hf & Hd). unfold bn_out.
  destruct (bin_val t OpSub x me) as [y|] eqn:Hy; [|done]. destruct (bin_val t OpDiv y d) as [z|] eqn:Hz; [|done].
  destruct (bin_val t OpMul sc z) as [u|] eqn:Hu; [|done]. intros Hw.
  pose proof (of_double_ok _ _ _ He) as Ve. pose proof (of_double_ok _ _ _ Hd) as Vd.
  pose proof (bin_val_ok _ _ _ _ _ Va Ve Ha) as Vaa. pose proof (bin_val_ok _ _ _ _ _ Vx Vm Hy) as Vy.
  pose proof (bin_val_ok _ _ _ _ _ Vy Vd Hz) as Vz. pose proof (bin_val_ok _ _ _ _ _ Vs Vz Hu) as Vu.
  exists e, a, d, y, z, u. split_and!.
  - pose proof (cast_val_spec F64 t (VF eps) (conj eq_refl Hv)) as Hc. by rewrite <-He.
  - rewrite <-Ha. by apply bin_val_spec.
  - done.
  - pose proof (sqrt_val_spec t a Vaa Hn) as Hs. unfold sqrt_val in Hs. by rewrite Hf, Hd in Hs.
  - rewrite <-Hy. by apply bin_val_spec.
  - rewrite <-Hz. by apply bin_val_spec.
  - rewrite <-Hu. by apply bin_val_spec.
  - rewrite <-Hw. by apply bin_val_spec.
Qed.

(** ** Floats: everything is defined *)
Lemma add_nonneg t x y w : is_float t = true -> val_ok t x -> val_ok t y -> ~ negative x -> ~ negative y ->
  bin_val t OpAdd x y = Some w -> ~ negative w.
Proof.
  intros Ht Vx Vy Nx Ny Hw. pose proof (bin_val_spec t OpAdd x y Vx Vy) as Hs. rewrite Hw in Hs.
  destruct x as [x|x|]; [by destruct Vx; congruence| |done]. destruct y as [y|y|]; [by destruct Vy; congruence| |done].
  destruct Hs as (r & [= ->] & Hr & Hs). cbn in Nx, Ny |- *.
  destruct (op_special OpAdd x y) as [v|] eqn:Hsp.
  - subst v. clear -Hsp Nx Ny.
    assert (forall b, S754_infinity b = S754_infinity true -> b = true) as Hi by congruence.
    destruct x as [sx|sx| |sx mx ex], y as [sy|sy| |sy my ey]; cbn in Hsp; try discriminate Hsp; injection Hsp as <-;
      try (intros [H|H]; [cbn in H; lra|discriminate H]).
    + intros [H|H]; [cbn in H; lra|]. apply Ny. right. done.
    + intros [H|H]; [cbn in H; lra|]. apply Nx. right. done.
    + destruct (Bool.eqb sx sy); (intros [H|H]; [cbn in H; lra|]); [|done]. apply Nx. right. done.
    + intros [H|H]; [cbn in H; lra|]. apply Nx. right. done.
    + intros [H|H]; [cbn in H; lra|]. apply Ny. right. done.
  - cbv zeta in Hs. unfold op_real, op_sign in Hs. destruct Hs as [S1 S2].
    assert (0 <= RV x)%R as Px by (apply Rnot_lt_le; intros ?; apply Nx; by left).
    assert (0 <= RV y)%R as Py by (apply Rnot_lt_le; intros ?; apply Ny; by left).
    destruct (Rlt_or_le (Rabs (rnd t (RV x + RV y))) (Raux.bpow Zaux.radix2 (femax t))) as [Hb|Hb].
    + destruct (S1 Hb) as (F & R & _). intros [H|H]; [|by rewrite H in F]. rewrite R in H.
      assert (0 <= rnd t (RV x + RV y))%R; [|lra].
      unfold rnd. apply Generic_fmt.round_ge_generic; try typeclasses eauto; [apply Generic_fmt.generic_format_0|lra].
    + rewrite (S2 Hb). intros [H|H]; [cbn in H; lra|]. injection H as H. revert H.
      rewrite Raux.Req_bool_false by by eapply rnd_big_nz. rewrite Raux.Rlt_bool_false by lra. done.
Qed.

Lemma conv_nonneg t eps e : is_float t = true -> valid_binary (fprec F64) (femax F64) eps = true ->
  SFltb eps fzero = false -> of_double t eps = Some e -> ~ negative e.
Proof.
  intros Ht Hv Hlt. unfold of_double. rewrite Ht. intros [= <-]. cbn.
  destruct eps as [s|s| |s m x]; try (cbn; intros [H|H]; [cbn in H; lra|discriminate H]).
  - cbn. intros [H|H]; [cbn in H; lra|]. injection H as ->. done.
  - destruct s; [done|].
    pose proof (cast_val_spec F64 t (VF (S754_finite false m x)) (conj eq_refl Hv)) as Hc.
    unfold conv_spec, cast_val in Hc. rewrite Ht in Hc. cbn [is_float] in Hc. destruct Hc as (g & [= <-] & _ & _ & H1 & H2).
    change (SpecFloat.binary_round (fprec t) (femax t) false m x) with (flt_conv t (S754_finite false m x)) in *.
    set (g := flt_conv t (S754_finite false m x)) in *.
    destruct (Rlt_or_le (Rabs (rnd t (RV (S754_finite false m x)))) (Raux.bpow Zaux.radix2 (femax t))) as [Hb|Hb].
    + destruct (H1 eq_refl Hb) as (R & F & S). pose proof (sign_le g F) as Hg. rewrite S in Hg. cbn [sign_SF] in Hg. clearbody g.
      intros [H|H]; [lra|]. by rewrite H in F.
    + rewrite (H2 eq_refl Hb). intros [H|H]; [cbn in H; lra|done].
Qed.

Lemma bn_den_float t eps va : is_float t = true -> valid_binary (fprec F64) (femax F64) eps = true ->
  SFltb eps fzero = false -> val_ok t va -> ~ negative va -> exists d, bn_den t eps va d.
Proof.
  intros Ht Hv Hlt Hva Hn.
  assert (exists e, of_double t eps = Some e) as [e He]. { unfold of_double. rewrite Ht. eauto. }
  pose proof (of_double_ok _ _ _ He) as Hve.
  assert (exists a, bin_val t OpAdd va e = Some a) as [a Ha].
  { destruct va as [|x|]; [by destruct Hva; congruence| |done]. destruct e as [|y|]; [by destruct Hve; congruence| |done].
    cbn. rewrite Ht. eauto. }
  pose proof (bin_val_ok _ _ _ _ _ Hva Hve Ha) as Hvaa.
  assert (~ negative a) as Hna. { by eapply add_nonneg, Ha; [| | | |eapply conv_nonneg]. }
  destruct (sqrt_val_some t a Hvaa Hna) as [d Hd]. unfold sqrt_val in Hd.
  destruct (to_double t a) as [f|] eqn:Hf; [|done]. exists d, e, a, f. done.
Qed.

Lemma bin_float t op x y : is_float t = true -> val_ok t x -> val_ok t y -> exists w, bin_val t op x y = Some w /\ val_ok t w.
Proof.
  intros Ht Vx Vy. destruct x as [|x|]; [by destruct Vx; congruence| |done]. destruct y as [|y|]; [by destruct Vy; congruence| |done].
  assert (bin_val t op (VF x) (VF y) = Some (VF (flt_op t op x y))) as Hb by (cbn; by rewrite Ht).
  eexists. split; [exact Hb|]. exact (bin_val_ok _ _ _ _ _ Vx Vy Hb).
Qed.

Lemma bn_out_float t d sc bi me x : is_float t = true -> val_ok t d -> val_ok t sc -> val_ok t bi -> val_ok t me -> val_ok t x ->
  exists w, bn_out t d sc bi me x = Some w /\ val_ok t w.
Proof.
  intros Ht Vd Vs Vb Vm Vx. unfold bn_out.
  destruct (bin_float t OpSub x me Ht Vx Vm) as (y & -> & Vy).
  destruct (bin_float t OpDiv y d Ht Vy Vd) as (z & -> & Vz).
  destruct (bin_float t OpMul sc z Ht Vs Vz) as (u & -> & Vu).
  exact (bin_float t OpAdd u bi Ht Vu Vb).
Qed.

Lemma bn_float_out p pS pB pM pV T Sc Bi Me Va axis eps o E s :
  wf s -> alloc_all E -> hooks_ok E ->
  holds (heap s) p T -> holds (heap s) pS Sc -> holds (heap s) pB Bi -> holds (heap s) pM Me -> holds (heap s) pV Va ->
  is_float (a_type T) = true -> bn_ok T axis Sc Bi Me Va eps -> bn_sizes T axis ->
  valid_binary (fprec F64) (femax F64) eps = true ->
  Forall (fun U => dev_type (a_dev U) = 0 /\ init U) [T; Sc; Bi; Me; Va] ->
  Forall (fun v => ~ negative v) (a_vals Va) ->
  exists ds T3, a_type T3 = a_type T /\ a_dev T3 = a_dev T /\ a_dims T3 = a_dims T /\ valid T3 /\
    (forall k, 0 <= k < nth (Z.to_nat axis) (a_dims T) 0 -> bn_den (a_type T) eps (at_ Va [k]) (ds k)) /\
    (forall c, in_box (a_dims T) c -> let k := chan axis c in
       bn_out (a_type T) (ds k) (at_ Sc [k]) (at_ Bi [k]) (at_ Me [k]) (at_ T c) = Some (at_ T3 c)) /\
    (forall c, in_box (a_dims T) c -> let k := chan axis c in
       bn_is (a_type T) eps (at_ Va [k]) (at_ Sc [k]) (at_ Bi [k]) (at_ Me [k]) (at_ T c) (at_ T3 c)) /\
    makes (aitisa_batch_norm (HPtr p) axis (HPtr pS) (HPtr pB) (HPtr pM) (HPtr pV) eps o) E s T3.
Proof.
  intros Hwf HA HE HT HS HB HM HV Ht Hok Hsz Hv Hall Hneg.
  pose proof Hok as (Hr & Hax & TS & TB & TM & TV & (ch & Hch & DS & DB & DM & DV) & Heps).
  pose proof (nth_lookup_Some _ _ 0 _ Hch) as Hnth.
  rewrite !Forall_cons in Hall. destruct Hall as ((C1 & I1) & (C2 & I2) & (C3 & I3) & (C4 & I4) & (C5 & I5) & _).
  set (t := a_type T) in *.
  assert (forall U k, valid U -> a_dims U = [ch] -> 0 <= k < ch -> at_ U [k] ∈ a_vals U) as Hel.
  { intros U k VU DU Hk. apply at_elem; [done|]. rewrite DU. apply in_box_cons. split; [done|constructor]. }
  pose proof (holds_valid _ _ _ HT) as VT. pose proof (holds_valid _ _ _ HS) as VS. pose proof (holds_valid _ _ _ HB) as VB.
  pose proof (holds_valid _ _ _ HM) as VM. pose proof (holds_valid _ _ _ HV) as VV.
  assert (forall U k, valid U -> a_type U = t -> init U -> a_dims U = [ch] -> 0 <= k < ch -> val_ok t (at_ U [k])) as Hvo.
  { intros U k VU TU IU DU Hk. unfold init in IU. rewrite TU in IU. eapply Forall_forall in IU; [exact IU|by apply Hel]. }
  assert (forall k, exists d, 0 <= k < ch -> bn_den t eps (at_ Va [k]) d) as Hd.
  { intros k. destruct (decide (0 <= k < ch)) as [Hk|Hk]; [|exists VU; done].
    destruct (bn_den_float t eps (at_ Va [k]) Ht Hv Heps) as [d Hd]; [by apply Hvo| |by exists d].
    eapply Forall_forall in Hneg; [exact Hneg|by apply Hel]. }
  assert (exists ds, forall k, 0 <= k < ch -> bn_den t eps (at_ Va [k]) (ds k)) as [ds Hds].
  { clear -Hd. assert (exists l : list val, forall k, 0 <= k < ch -> exists d, l !! Z.to_nat k = Some d /\ bn_den t eps (at_ Va [k]) d)
      as [l Hl].
    { assert (forall n, exists l : list val, length l = n /\ forall k, 0 <= k < ch -> k < Z.of_nat n -> exists d, l !! Z.to_nat k = Some d /\ bn_den t eps (at_ Va [k]) d) as Hn.
      { induction n as [|n (l & Hl & IH)]; [exists []; split; [done|lia]|].
        destruct (Hd (Z.of_nat n)) as [d Hdn]. exists (l ++ [d]). split; [rewrite app_length; cbn; lia|].
        intros k Hk Hkn. destruct (decide (k = Z.of_nat n)) as [->|Hne].
        - exists d. split; [|by apply Hdn]. rewrite Nat2Z.id, lookup_app_r by lia. by rewrite Hl, Nat.sub_diag.
        - destruct (IH k Hk ltac:(lia)) as (d' & Hd' & ?). exists d'. split; [|done].
          rewrite lookup_app_l; [done|]. by eapply lookup_lt_Some. }
      destruct (Hn (Z.to_nat ch)) as (l & _ & Hl). exists l. intros k Hk. apply Hl; lia. }
    exists (fun k => nth (Z.to_nat k) l VU). intros k Hk. destruct (Hl k Hk) as (d & Hd1 & Hd2).
    by rewrite (nth_lookup_Some _ _ VU _ Hd1). }
  assert (forall c, in_box (a_dims T) c -> 0 <= chan axis c < ch) as Hchan.
  { intros c Hc. destruct (Forall2_lookup_l _ _ _ _ _ Hc Hch) as (x & Hx & Hxr).
    unfold chan. by rewrite (nth_lookup_Some _ _ 0 _ Hx). }
  assert (forall c, in_box (a_dims T) c -> val_ok t (at_ T c)) as HTo.
  { intros c Hc. eapply Forall_forall in I1; [exact I1|by apply at_elem]. }
  set (F c := let k := chan axis c in bn_out t (ds k) (at_ Sc [k]) (at_ Bi [k]) (at_ Me [k]) (at_ T c)).
  destruct (tab_choose t (a_dev T) (a_dims T) F) as (T3 & V3 & T3t & T3v & T3d & HF).
  { by apply valid_fits. }
  { intros c Hc. unfold F. specialize (Hchan c Hc). destruct (Hds _ Hchan) as (e & a & f & _ & _ & _ & _ & Hdd).
    destruct (bn_out_float t (ds (chan axis c)) (at_ Sc [chan axis c]) (at_ Bi [chan axis c]) (at_ Me [chan axis c]) (at_ T c) Ht)
      as (w & -> & _); [by eapply of_double_ok|by apply Hvo..|by apply HTo|done]. }
  exists ds, T3. split_and!; [done..|by rewrite Hnth|exact HF| |].
  - intros c Hc. cbv zeta. specialize (Hchan c Hc).
    eapply bn_meaning; [done|by apply Hvo..|by apply HTo|by apply Hds|by apply (HF c)].
  - eapply bn_rule with (Sc := Sc) (Bi := Bi) (Me := Me) (Va := Va) (ds := ds); try done.
    + by repeat constructor.
    + by rewrite Hnth.
Qed.
Lemma bn_float p pS pB pM pV T Sc Bi Me Va axis eps o E s :
  wf s -> alloc_all E -> hooks_ok E ->
  holds (heap s) p T -> holds (heap s) pS Sc -> holds (heap s) pB Bi -> holds (heap s) pM Me -> holds (heap s) pV Va ->
  is_float (a_type T) = true -> bn_ok T axis Sc Bi Me Va eps -> bn_sizes T axis ->
  valid_binary (fprec F64) (femax F64) eps = true ->
  Forall (fun U => dev_type (a_dev U) = 0 /\ init U) [T; Sc; Bi; Me; Va] ->
  Forall (fun v => ~ negative v) (a_vals Va) ->
  exists T3, a_type T3 = a_type T /\ a_dev T3 = a_dev T /\ a_dims T3 = a_dims T /\ valid T3 /\
    (forall c, in_box (a_dims T) c -> let k := chan axis c in
       bn_is (a_type T) eps (at_ Va [k]) (at_ Sc [k]) (at_ Bi [k]) (at_ Me [k]) (at_ T c) (at_ T3 c)) /\
    makes (aitisa_batch_norm (HPtr p) axis (HPtr pS) (HPtr pB) (HPtr pM) (HPtr pV) eps o) E s T3.
Proof.
  intros Hwf HA HE HT HS HB HM HV Ht Hok Hsz Hv Hall Hneg.
  destruct (bn_float_out p pS pB pM pV T Sc Bi Me Va axis eps o E s) as (ds & T3 & ? & ? & ? & ? & _ & _ & ? & ?); try done.
  by exists T3.
Qed.
