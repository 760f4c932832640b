(** * ProofExp4: tanh near 0, sigmoid, tanh and softmax of whole tensors *)
From stdpp Require Import gmap list list_numbers.
From Coq Require Import ZArith Lia ZifyBool ZifyNat Reals Lra Floats.SpecFloat.
From Flocq Require Import Core IEEE754.BinarySingleNaN.
From Verif Require Import Base Mem Spec SpecReal SpecNN SpecError SpecSoft SpecExp ModelCore ModelNN Logic.
From Verif Require Import ProofCore ProofFloat ProofFloat2 ProofFloat3 ProofFloat4 ProofError ProofNN ProofSoftmax ProofSoft ProofSoft2
  ProofIndex ProofKernel ProofExp ProofExp2 ProofExp3.
Open Scope Z_scope.

(** ** Simpler bounds *)
Lemma sig_rel_simple t eps : (0 <= eps <= / 16)%R ->
  (sig_rel t eps <= 2 * (eps + uround t + 2 * u64 + h64))%R.
Proof.
  intros Heps. unfold sig_rel. pose proof h64_small. pose proof u64_small. pose proof (uround_pos F64).
  pose proof (uround_pos t). pose proof (uround_lt1 t). set (u := uround t) in *. set (v := u64) in *.
  set (H' := (eps + h64)%R). replace (1 - eps - h64)%R with (1 - H')%R by (unfold H'; ring).
  replace (eps + u + 2 * v + h64)%R with (H' + u + 2 * v)%R by (unfold H'; ring).
  assert (0 < H' <= / 8)%R as HH by (unfold H'; lra).
  assert (3 / 4 <= (1 - v) * (1 - H'))%R as HL by nra. set (L := ((1 - v) * (1 - H'))%R) in *.
  assert ((1 + u) * (1 + v) / L <= 1 + 2 * (H' + u + 2 * v))%R; [|lra].
  apply div_le_1; [lra|].
  assert (3 / 4 * (2 * (H' + u + 2 * v)) <= L * (2 * (H' + u + 2 * v)))%R by (apply Rmult_le_compat_r; lra).
  assert (u * v <= u * / 1024)%R by (apply Rmult_le_compat_l; lra).
  assert (0 <= v * H')%R by (apply Rmult_le_pos; lra).
  assert (L = 1 - v - H' + v * H')%R as HLe by (unfold L; ring). lra.
Qed.
Lemma tanh_abs_simple t eps : (0 <= eps <= / 16)%R ->
  (tanh_abs t eps <= 2 * (eps + uround t + 3 * u64 + h64) + tiny t + 2 * tiny F64)%R.
Proof.
  intros Heps. unfold tanh_abs. cbv zeta. pose proof h64_small. pose proof u64_small. pose proof (uround_pos F64).
  pose proof (uround_pos t). pose proof (uround_lt1 t). pose proof (tiny_pos F64). set (u := uround t) in *. set (v := u64) in *.
  set (H' := (eps + h64)%R). replace (1 - eps - h64)%R with (1 - H')%R by (unfold H'; ring).
  replace (eps + u + 3 * v + h64)%R with (H' + u + 3 * v)%R by (unfold H'; ring).
  assert (0 < H' <= / 8)%R as HH by (unfold H'; lra).
  assert (H' / (1 - H') <= 2 * H')%R by (apply div_le_1; nra).
  assert ((1 + v) / (1 - v) <= 1 + 3 * v)%R by (apply div_le_1; nra).
  assert (0 <= (1 + v) / (1 - v))%R by (apply div_nonneg; lra). set (G := ((1 + v) / (1 - v))%R) in *.
  assert (G * (1 + v) <= 1 + 5 * v)%R by nra.
  assert (G * (1 + v) * (1 + u) <= (1 + 5 * v) * (1 + u))%R by (apply Rmult_le_compat_r; lra).
  assert (v * u <= / 1024 * u)%R by (apply Rmult_le_compat_r; lra).
  assert (tiny F64 * (1 + u) <= tiny F64 * 2)%R by (apply Rmult_le_compat_l; lra). lra.
Qed.

(** ** tanh is odd *)
Lemma rnd_opp t x : rnd t (- x) = (- rnd t x)%R.
Proof. unfold rnd. apply round_NE_opp. Qed.
Lemma SFopp_opp x : SFopp (SFopp x) = x.
Proof. destruct x as [?|?| |? ? ?]; cbn; by rewrite ?Bool.negb_involutive. Qed.
Lemma tanh_odd t ex eps x y z : is_float t = true -> exp_close ex eps -> (0 <= eps <= / 16)%R ->
  tanh_spec ex t (VF x) (VF y) -> tanh_spec ex t (VF (SFopp x)) (VF z) ->
  y = S754_nan /\ z = S754_nan \/
  is_finite_SF y = true /\ is_finite_SF z = true /\ RV z = (- RV y)%R.
Proof.
  intros Ht Hex Heps (x1 & g & h & [= <-] & Hg & Hh & [= ->]) (x2 & g' & h' & [= <-] & Hg' & Hh' & [= ->]).
  rewrite SFopp_opp in Hh'. rewrite (same_float_fun _ _ _ Hg' Hh), (same_float_fun _ _ _ Hh' Hg). clear Hg' Hh' g' h'.
  destruct (is_finite_SF x) eqn:Fx.
  2: { left. destruct Hg as (_ & Hgi & _), Hh as (_ & Hhi & _), Hex as (_ & Hpi & Hni & Hnan).
       rewrite (Hgi Fx), (Hhi ltac:(by destruct x)).
       destruct x as [?|b| |? ? ?]; try done; [destruct b|]; cbn [SFopp negb]; rewrite ?Hpi, ?Hni, ?Hnan; done. }
  destruct Hg as (Vg & _ & Hgf), Hh as (Vh & _ & Hhf).
  destruct (Hgf Fx) as (Fg & Rg & _). destruct Hhf as (Fh & Rh & _); [by destruct x|]. rewrite RV_opp in Rh. fold (RV x) in Rg.
  pose proof Hex as (He & _). destruct (He g Vg Fg) as (_ & HA). destruct (He h Vh Fh) as (_ & HB). clear He.
  pose proof exp_709 as E9. fold (RV g) in HA. fold (RV h) in HB.
  assert (RV g = RV x) as Rg' by exact Rg. assert (RV h = - RV x)%R as Rh' by exact Rh. rewrite Rg' in HA. rewrite Rh' in HB.
  destruct HA as [(FA & _)|(IA & BA)]; [destruct HB as [(FB & _)|(IB & BB)]|].
  - right.
    destruct (tanh_finite t ex eps g h (RV x) Ht Hex Heps Vg Vh Fg Fh Rg' Rh' FA FB) as (F1 & _ & _ & R1).
    assert (RV g = - - RV x)%R as Rg'' by lra.
    destruct (tanh_finite t ex eps h g (- RV x) Ht Hex Heps Vh Vg Fh Fg Rh' Rg'' FB FA) as (F2 & _ & _ & R2).
    split; [exact F1|]. split; [exact F2|]. rewrite R1, R2. set (A := RV (ex g)). set (B := RV (ex h)). rewrite (Rplus_comm B A).
    replace (B - A)%R with (- (A - B))%R by ring. rewrite rnd_opp.
    replace (- rnd F64 (A - B) / rnd F64 (A + B))%R with (- (rnd F64 (A - B) / rnd F64 (A + B)))%R by (unfold Rdiv; ring).
    by rewrite !rnd_opp.
  - left. rewrite IB. destruct (tanh_nan t (ex g) false FA) as [? ?]. done.
  - left. rewrite IA. assert (is_finite_SF (ex h) = true) as FB.
    { assert (709 < RV x)%R as H9.
      { destruct (Rlt_or_le 709 (RV x)) as [?|H]; [done|]. pose proof (exp_incr _ _ H). lra. }
      destruct (exp_in_range ex eps h Hex Vh Fh ltac:(lra)) as (_ & FB & _). done. }
    destruct (tanh_nan t (ex h) false FB) as [? ?]. done.
Qed.

(** ** tanh near 0 with the best possible exp *)
Definition p54 : spec_float := S754_finite false 4503599627370496 (-106).
Definition m55 : spec_float := S754_finite true 4503599627370496 (-107).
Lemma p54_R : RV p54 = bpow radix2 (-54).
Proof.
  unfold p54, SF2R, F2R, cond_Zopp. cbn [Fnum Fexp].
  change (IZR (Z.pos 4503599627370496)) with (bpow radix2 52). by rewrite <-bpow_plus.
Qed.
Lemma m55_R : RV m55 = (- bpow radix2 (-55))%R.
Proof.
  unfold m55, SF2R, F2R, cond_Zopp. cbn [Fnum Fexp]. rewrite opp_IZR.
  change (IZR (Z.pos 4503599627370496)) with (bpow radix2 52).
  by rewrite Ropp_mult_distr_l_reverse, <-bpow_plus.
Qed.
Lemma rnd_near_1 y : (1 - bpow radix2 (-55) <= y <= 1 + bpow radix2 (-54))%R -> rnd F64 y = 1%R.
Proof.
  intros [H1 H2].
  assert (rnd F64 (1 + bpow radix2 (-54)) = 1)%R as U.
  { pose proof (flt_op_finite F64 OpAdd Base.done p54 ltac:(done) done_valid eq_refl eq_refl) as (_ & _ & H).
    cbn [op_real] in H. rewrite done_R, p54_R in H. rewrite <-H.
    change (flt_op F64 OpAdd Base.done p54) with (dadd Base.done p54). replace (dadd Base.done p54) with Base.done by (vm_compute; reflexivity). apply done_R. }
  assert (rnd F64 (1 - bpow radix2 (-55)) = 1)%R as L.
  { pose proof (flt_op_finite F64 OpAdd Base.done m55 ltac:(done) done_valid eq_refl eq_refl) as (_ & _ & H).
    cbn [op_real] in H. rewrite done_R, m55_R in H. unfold Rminus. rewrite <-H.
    change (flt_op F64 OpAdd Base.done m55) with (dadd Base.done m55). replace (dadd Base.done m55) with Base.done by (vm_compute; reflexivity). apply done_R. }
  apply rnd_le with (t := F64) in H1, H2. lra.
Qed.
Lemma exp_near_1 y : (Rabs y <= bpow radix2 (-55))%R -> (1 - bpow radix2 (-55) <= exp y <= 1 + bpow radix2 (-54))%R.
Proof.
  intros H. apply Rabs_le_inv in H. split; [pose proof (exp_ineq1_le y); lra|].
  assert (bpow radix2 (-54) = 2 * bpow radix2 (-55))%R as -> by (change 2%R with (bpow radix2 1); by rewrite <-bpow_plus).
  pose proof (exp_ineq1_le (- y)) as Hl. rewrite exp_Ropp in Hl.
  assert (bpow radix2 (-55) <= / 4)%R by (apply (bpow_le radix2 _ (-2)); lia).
  pose proof (bpow_gt_0 radix2 (-55)) as Hp0. pose proof (exp_pos y) as Hp. set (k := bpow radix2 (-55)) in *.
  assert (1 - k <= / exp y)%R as Hl' by lra. apply (Rmult_le_compat_l (exp y)) in Hl'; [|lra]. rewrite Rinv_r in Hl' by lra. nra.
Qed.
Lemma tanh_zero t x y : is_float t = true -> is_finite_SF x = true -> (Rabs (RV x) <= bpow radix2 (-55))%R ->
  tanh_spec exp_rounded t (VF x) (VF y) -> is_finite_SF y = true /\ RV y = 0%R.
Proof.
  intros Ht Fx Hx (x1 & g & h & [= <-] & Hg & Hh & [= ->]).
  assert (bpow radix2 (-55) <= / 4)%R by (apply (bpow_le radix2 _ (-2)); lia).
  assert (0 <= u64 <= / 16)%R as Hu by (pose proof (uround_pos F64); pose proof u64_small; lra).
  assert (Rabs (RV x) <= 709)%R as H9 by lra.
  destruct Hg as (Vg & Hgi & Hgf). destruct Hh as (Vh & Hhi & Hhf).
  destruct (Hgf Fx) as (Fg & Rg & _). destruct Hhf as (Fh & Rh & _); [by destruct x|]. rewrite RV_opp in Rh.
  assert (forall w, is_finite_SF w = true -> (Rabs (RV w) <= bpow radix2 (-55))%R ->
    vb F64 (exp_rounded w) = true /\ is_finite_SF (exp_rounded w) = true /\ RV (exp_rounded w) = 1%R) as H1.
  { intros w Fw Hw. destruct (exp_rounded_val w Fw) as (V & Hv & _). rewrite (rnd_near_1 _ (exp_near_1 _ Hw)) in Hv.
    destruct Hv as [F R]; [apply (bpow_lt radix2 0); lia|]. done. }
  destruct (H1 g Fg) as (V1 & F1 & R1); [by rewrite Rg|].
  destruct (H1 h Fh) as (V2 & F2 & R2); [by rewrite Rh, Rabs_Ropp|].
  destruct (tanh_num t (exp_rounded g) (exp_rounded h) Ht V1 V2 F1 F2 ltac:(lra) ltac:(lra) ltac:(lra)) as (F & _ & Hval).
  split; [exact F|]. rewrite Hval; rewrite R1, R2.
  - replace (1 - 1)%R with 0%R by ring. rewrite rnd_0. unfold Rdiv. rewrite Rmult_0_l, !rnd_0. done.
  - replace (1 + 1)%R with 2%R by ring. rewrite (rnd_int F64 2) by done. rewrite Rabs_pos_eq by lra. apply (bpow_lt radix2 1). lia.
Qed.
Lemma tanh_real_nz x : x <> 0%R -> tanh_real x <> 0%R.
Proof.
  intros Hx H. unfold tanh_real in H. pose proof (exp_pos x). pose proof (exp_pos (- x)).
  assert (exp x = exp (- x)) as He.
  { apply (f_equal (fun z => z * (exp x + exp (- x)))%R) in H. rewrite Rmult_0_l in H. unfold Rdiv in H.
    rewrite Rmult_assoc, Rinv_l in H by lra. lra. }
  apply exp_inv in He. lra.
Qed.

(** ** Whole tensors *)
Lemma Forall2_imp_l {A B} (P : A -> Prop) (Q R : A -> B -> Prop) l k :
  Forall P l -> Forall2 Q l k -> (forall x y, P x -> Q x y -> R x y) -> Forall2 R l k.
Proof. intros HP H HR. induction H as [|x y l k Hxy _ IH]; [done|]. apply Forall_cons in HP as [? ?]. constructor; [by apply HR|by apply IH]. Qed.

Lemma sigmoid_real p T o E s eps :
  wf s -> holds (heap s) p T -> init T -> is_float (a_type T) = true ->
  exp_close (e_exp E) eps -> (0 <= eps <= / 16)%R ->
  exists ws, Forall2 (sigmoid_close (a_type T) eps) (a_vals T) ws /\
    makes_or_nomem (aitisa_sigmoid (HPtr p) o) E s o (AT (a_type T) (a_dev T) (a_dims T) ws).
Proof.
  intros Hwf HT Hin Hf Hex Heps. destruct (sigmoid_total T (e_exp E) Hin Hf) as (ws & Hws & _). exists ws. split.
  - eapply Forall2_imp_l; [exact (float_vals T Hin Hf)|exact Hws|]. cbv beta.
    intros v w (x & -> & Vx) (x' & g & [= <-] & Hg & ->). by apply sig_close.
  - apply sigmoid_rule; [exact Hwf|exact HT|exact Hin|exact Hf|exact Hws].
Qed.
Lemma tanh_real_ok p T o E s eps :
  wf s -> holds (heap s) p T -> init T -> is_float (a_type T) = true ->
  exp_close (e_exp E) eps -> (0 <= eps <= / 16)%R ->
  exists ws, Forall2 (tanh_close (a_type T) eps) (a_vals T) ws /\
    makes_or_nomem (aitisa_tanh (HPtr p) o) E s o (AT (a_type T) (a_dev T) (a_dims T) ws).
Proof.
  intros Hwf HT Hin Hf Hex Heps. destruct (tanh_total T (e_exp E) Hin Hf) as (ws & Hws & _). exists ws. split.
  - eapply Forall2_imp_l; [exact (float_vals T Hin Hf)|exact Hws|]. cbv beta.
    intros v w (x & -> & Vx) (x' & g & h & [= <-] & Hg & Hh & ->). by apply tan_close.
  - apply tanh_rule; [exact Hwf|exact HT|exact Hin|exact Hf|exact Hws].
Qed.
Lemma tanh_tiny p T o E s :
  wf s -> holds (heap s) p T -> init T -> is_float (a_type T) = true -> e_exp E = exp_rounded ->
  Forall (fun v => finite_val v /\ (0 < Rabs (val_real v) <= bpow radix2 (-55))%R) (a_vals T) ->
  exists ws, Forall2 (fun v w => finite_val w /\ val_real w = 0%R /\ tanh_real (val_real v) <> 0%R) (a_vals T) ws /\
    makes_or_nomem (aitisa_tanh (HPtr p) o) E s o (AT (a_type T) (a_dev T) (a_dims T) ws).
Proof.
  intros Hwf HT Hin Hf Hex Hx. destruct (tanh_total T (e_exp E) Hin Hf) as (ws & Hws & _). exists ws. split.
  - eapply Forall2_imp_l; [exact Hx|exact Hws|]. cbv beta. intros v w [(x & -> & Fx) Hr] Hvw.
    rewrite Hex in Hvw. pose proof Hvw as (x' & g & h & _ & _ & _ & ->).
    destruct (tanh_zero _ x _ Hf Fx (proj2 Hr) Hvw) as [F R]. split; [by eexists|]. split; [exact R|].
    apply tanh_real_nz. cbn [val_real] in *. intros Hz. rewrite Hz, Rabs_R0 in Hr. lra.
  - apply tanh_rule; [exact Hwf|exact HT|exact Hin|exact Hf|exact Hws].
Qed.

Lemma softmax_real_all p T o E s eps :
  wf s -> alloc_all E -> holds (heap s) p T -> init T -> is_float (a_type T) = true ->
  exp_close (e_exp E) eps -> (0 <= eps <= / 16)%R ->
  Forall (soft_range (a_type T)) (a_vals T) -> Z.of_nat (length (a_vals T)) <= 2 ^ 51 ->
  exists ws, softmax_close (a_type T) eps (a_vals T) ws /\
    makes (aitisa_softmax (HPtr p) (-1) o) E s (AT (a_type T) (a_dev T) (a_dims T) ws).
Proof.
  intros Hwf HA HT Hin Hf Hex Heps Hr Hn. destruct (soft_all p T o E s Hwf HA HT Hin Hf) as (es & ws & Hl & Hm).
  exists ws. split; [|exact Hm]. by eapply soft_real.
Qed.
Lemma lane_all T a c d (P : val -> Prop) : valid T -> Forall P (a_vals T) -> a_dims T !! a = Some d -> in_box (a_dims T) c ->
  Forall P (lane T a c).
Proof.
  intros HvT Hin Ha Hc. apply Forall_forall. intros x Hx. unfold lane in Hx. rewrite Ha in Hx. cbn [default] in Hx.
  apply elem_of_list_fmap in Hx as (j & -> & Hj). apply elem_of_seq in Hj. unfold Datatypes.id in Hj.
  pose proof (valid_len _ HvT) as Hlen.
  assert (in_box (a_dims T) (<[a := Z.of_nat j]> c)) as Hb.
  { rewrite <-(list_insert_id (a_dims T) a d Ha). apply Forall2_insert; [done|lia]. }
  pose proof (ravel_bound _ _ Hb). unfold at_.
  destruct (lookup_lt_is_Some_2 (a_vals T) (Z.to_nat (ravel (a_dims T) (<[a:=Z.of_nat j]> c)))) as [v Hv]; [lia|].
  rewrite Hv. by apply (Forall_lookup_1 _ _ _ _ Hin Hv).
Qed.
Lemma softmax_real_axis p T a d o E s eps :
  wf s -> alloc_all E -> hooks_ok E -> holds (heap s) p T -> init T -> is_float (a_type T) = true ->
  Forall (fun d => 0 < d) (a_dims T) -> 2 * prodZ (a_dims T) <= INT64_MAX ->
  a_dims T !! a = Some d -> d <= 2 ^ 51 ->
  exp_close (e_exp E) eps -> (0 <= eps <= / 16)%R -> Forall (soft_range (a_type T)) (a_vals T) ->
  exists T3, a_type T3 = a_type T /\ a_dev T3 = a_dev T /\ a_dims T3 = a_dims T /\
    (forall c j, in_box (a_dims T) c -> c !! a = Some j ->
     exists ws, softmax_close (a_type T) eps (lane T a c) ws /\ ws !! Z.to_nat j = Some (at_ T3 c)) /\
    makes (aitisa_softmax (HPtr p) (Z.of_nat a) o) E s T3.
Proof.
  intros Hwf HA HH HT Hin Hf Hpos Hmax Ha Hd51 Hex Heps Hr.
  destruct (soft_axis p T a d o E s Hwf HA HH HT Hin Hf Hpos Hmax Ha) as (T3 & H1 & H2 & H3 & H4 & Hm).
  exists T3. split; [exact H1|]. split; [exact H2|]. split; [exact H3|]. split; [|exact Hm].
  intros c j Hc Hj. destruct (H4 c j Hc Hj) as (es & ws & Hl & Hw). exists ws. split; [|exact Hw].
  pose proof (proj1 HT) as HvT.
  eapply soft_real; [exact Hf|exact Hex|exact Heps|exact (lane_all T a c d _ HvT Hin Ha Hc)|exact (lane_all T a c d _ HvT Hr Ha Hc)| |exact Hl].
  rewrite (lane_length T a c d Ha). pose proof (Forall_lookup_1 _ _ _ _ Hpos Ha). lia.
Qed.

(** ** Where softmax yields NaN *)
Lemma exp_89 : (6 / 5 * bpow radix2 128 <= 15 / 16 * exp 89)%R.
Proof.
  pose proof (exp_ge_Z 89 128 13 10 ltac:(done) ltac:(done) ltac:(done) ltac:(vm_compute; discriminate)).
  pose proof (bpow_gt_0 radix2 128). lra.
Qed.
Lemma exp_105 : (exp (-105) <= bpow radix2 (-151))%R.
Proof.
  pose proof (exp_ge_Z 105 151 1 1 ltac:(done) ltac:(done) ltac:(done) ltac:(vm_compute; discriminate)) as H.
  replace (-105)%R with (- (105))%R by ring. rewrite exp_Ropp. change (-151) with (- (151)). rewrite bpow_opp.
  apply Rinv_le_contravar; [apply bpow_gt_0|lra].
Qed.
Lemma flt_conv_inf t f : is_finite_SF f = true -> (0 < RV f)%R -> (bpow radix2 (femax t) <= rnd t (RV f))%R ->
  flt_conv t f = S754_infinity false.
Proof.
  intros Hf Hp Hge. destruct f as [?|?| |sg m e]; try done; [cbn in Hp; lra|].
  destruct sg.
  { exfalso. assert (RV (S754_finite true m e) <= 0)%R by (apply F2R_le_0; cbn; lia). lra. }
  unfold flt_conv. rewrite (binary_round_eq (fprec t) (femax t)).
  destruct (binary_round_correct (fprec t) (femax t) (ProofFloat2.Hp t) (Hm t) mode_NE false m e) as [_ H].
  cbv zeta in H. rewrite Rlt_bool_false in H; [exact H|].
  eapply Rle_trans; [exact Hge|]. apply Rle_abs.
Qed.
Lemma fmt_bpow t k : is_float t = true -> 0 <= k -> fmt t (bpow radix2 k).
Proof. intros Ht Hk. apply generic_format_bpow. unfold SpecFloat.fexp, SpecFloat.emin, fprec, femax. destruct t; try done; lia. Qed.

Lemma exp_overflows t ex eps f : is_float t = true -> exp_close ex eps -> (0 <= eps <= / 16)%R ->
  vb t f = true -> is_finite_SF f = true -> (soft_inf t <= RV f)%R ->
  flt_conv t (ex (flt_conv F64 f)) = S754_infinity false.
Proof.
  intros Ht Hex Heps Vf Ff Hf. pose proof (same_float_conv t f Ht Vf) as (Vd & _ & Hd). destruct (Hd Ff) as (Fd & Rd & _).
  assert (RV (flt_conv F64 f) = RV f) as Rd' by exact Rd. clear Rd.
  destruct t; try done; cbn [soft_inf] in Hf.
  - destruct (proj1 Hex _ Vd Fd) as (Vv & [(Fv & Pv & Hv)|(-> & _)]); [|done].
    rewrite Rd' in Hv. pose proof (exp_incr _ _ Hf) as He. pose proof exp_89. pose proof h64_small. apply Rabs_le_inv in Hv.
    assert (1 <= bpow radix2 128)%R by (apply (bpow_le radix2 0); lia).
    assert (eps * exp (RV f) <= / 16 * exp (RV f))%R by (apply Rmult_le_compat_r; [apply Rlt_le, exp_pos|lra]).
    apply flt_conv_inf; [done|lra|].
    change (femax F32) with 128. rewrite <-(rnd_fmt F32 (bpow radix2 128)) by by apply fmt_bpow. apply rnd_le. lra.
  - by rewrite (exp_out_of_range ex eps _ Hex Heps Vd Fd ltac:(lra)).
Qed.
Lemma exp_vanishes ex eps f : exp_close ex eps -> (0 <= eps <= / 16)%R ->
  vb F32 f = true -> is_finite_SF f = true -> (RV f <= -105)%R ->
  exists b, flt_conv F32 (ex (flt_conv F64 f)) = S754_zero b.
Proof.
  intros Hex Heps Vf Ff Hf. pose proof (same_float_conv F32 f eq_refl Vf) as (Vd & _ & Hd). destruct (Hd Ff) as (Fd & Rd & _).
  assert (RV (flt_conv F64 f) = RV f) as Rd' by exact Rd. clear Rd.
  destruct (exp_in_range ex eps _ Hex Vd Fd ltac:(lra)) as (Vv & Fv & Pv & Hv). rewrite Rd' in Hv.
  pose proof (exp_incr _ _ Hf) as He. pose proof exp_105. apply Rabs_le_inv in Hv.
  assert (eps * exp (RV f) <= / 16 * exp (RV f))%R by (apply Rmult_le_compat_r; [apply Rlt_le, exp_pos|lra]).
  set (v := ex (flt_conv F64 f)) in *.
  assert (h64 <= / 16 * bpow radix2 (-151))%R.
  { change (/ 16)%R with (bpow radix2 (-4)). rewrite <-bpow_plus. apply bpow_le. lia. }
  assert (bpow radix2 (-150) = 2 * bpow radix2 (-151))%R as H2 by (change 2%R with (bpow radix2 1); by rewrite <-bpow_plus).
  assert (rnd F32 (RV v) = 0)%R as Hr.
  { assert (0 <= RV v < bpow radix2 (-150))%R as [H3 H4] by (pose proof (bpow_gt_0 radix2 (-151)); lra).
    destruct H3 as [H3|<-]; [|apply rnd_0].
    destruct (mag radix2 (RV v)) as [k Hk]. specialize (Hk ltac:(lra)).
    unfold rnd. apply round_N_small with k; [exact Hk|].
    assert (k <= -150) as Hk150.
    { rewrite Rabs_pos_eq in Hk by lra. assert (k - 1 < -150); [|lia]. apply (lt_bpow radix2). lra. }
    unfold SpecFloat.fexp, SpecFloat.emin. cbn. lia. }
  destruct (flt_conv_rnd F32 v Fv) as [F R]; [rewrite Hr, Rabs_R0; apply bpow_gt_0|].
  rewrite Hr in R. destruct (flt_conv F32 v) as [b|?| |b m e]; try done; [by exists b|].
  exfalso. apply eq_0_F2R in R. by destruct b.
Qed.

Lemma soft_nan_all p T o E s eps j v :
  wf s -> alloc_all E -> holds (heap s) p T -> init T -> is_float (a_type T) = true ->
  exp_close (e_exp E) eps -> (0 <= eps <= / 16)%R ->
  a_vals T !! j = Some v -> finite_val v -> (soft_inf (a_type T) <= val_real v)%R ->
  exists ws, makes (aitisa_softmax (HPtr p) (-1) o) E s (AT (a_type T) (a_dev T) (a_dims T) ws) /\
    ws !! j = Some (VF S754_nan).
Proof.
  intros Hwf HA HT Hin Hf Hex Heps Hj (f & -> & Ff) Hv. pose proof (Forall_lookup_1 _ _ _ _ Hin Hj) as [_ Vf].
  eapply soft_overflow_all; [exact Hwf|exact HA|exact HT|exact Hin|exact Hf|exact Hj| |].
  - cbn [to_double]. by rewrite Hf.
  - unfold of_double. rewrite Hf. do 2 f_equal. by eapply exp_overflows.
Qed.
Lemma soft_nan_low p T o E s eps :
  wf s -> alloc_all E -> holds (heap s) p T -> init T -> a_type T = F32 ->
  exp_close (e_exp E) eps -> (0 <= eps <= / 16)%R ->
  Forall (fun v => finite_val v /\ (val_real v <= -105)%R) (a_vals T) ->
  makes (aitisa_softmax (HPtr p) (-1) o) E s
    (AT F32 (a_dev T) (a_dims T) ((fun _ => VF S754_nan) <$> a_vals T)).
Proof.
  intros Hwf HA HT Hin Hf Hex Heps Hv. rewrite <-Hf.
  apply soft_underflow_all; [exact Hwf|exact HA|exact HT|exact Hin|by rewrite Hf|].
  rewrite Hf. unfold init in Hin. rewrite Hf in Hin. clear -Hin Hv Hex Heps.
  induction Hv as [|v vs [(f & -> & Ff) Hv] _ IH]; [done|]. apply Forall_cons in Hin as [[_ Vf] Hin].
  constructor; [|by apply IH]. destruct (exp_vanishes _ eps f Hex Heps Vf Ff Hv) as [b Hb].
  exists (flt_conv F64 f), b. split; [done|]. unfold of_double. cbn [is_float]. by rewrite Hb.
Qed.
