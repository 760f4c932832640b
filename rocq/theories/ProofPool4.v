(** * ProofPool4: pooling when a result does not fit the element type *)
From stdpp Require Import gmap list.
From Coq Require Import ZArith Lia Floats.SpecFloat.
From Coq Require Import ZifyBool ZifyNat.
From Verif Require Import Base Mem Spec SpecNN ModelCore ModelBasic ModelMath ModelNN Logic
  ProofCore ProofCore2 ProofCore3 ProofIndex ProofLayout ProofKernel ProofKernel2 ProofBasic ProofBasic2 ProofSlice
  ProofFrame ProofMatmul ProofSoftmax ProofFloat5 ProofWindow ProofPool ProofPool2 ProofPool3 ProofMatmul3 ProofExact ProofBatch ProofDot7.
Open Scope Z_scope.

Ltac Zify.zify_post_hook ::= Z.div_mod_to_equations.

Lemma while_ret_fuel_ub {A R} (I : nat -> A -> st -> Prop) (body : A -> M (ctl (A * bool) R)) N j u E :
  (j < N)%nat ->
  (forall k x s, (k < j)%nat -> I k x s ->
     wp (body x) E s (fun r s' => exists x', r = Next (x', bool_decide (S k < N)%nat) /\ I (S k) x' s')) ->
  (forall x s, I j x s -> body x E s = UB u) ->
  forall fuel k x s, (k <= j)%nat -> (j < k + fuel)%nat -> I k x s ->
  while_ret_fuel fuel body x E s = UB u.
Proof.
  intros HN Hb Hu fuel. induction fuel as [|fuel IH]; intros k x s Hk Hf HI; [lia|].
  cbn [while_ret_fuel]. destruct (decide (k = j)) as [->|Hne].
  { apply bind_UB. by apply Hu. }
  specialize (Hb k x s ltac:(lia) HI). apply wp_elim in Hb as (r & s' & Hr & x' & -> & HI').
  erewrite bind_done by exact Hr. cbv beta match.
  rewrite bool_decide_true by lia. apply (IH (S k)); [lia|lia|done].
Qed.

Section channel.
Context {nb nc : Z} {sd ks ss ps ls : list Z} (Hok : win_ok sd ks ss ps ls) (Hsd : sd <> []).
Let os := win_outs sd ks ss ps ls.
Let n := length sd.
Let dims := nb :: nc :: sd.
Let odims := nb :: nc :: os.
Let P := prodZ sd.
Let W := prodZ os.
Context {E : env} {bA tgA : nat} {t : tcode} {vA : list val} {exA : list mv}.
Context {m : pmode}.
Context (Hnn : Forall (fun d => 0 <= d) sd).
Context {tag lo : nat} {base : gmap nat block} {pT pd pm pst px : nat} {dev : device}.
Let TN s' vs := tnew tag lo base s' pT pd pm pst px (dtype_of t) dev odims (cells t vs).
Context (HA : base !! bA = Some (Blk tgA (CData (cells t vA ++ exA)))).
Context {ws : list val}.
Context (Hn0 : 0 <= nb) (Hn1 : 0 <= nc)
  (Hin : prodZ dims <= INT64_MAX) (HlenA : Z.of_nat (length vA) = prodZ dims)
  (Hout : prodZ odims <= INT64_MAX) (HlenW : Z.of_nat (length ws) = prodZ odims)
  (HW : W <= INT_MAX).

Let W_pos : 0 < W.
Proof. apply prodZ_pos. by apply win_outs_pos. Qed.
Let P_nonneg : 0 <= P.
Proof. by apply prodZ_nonneg. Qed.
Let cbody (B O : Z) : list Z * list Z * Z -> M (ctl (list Z * list Z * Z * bool) status) :=
  fun '(head, tail, widx) =>
      let* r := pool_window m (dtype_of t) (HPtr bA) (Z.of_nat n) dims (suffs dims) ls head tail B in
      match r with
      | Return s => ret (Return s)
      | Next temp =>
          let* os := aget (suffs odims) (Z.of_nat n + 1) in
          let* m' := ck64 (widx * os) in
          let* opos := ck64 (m' + O) in
          dispatch_all (dtype_of t) (fun t =>
            pool_output m t (HPtr px) opos temp (prodZ ks) ;;;
            let* (head, tail, go) :=
              pool_slide (Z.to_nat (Z.of_nat n)) dims ks ss ps ls head tail in
            let* widx := ck32 (widx + 1) in
            ret (Next ((head, tail, widx), go)))
            (ret (Return NOT_SUPPORTED))
      end.
Let cstate (k : nat) : list Z * list Z * Z :=
  (heads ps ss (unravel os (Z.of_nat k)), tails ps ss ks ls (unravel os (Z.of_nat k)), Z.of_nat k).
Let cell (b c j : Z) := exists ds w,
     Forall2 (fun v d => to_double t v = Some d)
       (omap (welem (sd := sd) (ss := ss) (ps := ps) (ls := ls) (vA := vA) ((b * nc + c) * P) (unravel os j)) (coords ks)) ds /\
     pout m t (prodZ ks) (foldl (pstep m) fzero ds) = Some w /\
     ws !! Z.to_nat ((b * nc + c) * W + j) = Some w.

Lemma channel_step1 s b c k s1 : 0 <= b < nb -> 0 <= c < nc -> cell b c (Z.of_nat k) ->
  (Z.to_nat (prodZ ks) <= e_fuel E)%nat ->
  (k < Z.to_nat W)%nat ->
  TN s1 (prog VU ws (Z.to_nat ((b * nc + c) * W) + k)) -> rpos s1 = rpos s ->
  wp (cbody ((b * nc + c) * P) ((b * nc + c) * W) (cstate k)) E s1
    (fun r s' => exists x', r = Next (x', bool_decide (S k < Z.to_nat W)%nat) /\ x' = cstate (S k) /\
       TN s' (prog VU ws (Z.to_nat ((b * nc + c) * W) + S k)) /\ rpos s' = rpos s).
Proof using Hok Hsd Hnn HA Hn0 Hn1 Hin HlenA Hout HlenW HW.
  intros Hb Hc Hwin Hf1' Hk HT1 Hr1. 
  pose proof W_pos as HWp. pose proof P_nonneg as HPn.
  assert (prodZ dims = nb * (nc * P)) as Edims by (unfold dims; by rewrite !prodZ_cons).
  assert (prodZ odims = nb * (nc * W)) as Eodims by (unfold odims; by rewrite !prodZ_cons).
  destruct (cell_bound nb nc b c P Hb Hc HPn) as (Hbn & HbP1 & HbP2).
  destruct (cell_bound nb nc b c W Hb Hc ltac:(lia)) as (_ & HbW1 & HbW2).
  assert (0 <= c * P) as HcP by nia. assert (0 <= c * W) as HcW by nia.
  assert ((b * nc + c) * P = b * (nc * P) + c * P) as EP by ring.
  assert ((b * nc + c) * W = b * (nc * W) + c * W) as EW by ring.
  assert (0 <= b * (nc * P)) as HbP by (repeat apply Z.mul_nonneg_nonneg; lia).
  assert (0 <= b * (nc * W)) as HbW by (repeat apply Z.mul_nonneg_nonneg; lia).
  pose proof (win_outs_length _ _ _ _ _ Hok) as Lo. fold os n in Lo.

  set (B := (b * nc + c) * P) in *. set (O := (b * nc + c) * W) in *.
  unfold cbody, cstate. cbv beta match.
  destruct Hwin as (ds & w & Hds & Hw & Hws).
  eapply wp_step.
  { eapply (pool_window_ok Hok Hsd Hnn s1 B (Z.of_nat k) ds); [|done| | |done|unfold W in Hk; fold os; lia|exact Hds].
    - eapply tnew_lookup; [exact HT1|exact HA].
    - fold P. llia.
    - fold P. lia. }
  cbv beta match.
  eapply wp_step.
  { apply (aget_Z _ _ 1); [lia|]. replace (Z.to_nat (Z.of_nat n + 1)) with (S n) by lia.
    unfold odims. rewrite suffs_lookup by (cbn [length]; lia). cbn [drop].
    rewrite drop_ge by lia. done. }
  rewrite Z.mul_1_r.
  eapply wp_step; [apply ck64_ok; llia|].
  eapply wp_step; [apply ck64_ok; llia|].
  rewrite dispatch_all_t.
  assert (ws !! (Z.to_nat O + k)%nat = Some w) as Hwk.
  { rewrite <-Hws. f_equal. lia. }
  assert (length (prog VU ws (Z.to_nat O + k)) = length ws) as Lpr.
  { unfold prog. rewrite app_length, take_length, replicate_length. lia. }
  assert (exists s2, pool_output m t (HPtr px) (Z.of_nat k + O) (foldl (pstep m) fzero ds) (prodZ ks) E s1 = Done tt s2 /\
    TN s2 (prog VU ws (Z.to_nat O + S k)) /\ rpos s2 = rpos s) as (s2 & Ho & HT2 & Hr2).
  { assert (m = POther \/ m <> POther) as [Em|Hm] by (clear; destruct m; auto).
    - exists s1. rewrite Em in Hw |- *. split; [done|]. split; [|done]. injection Hw as <-.
      rewrite <-plus_n_Sm, <-(prog_step _ _ _ _ Hwk), list_insert_id; [done|].
      unfold prog. rewrite lookup_app_r; rewrite take_length; [|lia].
      apply lookup_replicate_2. apply lookup_lt_Some in Hwk. lia.
    - eexists. split.
      { rewrite (pool_output_ok _ _ _ _ _ _ w) by done.
        replace (Z.of_nat k + O) with (Z.of_nat (Z.to_nat O + k)) by lia.
        eapply tnew_storei; [exact HT1|]. rewrite Lpr. by eapply lookup_lt_Some. }
      rewrite (prog_step _ _ _ _ Hwk). split; [|done]. rewrite <-plus_n_Sm. by eapply tnew_upd. }
  eapply wp_step; [exact Ho|].
  eapply wp_step.
  { rewrite Nat2Z.id. apply (pool_slide_ok Hok); [done|]. fold os. unfold W in Hk. lia. }
  cbv beta match. fold os.
  eapply wp_step; [apply ck32_ok; llia|].
  apply wp_ret. eexists. split.
  { do 2 f_equal. fold W. apply eq_true_iff_eq. rewrite bool_decide_eq_true. lia. }
  split_and!.
  + replace (Z.of_nat (S k)) with (Z.of_nat k + 1) by lia. done.
  + exact HT2.
  + done.
Qed.

(** the window at [k] whose result does not fit *)
Lemma channel_stuck1 s b c k : 0 <= b < nb -> 0 <= c < nc ->
  (Z.to_nat (prodZ ks) <= e_fuel E)%nat -> (k < Z.to_nat W)%nat ->
  (exists vs, TN s vs) ->
  (exists ds, Forall2 (fun v d => to_double t v = Some d)
       (omap (welem (sd := sd) (ss := ss) (ps := ps) (ls := ls) (vA := vA) ((b * nc + c) * P) (unravel os (Z.of_nat k))) (coords ks)) ds /\
     pout m t (prodZ ks) (foldl (pstep m) fzero ds) = None) ->
  cbody ((b * nc + c) * P) ((b * nc + c) * W) (cstate k) E s = UB UB_fconv.
Proof using Hok Hsd Hnn HA Hn0 Hn1 Hin HlenA Hout HlenW HW.
  intros Hb Hc Hf1' Hk [vs HT1] (ds & Hds & Hw).
  pose proof W_pos as HWp. pose proof P_nonneg as HPn.
  assert (prodZ dims = nb * (nc * P)) as Edims by (unfold dims; by rewrite !prodZ_cons).
  assert (prodZ odims = nb * (nc * W)) as Eodims by (unfold odims; by rewrite !prodZ_cons).
  destruct (cell_bound nb nc b c P Hb Hc HPn) as (Hbn & HbP1 & HbP2).
  destruct (cell_bound nb nc b c W Hb Hc ltac:(lia)) as (_ & HbW1 & HbW2).
  pose proof (win_outs_length _ _ _ _ _ Hok) as Lo. fold os n in Lo.
  set (B := (b * nc + c) * P) in *. set (O := (b * nc + c) * W) in *.
  unfold cbody, cstate. cbv beta match.
  eapply ub_step.
  { eapply (pool_window_ok Hok Hsd Hnn s B (Z.of_nat k) ds); [|done| | |done|unfold W in Hk; fold os; lia|exact Hds].
    - eapply tnew_lookup; [exact HT1|exact HA].
    - fold P. llia.
    - fold P. lia. }
  cbv beta match.
  eapply ub_step.
  { apply (aget_Z _ _ 1); [lia|]. replace (Z.to_nat (Z.of_nat n + 1)) with (S n) by lia.
    unfold odims. rewrite suffs_lookup by (cbn [length]; lia). cbn [drop].
    rewrite drop_ge by lia. done. }
  rewrite Z.mul_1_r.
  eapply ub_step; [apply ck64_ok; llia|].
  eapply ub_step; [apply ck64_ok; llia|].
  rewrite dispatch_all_t. apply bind_UB.
  destruct m; cbn [pool_output pout pfin] in *; [| |done]; rewrite Hw; done.
Qed.

Lemma channel_part s b c j0 :
  0 <= b < nb -> 0 <= c < nc -> (j0 < Z.to_nat W)%nat ->
  (Z.to_nat (prodZ ks) <= e_fuel E)%nat -> (Z.to_nat W <= e_fuel E)%nat ->
  TN s (prog VU ws (Z.to_nat ((b * nc + c) * W))) ->
  (forall k, (k < j0)%nat -> cell b c (Z.of_nat k)) ->
  (exists ds, Forall2 (fun v d => to_double t v = Some d)
       (omap (welem (sd := sd) (ss := ss) (ps := ps) (ls := ls) (vA := vA) ((b * nc + c) * P) (unravel os (Z.of_nat j0))) (coords ks)) ds /\
     pout m t (prodZ ks) (foldl (pstep m) fzero ds) = None) ->
  pool_channel m (dtype_of t) (HPtr bA) (HPtr px) (Z.of_nat n) dims (suffs dims) (suffs odims)
        ks ss ps ls (prodZ ks) b c E s = UB UB_fconv.
Proof using Hok Hsd Hnn HA Hn0 Hn1 Hin HlenA Hout HlenW HW.
  intros Hb Hc Hj0 Hf1 Hf2 HT Hpre Hbad.
  erewrite (pool_channel_start Hok Hsd Hnn HA Hn0 Hn1 Hin HlenA Hout HlenW HW s b c) by lia.
  apply bind_UB. fold os dims odims n P W. unfold while_ret.
  apply (while_ret_fuel_ub (fun k x s' => x = cstate k /\
      TN s' (prog VU ws (Z.to_nat ((b * nc + c) * W) + k)) /\ rpos s' = rpos s) _ (Z.to_nat W) j0) with (k := 0%nat);
    [done| | |lia|lia|].
  - intros k x s1 Hk (-> & HT1 & Hr1). apply (channel_step1 s b c k s1); try done; [by apply Hpre|lia].
  - intros x s1 (-> & HT1 & Hr1). apply (channel_stuck1 s1 b c j0); try done. eauto.
  - split_and!; [done|by rewrite Nat.add_0_r|done].
Qed.

Lemma channel_whole s b c :
  0 <= b < nb -> 0 <= c < nc ->
  (Z.to_nat (prodZ ks) <= e_fuel E)%nat -> (Z.to_nat W <= e_fuel E)%nat ->
  TN s (prog VU ws (Z.to_nat ((b * nc + c) * W))) ->
  (forall j, 0 <= j < W -> cell b c j) ->
  wp (pool_channel m (dtype_of t) (HPtr bA) (HPtr px) (Z.of_nat n) dims (suffs dims) (suffs odims)
        ks ss ps ls (prodZ ks) b c) E s
     (fun r s' => r = Next tt /\ TN s' (prog VU ws (Z.to_nat ((b * nc + c) * W + W))) /\ rpos s' = rpos s).
Proof using Hok Hsd Hnn HA Hn0 Hn1 Hin HlenA Hout HlenW HW.
  intros Hb Hc Hf1 Hf2 HT Hall.
  by apply (pool_channel_ok Hok Hsd Hnn HA Hn0 Hn1 Hin HlenA Hout HlenW HW).
Qed.

(** all channels of all images, up to the one that fails *)
Lemma images_part s pi pt ph b0 c0 j0 :
  (Z.to_nat (prodZ ks) <= e_fuel E)%nat -> (Z.to_nat W <= e_fuel E)%nat ->
  is_Some (base !! pi) -> is_Some (base !! pt) -> is_Some (base !! ph) ->
  TN s (replicate (length ws) VU) ->
  0 <= b0 < nb -> 0 <= c0 < nc -> (j0 < Z.to_nat W)%nat ->
  (forall b c j, 0 <= b < nb -> 0 <= c < nc -> 0 <= j < W ->
     (b * nc + c) * W + j < (b0 * nc + c0) * W + Z.of_nat j0 -> cell b c j) ->
  (exists ds, Forall2 (fun v d => to_double t v = Some d)
       (omap (welem (sd := sd) (ss := ss) (ps := ps) (ls := ls) (vA := vA) ((b0 * nc + c0) * P) (unravel os (Z.of_nat j0))) (coords ks)) ds /\
     pout m t (prodZ ks) (foldl (pstep m) fzero ds) = None) ->
  iter_ret (Z.to_nat nb) 0 (fun s _ =>
            touch (HPtr pi) ;;; touch (HPtr pt) ;;; touch (HPtr ph) ;;;
            iter_ret (Z.to_nat nc) 0 (fun c _ =>
              pool_channel m (dtype_of t) (HPtr bA) (HPtr px) (Z.of_nat n) dims (suffs dims) (suffs odims)
                ks ss ps ls (prodZ ks) s c) tt) tt E s = UB UB_fconv.
Proof using Hok Hsd Hnn HA Hn0 Hn1 Hin HlenA Hout HlenW HW.
  intros Hf1 Hf2 Hpi Hpt Hph HT Hb0 Hc0 Hj0 Hpre Hbad.
  pose proof W_pos as HWp.
  assert (forall p s', is_Some (base !! p) -> forall vs, TN s' vs -> touch (HPtr p) E s' = Done tt s') as Htouch.
  { intros p s' [x Hx] vs HT'. eapply touch_ok. eapply tnew_lookup; [exact HT'|exact Hx]. }
  apply (iter_ret_ub (fun b (_ : unit) s' =>
      TN s' (prog VU ws (Z.to_nat (Z.of_nat b * nc * W))) /\ rpos s' = rpos s) E _ 0 _ tt s (Z.to_nat b0)); [lia| | |].
  - split; [|done]. change (Z.of_nat 0) with 0. rewrite !Z.mul_0_l, prog_0. done.
  - intros b [] s1 Hb [HT1 Hr1]. rewrite Z.add_0_l.
    eapply wp_step; [by eapply Htouch|].
    eapply wp_step; [by eapply Htouch|].
    eapply wp_step; [by eapply Htouch|].
    eapply wp_mono.
    + apply (iter_ret_rule (fun c (_ : unit) s' =>
        TN s' (prog VU ws (Z.to_nat ((Z.of_nat b * nc + Z.of_nat c) * W))) /\ rpos s' = rpos s)).
      { split; [|done]. by rewrite Z.add_0_r. }
      intros c [] s2 Hc [HT2 Hr2]. rewrite Z.add_0_l.
      eapply wp_mono.
      * eapply channel_whole; [lia|lia|done|done|exact HT2|]. intros j Hj. apply Hpre; [lia|lia|done|].
        assert (Z.of_nat b + 1 <= b0) as Hbb by lia. assert ((Z.of_nat b + 1) * nc <= b0 * nc) by nia.
        assert ((Z.of_nat b * nc + Z.of_nat c + 1) * W <= (b0 * nc + c0) * W) by nia. lia.
      * intros r s3 (-> & HT3 & Hr3). exists tt. split; [done|]. split; [|congruence].
        replace ((Z.of_nat b * nc + Z.of_nat (S c)) * W) with ((Z.of_nat b * nc + Z.of_nat c) * W + W)
          by (rewrite Nat2Z.inj_succ; ring). done.
    + intros r s2 ([] & -> & HT2 & Hr2). exists tt. split; [done|]. split; [|done].
      replace (Z.of_nat (S b) * nc * W) with ((Z.of_nat b * nc + Z.of_nat (Z.to_nat nc)) * W)
        by (rewrite Nat2Z.inj_succ, Z2Nat.id by lia; ring). done.
  - intros [] s1 [HT1 Hr1]. rewrite Z.add_0_l, Z2Nat.id by lia. rewrite Z2Nat.id in HT1 by lia.
    eapply ub_step; [by eapply Htouch|].
    eapply ub_step; [by eapply Htouch|].
    eapply ub_step; [by eapply Htouch|].
    apply (iter_ret_ub (fun c (_ : unit) s' =>
        TN s' (prog VU ws (Z.to_nat ((b0 * nc + Z.of_nat c) * W))) /\ rpos s' = rpos s) E _ 0 _ tt s1 (Z.to_nat c0)); [lia| | |].
    + split; [|done]. by rewrite Z.add_0_r.
    + intros c [] s2 Hc [HT2 Hr2]. rewrite Z.add_0_l.
      eapply wp_mono.
      * eapply channel_whole; [lia|lia|done|done|exact HT2|]. intros j Hj. apply Hpre; [lia|lia|done|].
        assert ((b0 * nc + Z.of_nat c + 1) * W <= (b0 * nc + c0) * W) by nia. lia.
      * intros r s3 (-> & HT3 & Hr3). exists tt. split; [done|]. split; [|congruence].
        replace ((b0 * nc + Z.of_nat (S c)) * W) with ((b0 * nc + Z.of_nat c) * W + W)
          by (rewrite Nat2Z.inj_succ; ring). done.
    + intros [] s2 [HT2 Hr2]. rewrite Z.add_0_l, Z2Nat.id by lia. rewrite Z2Nat.id in HT2 by lia.
      apply (channel_part s2 b0 c0 j0); try done. intros k Hk. apply Hpre; [done|done|lia|lia].
Qed.
End channel.

(** one result that does not exist is enough *)
Lemma pooling_stuck m p T nb nc sd ks ss ps ls o E s :
  wf s -> alloc_all E -> holds (heap s) p T -> init T ->
  a_dims T = nb :: nc :: sd -> (1 <= length sd <= 3)%nat -> win_ok sd ks ss ps ls ->
  prodZ ks <= INT64_MAX -> prodZ (win_outs sd ks ss ps ls) <= INT_MAX ->
  (Z.to_nat (prodZ ks) <= e_fuel E)%nat -> (Z.to_nat (prodZ (win_outs sd ks ss ps ls)) <= e_fuel E)%nat ->
  fits (tsz (a_type T)) (nb :: nc :: win_outs sd ks ss ps ls) ->
  (exists b c x, in_box (nb :: nc :: win_outs sd ks ss ps ls) (b :: c :: x) /\
     pool_value m (a_type T) (prodZ ks) (window T ks ss ps ls b c x) = None) ->
  aitisa_pooling (HPtr p) m ks ss ps ls o E s = UB UB_fconv.
Proof.
  intros Hwf HE HT Hin Hdim Hrank Hok Hks Hos Hf1 Hf2 Hfit3 Hbad.
  set (os := win_outs sd ks ss ps ls) in *.
  pose proof (holds_valid _ _ _ HT) as HvT. pose proof (valid_len _ HvT) as HlenA.
  pose proof HvT as [Hfit _].
  pose proof HT as HT0.
  destruct HT as (_ & bA & tgA & exA & Hv & Hx).
  rewrite Hdim in *. set (t := a_type T) in *.
  pose proof (win_outs_length _ _ _ _ _ Hok) as Lo. fold os in Lo.
  pose proof (win_outs_pos _ _ _ _ _ Hok) as Hop. fold os in Hop.
  destruct (win_ok_length _ _ _ _ _ Hok) as (L1 & L2 & L3 & L4).
  assert (Forall (fun d => 0 <= d) (nb :: nc :: sd)) as Hnn by apply Hfit.
  apply Forall_cons in Hnn as [Hn0 Hnn]. apply Forall_cons in Hnn as [Hn1 Hnn].
  assert (sd <> []) as Hsd by (intros ->; cbn in Hrank; lia).
  unfold aitisa_pooling. eapply ub_step; [by eapply tensor_ndim_ok|].
  replace ((2 <? Z.of_nat (length (nb :: nc :: sd))) && (Z.of_nat (length (nb :: nc :: sd)) <? 6)) with true
    by (cbn [length]; lia).
  unfold pooling_double.
  eapply ub_step; [by eapply tensor_ndim_ok|].
  eapply ub_step; [by eapply tensor_dims_ok|].
  set (n := Z.of_nat (length (nb :: nc :: sd))).
  assert (0 <= 8 * n <= PTRDIFF_MAX) as Hsz by (unfold n; cbn [length]; llia).
  eapply ub_scr0; [done|done|done|apply frame_nil|]. intros c1 s1 W1 F1 R1 C1 S1.
  eapply ub_scr0; [done|done|done|exact F1|]. intros c2 s2 W2 F2 R2 C2 S2.
  eapply ub_scr0; [done|done|done|exact F2|]. intros c3 s3 W3 F3 R3 C3 S3.
  eapply ub_scr0; [done|done|done|exact F3|]. intros c4 s4 W4 F4 R4 C4 S4.
  eapply ub_scr0; [done|done|done|exact F4|]. intros c5 s5 W5 F5 R5 C5 S5.
  eapply ub_scr0; [done|done|done|exact F5|]. intros c6 s6 W6 F6 R6 C6 S6.
  eapply ub_step.
  { apply (pool_check_ok nb nc sd ks ss ps ls); [done|]. unfold n. cbn [length]. lia. }
  cbv beta match.
  eapply ub_step; [eapply touch_frame0; [exact F6|]; repeat (first [left|right])|].
  assert (heap s ⊆ heap s6) as S06 by (by eapply frame_sub).
  pose proof (view_mono _ _ _ _ _ _ _ _ S06 Hv) as Hv6.
  pose proof (lookup_weaken _ _ _ _ Hx S06) as Hx6.
  destruct (create_t_ok t (a_dev T) (nb :: nc :: os) HUndef E s6 W6 Hfit3 HE)
    as (s7 & q & pd & pm & pst & px & Hcr & Ht7 & R7).
  eapply ub_step.
  { rewrite (pooling_create_ok Hv6 Hok). exact Hcr. }
  cbv beta match. rewrite bool_decide_eq_true_2 by done. cbn [negb].
  eapply ub_step.
  { apply window_size_ok; [by eapply win_ks_pos|done|]. unfold n. cbn [length]. lia. }
  assert (touch (HPtr c3) E s7 = Done tt s7) as HT3.
  { eapply touch_frame; [exact Ht7|exact F6|]. rewrite !elem_of_cons. tauto. }
  assert (touch (HPtr c4) E s7 = Done tt s7) as HT4.
  { eapply touch_frame; [exact Ht7|exact F6|]. rewrite !elem_of_cons. tauto. }
  pose proof (view_mono _ _ _ _ _ _ _ _ (tnew_base _ _ Ht7) Hv6) as Hv7.
  pose proof (tnew_view _ _ Ht7) as Hv7'.
  eapply ub_step; [exact HT3|].
  eapply ub_step.
  { erewrite all_strides; [by rewrite strides_suffs|exact Hv7|apply (tsz_pos t)|exact Hfit|apply rowmajor_layout|].
    unfold n. rewrite replicate_length. lia. }
  eapply ub_step; [exact HT4|].
  eapply ub_step.
  { erewrite all_strides; [by rewrite strides_suffs|exact Hv7'|apply (tsz_pos t)|exact Hfit3|apply rowmajor_layout|].
    unfold n. rewrite replicate_length. cbn [length]. lia. }
  eapply ub_step; [by eapply tensor_data_ok|].
  eapply ub_step; [by eapply tensor_data_ok|].
  eapply ub_step; [by eapply tensor_dtype_ok|].
  eapply ub_step; [by apply (aget_nat _ 0)|].
  eapply ub_step; [by apply (aget_nat _ 1)|].
  replace (n - 2) with (Z.of_nat (length sd)) by (unfold n; cbn [length]; lia).
  apply bind_UB.
  pose proof (prodZ_pos _ Hop) as HWp. set (W := prodZ os) in *.
  (* every window can be read *)
  assert (forall b c x, 0 <= b < nb -> 0 <= c < nc -> exists ds,
    Forall2 (fun v d => to_double t v = Some d)
       (omap (welem (sd := sd) (ss := ss) (ps := ps) (ls := ls) (vA := a_vals T) ((b * nc + c) * prodZ sd) x) (coords ks)) ds /\
    pool_value m t (prodZ ks) (window T ks ss ps ls b c x) = pout m t (prodZ ks) (foldl (pstep m) fzero ds)) as Hread.
  { intros b c x Hb Hc. rewrite <-(window_elems T nb nc sd) by done.
    pose proof (window_forall _ T nb nc sd ks ss ps ls b c x HvT Hdim Hb Hc Hin) as Hw.
    destruct (mapM_total (to_double t) (fun _ => True) (window T ks ss ps ls b c x)) as (ds & Hds & _).
    { eapply Forall_impl; [exact Hw|]. intros v Hvx. fold t in Hvx. unfold to_double.
      destruct v as [z|g|]; cbn in Hvx; [destruct Hvx as [-> _]; eauto|destruct Hvx as [-> _]; eauto|done]. }
    exists ds. split; [by apply mapM_Some|]. unfold pool_value. by rewrite Hds. }
  set (f := fun q : nat => let q := Z.of_nat q in
    pool_value m t (prodZ ks) (window T ks ss ps ls (q / W / nc) ((q / W) mod nc) (unravel os (q mod W)))).
  set (N := Z.to_nat (prodZ (nb :: nc :: os))).
  assert (forall b c j, 0 <= b < nb -> 0 <= c < nc -> 0 <= j < W ->
    f (Z.to_nat ((b * nc + c) * W + j)) = pool_value m t (prodZ ks) (window T ks ss ps ls b c (unravel os j)) /\
    (Z.to_nat ((b * nc + c) * W + j) < N)%nat) as Hf.
  { intros b c j Hb Hc Hj. destruct (cell_bound nb nc b c W Hb Hc ltac:(lia)) as (G1 & G2 & G3).
    split; [|unfold N; rewrite !prodZ_cons; fold W; lia].
    unfold f. cbv zeta. rewrite Z2Nat.id by lia.
    replace (((b * nc + c) * W + j) / W) with (b * nc + c).
    2:{ rewrite Z.div_add_l by lia. rewrite Z.div_small by lia. lia. }
    replace (((b * nc + c) * W + j) mod W) with j.
    2:{ rewrite Z.add_comm, Z.mod_add by lia. by rewrite Z.mod_small. }
    rewrite Z.div_add_l by lia. rewrite (Z.div_small c nc) by lia. rewrite Z.add_0_r.
    rewrite (Z.add_comm (b * nc) c), Z.mod_add by lia. by rewrite (Z.mod_small c nc). }
  destruct (first_index (fun q => negb (bool_decide (is_Some (f q)))) N) as [Hall|(q0 & Hq0 & Hq0b & Hq0p)].
  { exfalso. destruct Hbad as (b & c & x & Hbx & Hnone).
    inversion Hbx as [|? ? ? ? Hb Hbx']; subst. inversion Hbx' as [|? ? ? ? Hc Hx']; subst.
    pose proof (ravel_bound _ _ Hx') as Hr. destruct (Hf b c (ravel os x) Hb Hc Hr) as [Hf1' Hf2'].
    specialize (Hall _ Hf2'). rewrite Hf1' in Hall. rewrite unravel_ravel in Hall by done.
    rewrite Hnone in Hall. rewrite bool_decide_eq_false_2 in Hall; [done|]. by intros [? ?]. }
  set (qz := Z.of_nat q0).
  assert (0 < nb /\ 0 < nc) as [Hb1 Hc1].
  { unfold N in Hq0. rewrite !prodZ_cons in Hq0. fold W in Hq0. nia. }
  set (b0 := qz / W / nc). set (c0 := (qz / W) mod nc). set (j0 := Z.to_nat (qz mod W)).
  assert (0 <= qz / W) as HqW by (apply Z.div_pos; lia).
  assert (0 <= c0 < nc) as Hc0 by (apply Z.mod_pos_bound; lia).
  assert (0 <= qz mod W < W) as Hj0 by (apply Z.mod_pos_bound; lia).
  assert (qz = (b0 * nc + c0) * W + qz mod W) as Eq.
  { unfold b0, c0. rewrite (Z.mul_comm (qz / W / nc)), <-Z.div_mod by lia. rewrite Z.mul_comm. apply Z.div_mod. lia. }
  assert (0 <= b0 < nb) as Hb0.
  { split; [apply Z.div_pos; lia|]. apply Z.div_lt_upper_bound; [lia|]. apply Z.div_lt_upper_bound; [lia|].
    unfold N in Hq0. rewrite !prodZ_cons in Hq0. fold W in Hq0. nia. }
  set (ws := (fun i => default VU (f i)) <$> seq 0 N).
  assert (Z.of_nat (length ws) = prodZ (nb :: nc :: os)) as Hlen3.
  { unfold ws. rewrite fmap_length, seq_length. unfold N. rewrite Z2Nat.id; [done|]. apply prodZ_nonneg.
    repeat constructor; [lia|lia|]. eapply Forall_impl; [exact Hop|]. cbn. lia. }
  eapply (images_part Hok Hsd Hnn Hx6 (ws := ws)) with (b0 := b0) (c0 := c0) (j0 := j0);
    [done|done| |exact HlenA| |exact Hlen3|done|done|done| | | | |done|done| | |].
  - rewrite <-Hdim. pose proof (fits_size _ _ (tsz_pos t) Hfit) as Hz. rewrite Hdim. lia.
  - pose proof (fits_size _ _ (tsz_pos t) Hfit3). fold os. lia.
  - destruct (frame_lookup _ _ c2 F6) as (y & Hy & _); [rewrite !elem_of_cons; tauto|eauto].
  - destruct (frame_lookup _ _ c6 F6) as (y & Hy & _); [rewrite !elem_of_cons; tauto|eauto].
  - destruct (frame_lookup _ _ c5 F6) as (y & Hy & _); [rewrite !elem_of_cons; tauto|eauto].
  - replace (length ws) with (Z.to_nat (prodZ (nb :: nc :: os))) by lia. exact Ht7.
  - unfold j0. fold os W. lia.
  - fold os W. intros b c j Hb Hc Hj Hlt. destruct (Hread b c (unravel os j) Hb Hc) as (ds & Hds & Hpv).
    destruct (Hf b c j Hb Hc Hj) as [Hfq HfN]. destruct (cell_bound nb nc b c W Hb Hc ltac:(lia)) as (G1 & G2 & G3).
    specialize (Hq0p (Z.to_nat ((b * nc + c) * W + j)) ltac:(unfold j0 in Hlt; lia)). rewrite Hfq in Hq0p.
    apply negb_false_iff, bool_decide_eq_true_1 in Hq0p as [w Hw].
    exists ds, w. split; [done|]. split; [congruence|].
    unfold ws. rewrite list_lookup_fmap, lookup_seq_lt by done. cbn. by rewrite Hfq, Hw.
  - fold os W. destruct (Hread b0 c0 (unravel os (Z.of_nat j0)) Hb0 Hc0) as (ds & Hds & Hpv).
    exists ds. split; [done|]. rewrite <-Hpv. unfold j0. rewrite Z2Nat.id by lia.
    destruct (Hf b0 c0 (qz mod W) Hb0 Hc0 Hj0) as [Hfq _]. rewrite <-Hfq. rewrite <-Eq. unfold qz. rewrite Nat2Z.id.
    destruct (f q0) as [w|]; [|done]. rewrite bool_decide_eq_true_2 in Hq0b by eauto. done.
Qed.

(** every result exists *)
Lemma pooling_defined m p T nb nc sd ks ss ps ls o E s :
  wf s -> alloc_all E -> hooks_ok E -> holds (heap s) p T ->
  a_dims T = nb :: nc :: sd -> (1 <= length sd <= 3)%nat -> win_ok sd ks ss ps ls ->
  prodZ ks <= INT64_MAX -> prodZ (win_outs sd ks ss ps ls) <= INT_MAX ->
  (Z.to_nat (prodZ ks) <= e_fuel E)%nat -> (Z.to_nat (prodZ (win_outs sd ks ss ps ls)) <= e_fuel E)%nat ->
  fits (tsz (a_type T)) (nb :: nc :: win_outs sd ks ss ps ls) ->
  (forall b c x, in_box (nb :: nc :: win_outs sd ks ss ps ls) (b :: c :: x) ->
     pool_value m (a_type T) (prodZ ks) (window T ks ss ps ls b c x) <> None) ->
  exists T3, a_type T3 = a_type T /\ a_dev T3 = a_dev T /\
    a_dims T3 = nb :: nc :: win_outs sd ks ss ps ls /\ valid T3 /\
    (forall b c x, in_box (a_dims T3) (b :: c :: x) ->
       pool_value m (a_type T) (prodZ ks) (window T ks ss ps ls b c x) = Some (at_ T3 (b :: c :: x))) /\
    makes (aitisa_pooling (HPtr p) m ks ss ps ls o) E s T3.
Proof.
  intros Hwf HE HH HT Hdim Hrank Hok Hks Hos Hf1 Hf2 Hfit Hsome.
  destruct (tab_choose (a_type T) (a_dev T) (nb :: nc :: win_outs sd ks ss ps ls)
    (fun x => pool_value m (a_type T) (prodZ ks)
      (window T ks ss ps ls (default 0 (x !! 0%nat)) (default 0 (x !! 1%nat)) (drop 2 x))) Hfit)
    as (T3 & Hv & Ht & Hdv & Hds & H3).
  { intros x Hx. inversion Hx as [|? b ? y Hb Hy]; subst. inversion Hy as [|? c ? z Hc Hz]; subst.
    specialize (Hsome b c z Hx). cbn. by destruct (pool_value _ _ _ _). }
  assert (forall b c x, in_box (a_dims T3) (b :: c :: x) ->
       pool_value m (a_type T) (prodZ ks) (window T ks ss ps ls b c x) = Some (at_ T3 (b :: c :: x))) as Hval.
  { intros b c x Hx. rewrite Hds in Hx. exact (H3 _ Hx). }
  exists T3. split_and!; [done..|]. by eapply pooling_rule_any.
Qed.
