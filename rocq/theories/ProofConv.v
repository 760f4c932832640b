(** * ProofConv: src/nn/conv.c *)
From stdpp Require Import gmap list.
From Coq Require Import ZArith Lia Floats.SpecFloat.
From Coq Require Import ZifyBool ZifyNat.
From Verif Require Import Base Mem Spec SpecNN SpecConv ModelCore ModelBasic ModelMath ModelNN Logic
  ProofCore ProofCore2 ProofCore3 ProofIndex ProofLayout ProofKernel ProofKernel2 ProofBasic ProofBasic2 ProofSlice
  ProofFrame ProofMatmul ProofDot4 ProofSoftmax ProofFloat5 ProofWindow ProofPool ProofPool2 ProofConvWin.
Open Scope Z_scope.

Ltac Zify.zify_post_hook ::= Z.div_mod_to_equations.

Lemma mac_all_app t c l1 l2 : mac_all t c (l1 ++ l2) = mac_all t c l1 ≫= fun c => mac_all t c l2.
Proof.
  unfold mac_all. rewrite foldl_app. destruct (foldl _ (Some c) l1) as [c'|]; [done|]. cbn.
  induction l2 as [|[x y] l2 IH]; [done|]. exact IH.
Qed.
Lemma mac_all_none t l : foldl (fun c '(x, y) => c ≫= fun c => mac_val t c x y) None l = None.
Proof. induction l as [|[x y] l IH]; [done|]. exact IH. Qed.
Lemma mac_all_take t c l k w : mac_all t c l = Some w -> is_Some (mac_all t c (take k l)).
Proof.
  intros H. rewrite <-(take_drop k l), mac_all_app in H.
  destruct (mac_all t c (take k l)); [eauto|done].
Qed.

(** ** Sizes *)
Lemma prodZ_take_le (sd : list Z) k : Forall (fun d => 0 < d) sd -> 0 < prodZ (take k sd) <= prodZ sd.
Proof.
  intros Hp. assert (0 < prodZ (take k sd)) by (apply prodZ_pos; by apply Forall_take).
  assert (prodZ sd = prodZ (take k sd) * prodZ (drop k sd)) as He by (by rewrite <-prodZ_app, take_drop).
  assert (0 < prodZ (drop k sd)) by (apply prodZ_pos; by apply Forall_drop). nia.
Qed.
Lemma size_from_dim_ok nb nc sd n E s :
  Forall (fun d => 0 < d) sd -> prodZ sd <= INT64_MAX -> Z.of_nat (length sd) + 2 <= INT_MAX ->
  n = Z.of_nat (length sd) + 2 ->
  size_from_dim 2 (nb :: nc :: sd) n E s = Done (prodZ sd) s.
Proof.
  intros Hpos Hmax Hlen ->. unfold size_from_dim. rewrite to_int_id by llia.
  rewrite (for64_pure (fun k => prodZ (take k sd)) _ _ _ (length sd)).
  - by rewrite take_ge by lia.
  - by rewrite take_0, prodZ_nil.
  - lia.
  - intros k Hk. destruct (lookup_lt_is_Some_2 sd k Hk) as [d Hd].
    erewrite bind_done.
    2:{ apply aget_Z; [lia|]. replace (Z.to_nat (2 + Z.of_nat k)) with (S (S k)) by lia. exact Hd. }
    rewrite (prodZ_take_S _ _ _ Hd). apply ck64_ok. rewrite <-(prodZ_take_S _ _ _ Hd).
    pose proof (prodZ_take_le sd (S k) Hpos). llia.
Qed.

Lemma quot_div z s : 0 <= z -> 0 < s -> Z.quot z s = z / s.
Proof. intros. by apply Z.quot_div_nonneg. Qed.

Lemma aget2 {A} (a b : A) (l : list A) (k : nat) x E s : l !! k = Some x ->
  aget (a :: b :: l) (2 + Z.of_nat k) E s = Done x s.
Proof. intros H. apply aget_Z; [lia|]. by replace (Z.to_nat (2 + Z.of_nat k)) with (S (S k)) by lia. Qed.
Lemma aset2 {A} (a b : A) (l : list A) (k : nat) x E s : (k < length l)%nat ->
  aset (a :: b :: l) (2 + Z.of_nat k) x E s = Done (a :: b :: <[k := x]> l) s.
Proof.
  intros H. replace (2 + Z.of_nat k) with (Z.of_nat (S (S k))) by lia.
  rewrite aset_nat by (cbn; lia). done.
Qed.
Lemma aset0 {A} (a b : A) (l : list A) x E s : aset (a :: b :: l) 0 x E s = Done (x :: b :: l) s.
Proof. apply (aset_nat (a :: b :: l) 0). cbn. lia. Qed.
Lemma aset1 {A} (a b : A) (l : list A) x E s : aset (a :: b :: l) 1 x E s = Done (a :: x :: l) s.
Proof. apply (aset_nat (a :: b :: l) 1). cbn. lia. Qed.

Section conv.
Context {sd ks ss ps ls : list Z} (Hok : cv_ok sd ks ss ps ls).
Let os := cv_outs sd ks ss ps ls.
Let n := length sd.

Lemma conv_output_dims_ok nb nc oc fc E s :
  conv_output_dims (nb :: nc :: sd) (oc :: fc :: ks) ss ps ls (Z.of_nat n + 2) E s
  = Done (nb :: oc :: os) s.
Proof using Hok.
  destruct (cv_ok_length _ _ _ _ _ Hok) as (L1 & L2 & L3 & L4).
  pose proof (cv_outs_length _ _ _ _ _ Hok) as Lo. fold os n in Lo.
  unfold conv_output_dims.
  erewrite bind_done by (by apply (aget_nat _ 0)).
  erewrite bind_done by (by apply (aget_nat _ 0)).
  rewrite (for64_pure (fun k => nb :: oc :: take k os) _ _ _ n).
  - by rewrite take_ge by lia.
  - by rewrite take_0.
  - lia.
  - intros i Hi.
    destruct (cv_get _ _ _ _ _ i Hok Hi) as (d & k & st & p & l & Hd & Hk & Hs & Hp & Hl & Hok1 & He).
    fold os in He.
    replace (2 + Z.of_nat i - 2) with (Z.of_nat i) by lia.
    destruct Hok1 as ((H1 & H2 & H3 & H4 & H5 & H6 & H7) & H8).
    assert (0 <= l * (k - 1)) as Hkl by nia. assert (k - 1 <= l * (k - 1)) as Hk1 by nia.
    erewrite bind_done by (by apply aget_nat).
    erewrite bind_done by (by apply aget2).
    erewrite bind_done by (apply ck64_ok; llia).
    erewrite bind_done by (apply ck64_ok; llia).
    erewrite bind_done by (apply ck64_ok; llia).
    erewrite bind_done by (by apply aget2).
    erewrite bind_done by (by apply aget_nat).
    erewrite bind_done by (apply ck32_ok; llia).
    erewrite bind_done by (apply ck64_ok; llia).
    erewrite bind_done by (apply ck64_ok; llia).
    erewrite bind_done by (by apply aget_nat).
    assert (d + 2 * p - (l * (k - 1) + 1) = d + 2 * p - l * (k - 1) - 1) as Hz by ring. rewrite Hz.
    assert (- 2 ^ 60 <= Z.quot (d + 2 * p - l * (k - 1) - 1) st <= 2 ^ 60) as Hq.
    { assert (Z.abs (Z.quot (d + 2 * p - l * (k - 1) - 1) st) <= Z.abs (d + 2 * p - l * (k - 1) - 1)) as Ha.
      { rewrite <-Z.quot_abs by lia. rewrite (Z.abs_eq st) by lia. apply Z.quot_le_upper_bound; [lia|]. nia. }
      llia. }
    erewrite bind_done.
    2:{ apply div64_ok; [lia|]. llia. }
    erewrite bind_done by (apply ck64_ok; llia).
    unfold ret. fold (cv_out d k st p l). rewrite (take_S_r _ _ _ He). done.
Qed.

(** the coordinates below filter element [w] *)
Lemma conv_position_ok nb nc b ic oc ic' o w t0 t1 tl E s :
  in_box os o -> in_box ks w -> length tl = n ->
  exists tl', length tl' = n /\
    (in_box sd (win_coord ss ps ls o w) -> tl' = win_coord ss ps ls o w) /\
    conv_position (Z.of_nat n) (nb :: nc :: sd) (b :: ic :: heads ps ss o) ls (oc :: ic' :: w)
      (t0 :: t1 :: tl) E s
    = Done (b :: ic :: tl', bool_decide (in_box sd (win_coord ss ps ls o w))) s.
Proof using Hok.
  intros Ho Hw Ltl.
  destruct (cv_ok_length _ _ _ _ _ Hok) as (L1 & L2 & L3 & L4).
  pose proof (cv_outs_length _ _ _ _ _ Hok) as Lo. fold os n in Lo.
  pose proof (in_box_length _ _ Ho) as Loo. pose proof (in_box_length _ _ Hw) as Lw.
  set (x := win_coord ss ps ls o w).
  assert (x = slice_pos (heads ps ss o) ls w) as Hx.
  { apply (cv_coord_pos _ _ _ _ _ _ _ Hok); unfold n in *; lia. }
  pose proof (cv_heads_length Hok o ltac:(unfold n in *; lia)) as Lh. fold n in Lh.
  assert (length x = n) as Lx by (rewrite Hx, slice_pos_length; unfold n in *; lia).
  set (f := fun k => t0 :: t1 :: take k x ++ drop k tl).
  assert (forall j d y, sd !! j = Some d -> x !! j = Some y ->
    (let* x := aget (b :: ic :: heads ps ss o) (2 + (0 + Z.of_nat j)) in
      let* dil := aget ls (0 + Z.of_nat j) in
      let* fw := aget (oc :: ic' :: w) (2 + (0 + Z.of_nat j)) in
      let* m := ck64 (dil * fw) in
      let* y := ck64 (x + m) in
      let* tmp := aset (f j) (2 + (0 + Z.of_nat j)) y in
      let* n := aget (nb :: nc :: sd) (2 + (0 + Z.of_nat j)) in
      if (y <? 0) || (n <=? y) then ret (Return tmp) else ret (Next tmp)) E s
    = Done (if (y <? 0) || (d <=? y) then Return (f (S j)) else Next (f (S j))) s) as Hstep.
  { intros j d y Hd Hy. pose proof (lookup_lt_Some _ _ _ Hd) as Hj. fold n in Hj.
    destruct (cv_get _ _ _ _ _ j Hok Hj) as (d' & k & st & p & l & Hd' & Hk & Hs & Hp & Hl & Hok1 & He).
    fold os in He. rewrite Hd in Hd'. injection Hd' as <-.
    destruct (lookup_lt_is_Some_2 o j) as [xo Hxo]; [unfold n in *; lia|].
    destruct (lookup_lt_is_Some_2 w j) as [xw Hxw]; [unfold n in *; lia|].
    pose proof (Forall2_lookup_lr _ _ _ _ _ _ Ho He Hxo) as Hoe. cbv beta in Hoe.
    pose proof (Forall2_lookup_lr _ _ _ _ _ _ Hw Hk Hxw) as Hwe. cbv beta in Hwe.
    pose proof (cv_reach _ _ _ _ _ xo Hok1 Hoe) as [Hr1 Hr2].
    destruct Hok1 as ((H1 & H2 & H3 & H4 & H5 & H6 & H7) & H8).
    assert (0 <= l * xw <= (k - 1) * l) as Hlw by nia.
    assert ((k - 1) * l <= INT_MAX) as Hkl by lia.
    assert (y = - p + st * xo + l * xw) as ->.
    { rewrite Hx in Hy. erewrite slice_pos_lookup in Hy; [|by eapply heads_lookup|done|done].
      by injection Hy. }
    rewrite Z.add_0_l.
    erewrite bind_done by (apply aget2; by eapply heads_lookup).
    erewrite bind_done by (by apply aget_nat).
    erewrite bind_done by (by apply aget2).
    erewrite bind_done by (apply ck64_ok; llia).
    erewrite bind_done by (apply ck64_ok; llia).
    erewrite bind_done.
    2:{ unfold f. apply aset2. rewrite app_length, take_length, drop_length. lia. }
    erewrite bind_done by (by apply aget2).
    assert (t0 :: t1 :: <[j := - p + st * xo + l * xw]> (take j x ++ drop j tl) = f (S j)) as ->.
    { unfold f. do 2 f_equal. rewrite (take_S_r _ _ _ Hy).
      rewrite insert_app_r_alt by (rewrite take_length; lia). rewrite take_length.
      replace (j - j `min` length x)%nat with 0%nat by lia.
      destruct (lookup_lt_is_Some_2 tl j) as [z Hz]; [lia|].
      rewrite (drop_S _ _ _ Hz). cbn. by rewrite <-app_assoc. }
    by destruct ((_ <? 0) || (d <=? _)). }
  assert (forall j, (j <= n)%nat -> length (take j x ++ drop j tl) = n) as Hlf.
  { intros j Hj. rewrite app_length, take_length, drop_length. lia. }
  unfold conv_position. rewrite Nat2Z.id.
  assert (f 0%nat = t0 :: t1 :: tl) as Hf0 by (unfold f; by rewrite take_0, drop_0).
  destruct (box_split sd x Lx) as [Hb|(j & d & y & Hd & Hy & Hn & Hb)].
  - exists x. split; [done|]. split; [done|].
    erewrite bind_done.
    2:{ apply (iter_ret_pure f); [done|]. intros k Hk.
        destruct (lookup_lt_is_Some_2 sd k Hk) as [d Hd].
        destruct (lookup_lt_is_Some_2 x k ltac:(lia)) as [y Hy].
        rewrite (Hstep k d y Hd Hy).
        pose proof (Forall2_lookup_lr _ _ _ _ _ _ Hb Hd Hy) as Hdy. cbv beta in Hdy.
        replace ((y <? 0) || (d <=? y)) with false by lia. done. }
    cbv beta match. unfold f.
    rewrite take_ge, drop_ge, app_nil_r by lia.
    erewrite bind_done by (by apply (aget_nat _ 0)).
    erewrite bind_done by apply aset0.
    erewrite bind_done by (by apply (aget_nat _ 1)).
    erewrite bind_done by apply aset1. unfold ret.
    by rewrite bool_decide_eq_true_2.
  - assert (~ in_box sd x) as Hnb.
    { intros H. pose proof (Forall2_lookup_lr _ _ _ _ _ _ H Hd Hy). done. }
    pose proof (lookup_lt_Some _ _ _ Hd) as Hj. fold n in Hj.
    exists (take (S j) x ++ drop (S j) tl). split; [apply Hlf; lia|]. split; [done|].
    erewrite bind_done.
    2:{ apply (iter_ret_exit f (f (S j)) _ _ _ j); [done|done| |].
        - intros k Hk.
          destruct (lookup_lt_is_Some_2 sd k ltac:(unfold n in *; lia)) as [d' Hd'].
          destruct (lookup_lt_is_Some_2 x k ltac:(lia)) as [y' Hy'].
          rewrite (Hstep k d' y' Hd' Hy').
          assert (0 <= y' < d') as Hdy.
          { eapply (Forall2_lookup_lr _ _ _ k _ _ Hb); by rewrite lookup_take. }
          replace ((y' <? 0) || (d' <=? y')) with false by lia. done.
        - rewrite (Hstep j d y Hd Hy).
          replace ((y <? 0) || (d <=? y)) with true by lia. done. }
    cbv beta match. unfold f at 1.
    erewrite bind_done by (by apply (aget_nat _ 0)).
    erewrite bind_done by apply aset0.
    erewrite bind_done by (by apply (aget_nat _ 1)).
    erewrite bind_done by apply aset1. unfold ret.
    by rewrite bool_decide_eq_false_2.
Qed.
End conv.

Lemma unravel2 a b es k : 0 < a -> 0 < b -> 0 <= k < prodZ es ->
  unravel (a :: b :: es) k = 0 :: 0 :: unravel es k.
Proof.
  intros Ha Hb Hk. cbn [unravel]. rewrite prodZ_cons.
  rewrite (Z.div_small k (prodZ es)) by lia. rewrite (Z.div_small k (b * prodZ es)) by nia.
  by rewrite !Z.mod_0_l by lia.
Qed.

(** reading one element of a row-major tensor by its coordinates *)
Lemma load_at T p px tg ex c E s :
  valid T -> view (heap s) p (dtype_of (a_type T)) (a_dev T) (a_dims T) (rowmajor (length (a_dims T))) px ->
  heap s !! px = Some (Blk tg (CData (cells (a_type T) (a_vals T) ++ ex))) ->
  in_box (a_dims T) c ->
  aitisa_coords_to_offset (HPtr p) c (Z.of_nat (length (a_dims T))) E s = Done (ravel (a_dims T) c) s /\
  loadi (HPtr px) (a_type T) (ravel (a_dims T) c) E s = Done (at_ T c) s.
Proof.
  intros HT Hv Hx Hc. pose proof HT as [Hfit _]. pose proof (in_box_length _ _ Hc) as Lc. split.
  - rewrite <-Lc. erewrite coords_to_offset_ok; [|done|apply tsz_pos|done|apply rowmajor_layout|done].
    by rewrite offset_rowmajor.
  - pose proof (ravel_bound _ _ Hc) as Hr. pose proof (valid_len _ HT) as Hlen.
    destruct (lookup_lt_is_Some_2 (a_vals T) (Z.to_nat (ravel (a_dims T) c))) as [v Hv']; [lia|].
    unfold at_. rewrite Hv'. unfold default, id.
    replace (ravel (a_dims T) c) with (Z.of_nat (Z.to_nat (ravel (a_dims T) c))) at 1 by lia.
    by eapply loadi_cells.
Qed.

Lemma lin_nonneg b m c W : 0 <= b -> 0 <= m -> 0 <= c -> 0 <= W -> 0 <= (b * m + c) * W.
Proof. intros. apply Z.mul_nonneg_nonneg; [|done]. nia. Qed.

(** What is stored for an output element; nothing without input channels. *)
Definition conv_val (nc : Z) (l : list (val * val)) : option val :=
  if decide (nc = 0) then Some VU else mac_all F32 (zero_val F32) l.
Lemma conv_val_pos nc l : 0 < nc -> conv_val nc l = mac_all F32 (zero_val F32) l.
Proof. intros H. unfold conv_val. by rewrite decide_False by lia. Qed.

Section element.
Context {T F : atensor} {sd ks ss ps ls : list Z} {nb nc oc fc : Z} (Hok : cv_ok sd ks ss ps ls).
Let os := cv_outs sd ks ss ps ls.
Let n := length sd.
Context (HT : valid T) (HF : valid F) (HdT : a_dims T = nb :: nc :: sd) (HdF : a_dims F = oc :: fc :: ks)
  (HtT : a_type T = F32) (HtF : a_type F = F32) (Hnc : nc <= fc).
Context {pi bA tgA pf bF tgF : nat} {exA exF : list mv}.
Definition sees (h : gmap nat block) : Prop :=
  view h pi (dtype_of F32) (a_dev T) (nb :: nc :: sd) (rowmajor (length (nb :: nc :: sd))) bA /\
  h !! bA = Some (Blk tgA (CData (cells F32 (a_vals T) ++ exA))) /\
  view h pf (dtype_of F32) (a_dev F) (oc :: fc :: ks) (rowmajor (length (oc :: fc :: ks))) bF /\
  h !! bF = Some (Blk tgF (CData (cells F32 (a_vals F) ++ exF))).

Lemma conv_channel_ok b c ic o acc acc' E s :
  sees (heap s) -> 0 <= b < nb -> 0 <= c < oc -> 0 <= ic < nc -> in_box os o ->
  mac_all F32 acc (conv_chan T F ss ps ls b c ic o) = Some acc' ->
  conv_channel (HPtr pi) (HPtr pf) (HPtr bA) (HPtr bF) (Z.of_nat n + 2) (Z.of_nat n) (nb :: nc :: sd) ls
    (b :: ic :: heads ps ss o) c ic (prodZ ks) acc E s = Done acc' s.
Proof using Hok HT HF HdT HdF HtT HtF Hnc.
  intros (HvT & HxT & HvF & HxF) Hb Hc Hic Ho Hmac.
  destruct (cv_ok_length _ _ _ _ _ Hok) as (L1 & L2 & L3 & L4).
  pose proof (cv_ks_pos _ _ _ _ _ Hok) as Hkp. pose proof (prodZ_pos _ Hkp) as Hkpos.
  pose proof HF as [HfF _]. rewrite HdF, HtF in HfF.
  unfold conv_chan in Hmac. rewrite HdT, HdF in Hmac.
  change (drop 2 (nb :: nc :: sd)) with sd in Hmac. change (drop 2 (oc :: fc :: ks)) with ks in Hmac.
  set (f := fun w => let x := win_coord ss ps ls o w in
          if decide (in_box sd x)
          then Some (at_ T (b :: ic :: x), at_ F (c :: ic :: w)) else None) in Hmac.
  unfold conv_channel.
  assert (forall k, is_Some (mac_all F32 acc (omap f (take k (coords ks))))) as Hpre.
  { intros k. rewrite <-(take_drop k (coords ks)), omap_app, mac_all_app in Hmac.
    destruct (mac_all F32 acc _); [eauto|done]. }
  assert (Z.to_nat (Z.of_nat n + 2) = S (S n)) as -> by lia. cbn [replicate].
  assert (wp (for64 0 (prodZ ks) (fun fil_idx '(fil, tmp, acc) =>
      let* fil := aitisa_linidx_to_coords (HPtr pf) fil_idx fil in
      let* fil := aset fil 0 c in
      let* fil := aset fil 1 ic in
      let* (tmp, inside) := conv_position (Z.of_nat n) (nb :: nc :: sd) (b :: ic :: heads ps ss o) ls fil tmp in
      if (inside : bool) then
        let* in_off := aitisa_coords_to_offset (HPtr pi) tmp (Z.of_nat n + 2) in
        let* fil_off := aitisa_coords_to_offset (HPtr pf) fil (Z.of_nat n + 2) in
        let* a := loadi (HPtr bA) F32 in_off in
        let* b := loadi (HPtr bF) F32 fil_off in
        let* acc := opt (mac_val F32 acc a b) UB_uninit in
        ret (fil, tmp, acc)
      else ret (fil, tmp, acc)) (0 :: 0 :: replicate n 0, 0 :: 0 :: replicate n 0, acc)) E s
    (fun x s' => x.2 = acc' /\ s' = s)) as Hloop.
  { eapply wp_mono.
    - apply (for64_rule (fun k (x : list Z * list Z * val) s' => s' = s /\ length x.1.1 = S (S n) /\
        (exists t0 t1 tl, x.1.2 = t0 :: t1 :: tl /\ length tl = n) /\
        mac_all F32 acc (omap f (take k (coords ks))) = Some x.2) _ _ _ (Z.to_nat (prodZ ks))); [lia| |].
      + cbn [fst snd]. split_and!; [done|cbn; by rewrite replicate_length| |done].
        exists 0, 0, (replicate n 0). by rewrite replicate_length.
      + intros k [[fil tmp] a] s' Hk (-> & Lf & (t0 & t1 & tl & Etmp & Ltl) & Ha). cbn [fst snd] in *. subst tmp.
        rewrite Z.add_0_l.
        set (w := unravel ks (Z.of_nat k)).
        assert (in_box ks w) as Hw by (by apply unravel_in_box).
        pose proof (in_box_length _ _ Hw) as Lw.
        eapply wp_step.
        { eapply linidx_to_coords_ok; [exact HvF|apply tsz_pos|exact HfF| |].
          - rewrite !prodZ_cons. assert (0 < oc * fc) by nia. rewrite Z.mul_assoc. nia.
          - cbn [length]. unfold n in *. lia. }
        rewrite unravel2 by lia. fold w.
        eapply wp_step; [apply aset0|]. eapply wp_step; [apply aset1|].
        destruct (conv_position_ok Hok nb nc b ic c ic o w t0 t1 tl E s Ho Hw Ltl) as (tl' & Ltl' & Hin & Hpos).
        eapply wp_step; [exact Hpos|]. cbv beta match.
        pose proof (coords_lookup ks k Hk) as Hck. fold w in Hck.
        destruct (Hpre (S k)) as [a' Ha'].
        pose proof Ha' as Hstep. rewrite (take_S_r _ _ _ Hck), omap_app, mac_all_app, Ha in Hstep.
        cbn [mbind option_bind omap list_omap] in Hstep. unfold f at 1 in Hstep. cbv zeta in Hstep.
        destruct (decide (in_box sd (win_coord ss ps ls o w))) as [Hbx|Hbx].
        * rewrite bool_decide_eq_true_2 by done. rewrite (Hin Hbx) in *.
          unfold mac_all in Hstep. cbn [foldl mbind option_bind] in Hstep.
          assert (in_box (a_dims T) (b :: ic :: win_coord ss ps ls o w)) as HbT.
          { rewrite HdT. constructor; [done|]. constructor; done. }
          assert (in_box (a_dims F) (c :: ic :: w)) as HbF.
          { rewrite HdF. constructor; [done|]. constructor; [lia|done]. }
          destruct (load_at T pi bA tgA exA _ E s HT ltac:(rewrite HtT, HdT; exact HvT)
            ltac:(rewrite HtT; exact HxT) HbT) as [Ho1 Hl1].
          destruct (load_at F pf bF tgF exF _ E s HF ltac:(rewrite HtF, HdF; exact HvF)
            ltac:(rewrite HtF; exact HxF) HbF) as [Ho2 Hl2].
          replace (Z.of_nat (length (a_dims T))) with (Z.of_nat n + 2) in Ho1 by (rewrite HdT; cbn [length]; unfold n; lia).
          replace (Z.of_nat (length (a_dims F))) with (Z.of_nat n + 2) in Ho2 by (rewrite HdF; cbn [length]; unfold n; lia).
          eapply wp_step; [exact Ho1|]. eapply wp_step; [exact Ho2|].
          rewrite HtT in Hl1. rewrite HtF in Hl2.
          eapply wp_step; [exact Hl1|]. eapply wp_step; [exact Hl2|].
          eapply wp_step; [by apply opt_ok|].
          apply wp_ret. cbn [fst snd]. split_and!; [done|cbn [length]; unfold n in *; lia| |done].
          exists b, ic, (win_coord ss ps ls o w). done.
        * rewrite bool_decide_eq_false_2 by done.
          apply wp_ret. cbn [fst snd]. split_and!; [done|cbn [length]; unfold n in *; lia| |].
          { exists b, ic, tl'. done. }
          rewrite Ha'. rewrite <-Hstep. done.
    - intros [[fil tmp] a] s' (-> & _ & _ & Ha). cbn [fst snd] in *. split; [|done].
      rewrite take_ge in Ha by (rewrite coords_length; lia). congruence. }
  apply wp_elim in Hloop as ([[fil tmp] a] & s' & Heq & Ha & ->). cbn [snd] in Ha. subst a.
  erewrite bind_done by exact Heq. done.
Qed.

Lemma sees_mono h h' : h ⊆ h' -> sees h -> sees h'.
Proof using Type.
  intros Hs (H1 & H2 & H3 & H4). unfold sees.
  split_and!; [by eapply view_mono|by eapply lookup_weaken|by eapply view_mono|by eapply lookup_weaken].
Qed.

Context {E : env} {tag lo : nat} {base : gmap nat block} {q pd pm pst px : nat} {dev : device}.
Let odims := nb :: oc :: os.
Let W := prodZ os.
Let TN s' vs := tnew tag lo base s' q pd pm pst px (dtype_of F32) dev odims (cells F32 vs).
Context {ws : list val}.

Lemma conv_base_ok b c j s : 0 <= j < W ->
  for64 0 (Z.of_nat n) (fun d base =>
      let* x := aget (b :: c :: unravel os j) (2 + d) in
      let* s := aget ss d in
      let* m := ck64 (x * s) in
      let* p := aget ps d in
      let* y := ck64 (m - p) in
      aset base (2 + d) y) (replicate (Z.to_nat (Z.of_nat n + 2)) 0) E s
  = Done (0 :: 0 :: heads ps ss (unravel os j)) s.
Proof using Hok.
  clear TN. intros Hj.
  destruct (cv_ok_length _ _ _ _ _ Hok) as (L1 & L2 & L3 & L4).
  pose proof (cv_outs_length _ _ _ _ _ Hok) as Lo. fold os n in Lo.
  set (o := unravel os j). assert (length o = n) as Lou by (unfold o; rewrite unravel_length; lia).
  pose proof (cv_heads_length Hok o Lou) as Lh. fold n in Lh.
  assert (in_box os o) as Hbo by (apply unravel_in_box; by apply cv_outs_pos).
  replace (Z.to_nat (Z.of_nat n + 2)) with (S (S n)) by lia. cbn [replicate].
  rewrite (for64_pure (fun k => 0 :: 0 :: take k (heads ps ss o) ++ replicate (n - k) 0) _ _ _ n).
  - rewrite take_ge by lia. rewrite Nat.sub_diag. cbn [replicate]. by rewrite app_nil_r.
  - rewrite take_0, Nat.sub_0_r. done.
  - lia.
  - intros i Hi. rewrite Z.add_0_l.
    destruct (cv_get _ _ _ _ _ i Hok Hi) as (d & k & st & p & l & Hd & Hk & Hs & Hp & Hl & Hok1 & He).
    fold os in He. destruct (lookup_lt_is_Some_2 o i) as [x Hx]; [lia|].
    pose proof (Forall2_lookup_lr _ _ _ _ _ _ Hbo He Hx) as Hoe. cbv beta in Hoe.
    pose proof (cv_reach _ _ _ _ _ x Hok1 Hoe) as [Hr1 Hr2].
    destruct Hok1 as ((H1 & H2 & H3 & H4 & H5 & H6 & H7) & H8).
    assert (0 <= (k - 1) * l) as Hkl by nia.
    assert (0 <= st * x) as Hsx by nia.
    erewrite bind_done by (by apply aget2).
    erewrite bind_done by (by apply aget_nat).
    erewrite bind_done by (apply ck64_ok; rewrite (Z.mul_comm x st); llia).
    erewrite bind_done by (by apply aget_nat).
    erewrite bind_done by (apply ck64_ok; rewrite (Z.mul_comm x st); llia).
    rewrite aset2 by (rewrite app_length, take_length, replicate_length; lia).
    do 3 f_equal.
    pose proof (heads_lookup o i p st x Hp Hs Hx) as Hh.
    rewrite (take_S_r _ _ _ Hh). rewrite insert_app_r_alt by (rewrite take_length; lia).
    rewrite take_length. replace (i - i `min` length (heads ps ss o))%nat with 0%nat by lia.
    replace (n - i)%nat with (S (n - S i)) by lia. cbn [replicate insert list_insert].
    rewrite <-app_assoc. cbn [app]. do 2 f_equal. ring.
Qed.

Lemma conv_element_ok b c j w s :
  sees base -> fits (tsz F32) odims -> 0 <= nc ->
  0 <= b < nb -> 0 <= c < oc -> 0 <= j < W ->
  let k := Z.to_nat ((b * oc + c) * W + j) in
  (k < length ws)%nat -> ws !! k = Some w ->
  conv_val nc (conv_terms T F ss ps ls nc b c (unravel os j)) = Some w ->
  TN s (prog VU ws k) ->
  wp (conv_element (HPtr pi) (HPtr pf) (HPtr q) (HPtr bA) (HPtr bF) (HPtr px) (Z.of_nat n + 2) (Z.of_nat n)
        (nb :: nc :: sd) ss ps ls b c j nc (prodZ ks)) E s
     (fun _ s' => TN s' (prog VU ws (S k)) /\ rpos s' = rpos s).
Proof using Hok HT HF HdT HdF HtT HtF Hnc.
  intros Hsee Hfit Hnc0 Hb Hc Hj k Hk Hw Hmac HTN.
  destruct (cv_ok_length _ _ _ _ _ Hok) as (L1 & L2 & L3 & L4).
  pose proof (cv_outs_length _ _ _ _ _ Hok) as Lo. fold os n in Lo.
  pose proof (prodZ_pos _ (cv_outs_pos _ _ _ _ _ Hok)) as HWp. fold os W in HWp.
  set (o := unravel os j) in *. assert (length o = n) as Lou by (unfold o; rewrite unravel_length; lia).
  assert (in_box os o) as Hbo by (apply unravel_in_box; by apply cv_outs_pos).
  unfold conv_element.
  eapply wp_step.
  { eapply linidx_to_coords_ok; [eapply tnew_view; exact HTN|apply tsz_pos|exact Hfit| |].
    - unfold odims. rewrite !prodZ_cons. fold W. assert (0 < nb * oc) by nia. rewrite Z.mul_assoc. nia.
    - rewrite replicate_length. unfold odims. cbn [length]. lia. }
  unfold odims at 1. rewrite unravel2 by (unfold W in *; lia). fold o.
  eapply wp_step; [apply aset0|]. eapply wp_step; [apply aset1|].
  eapply wp_step; [by apply conv_base_ok|]. fold o.
  eapply wp_step; [apply aset0|].
  apply wp_bind. eapply wp_mono.
  - apply (for64_rule (fun i x s' => rpos s' = rpos s /\
      mac_all F32 (zero_val F32) (conv_terms T F ss ps ls (Z.of_nat i) b c o) = Some x /\
      TN s' (if decide (i = 0)%nat then prog VU ws k else <[k := x]> (prog VU ws k))) _ _ _ (Z.to_nat nc)); [lia| |].
    + split_and!; [done|done|]. exact HTN.
    + intros i x s' Hi (Hr & Hx & HT'). rewrite Z.add_0_l.
      eapply wp_step; [apply aset1|].
      assert (conv_terms T F ss ps ls (Z.of_nat (S i)) b c o
        = conv_terms T F ss ps ls (Z.of_nat i) b c o ++ conv_chan T F ss ps ls b c (Z.of_nat i) o) as Hterm.
      { unfold conv_terms. rewrite seqZ_S, bind_app, Z.add_0_l. cbn [mbind list_bind]. by rewrite app_nil_r. }
      assert (is_Some (mac_all F32 (zero_val F32) (conv_terms T F ss ps ls (Z.of_nat (S i)) b c o))) as [x' Hx'].
      { rewrite conv_val_pos in Hmac by lia. replace nc with (Z.of_nat (S i) + (nc - Z.of_nat (S i))) in Hmac by lia.
        unfold conv_terms in Hmac. rewrite seqZ_app, bind_app, mac_all_app in Hmac by lia.
        fold (conv_terms T F ss ps ls (Z.of_nat (S i)) b c o) in Hmac.
        destruct (mac_all F32 _ _); [eauto|done]. }
      pose proof Hx' as Hs. rewrite Hterm, mac_all_app, Hx in Hs. cbn [mbind option_bind] in Hs.
      eapply wp_step.
      { apply conv_channel_ok; try done; [|lia].
        eapply sees_mono; [|exact Hsee]. eapply tnew_base; exact HT'. }
      assert (in_box odims (b :: c :: o)) as Hbx.
      { constructor; [done|]. constructor; done. }
      eapply wp_step.
      { replace (Z.of_nat n + 2) with (Z.of_nat (length (b :: c :: o))) by (cbn [length]; lia).
        eapply coords_to_offset_ok; [eapply tnew_view; exact HT'|apply tsz_pos|done|apply rowmajor_layout|done]. }
      rewrite offset_rowmajor by (unfold odims; cbn [length]; lia).
      assert (ravel odims (b :: c :: o) = Z.of_nat k) as ->.
      { unfold odims, k. cbn [ravel]. rewrite prodZ_cons. fold W.
        unfold o. rewrite ravel_unravel; [|by apply cv_outs_pos|done].
        rewrite Z2Nat.id; [unfold W; ring|]. pose proof (lin_nonneg b oc c W). lia. }
      eapply wp_step.
      { eapply tnew_storei; [exact HT'|].
        destruct (decide _); rewrite ?insert_length, prog_length; lia. }
      apply wp_ret. split_and!; [exact Hr|exact Hx'|].
      rewrite (decide_False (P := S i = 0%nat)) by lia.
      replace (<[k:=x']> (prog VU ws k)) with
        (<[k:=x']> (if decide (i = 0%nat) then prog VU ws k else <[k:=x]> (prog VU ws k))).
      2:{ destruct (decide _); [done|]. by rewrite list_insert_insert. }
      eapply tnew_upd; exact HT'.
  - intros x s' (Hr & Hx & HT'). apply wp_ret. split; [|done].
    unfold conv_val in Hmac. destruct (decide (nc = 0)) as [->|Hne].
    { cbn in HT'. injection Hmac as <-. rewrite <-(prog_step _ _ _ _ Hw), list_insert_id; [done|].
      unfold prog. rewrite lookup_app_r; rewrite take_length; [|lia]. apply lookup_replicate_2. lia. }
    rewrite decide_False in HT' by lia. rewrite Z2Nat.id in Hx by lia.
    rewrite Hmac in Hx. injection Hx as <-. by rewrite (prog_step _ _ _ _ Hw) in HT'.
Qed.

Lemma conv_images_ok p1 p2 p3 p4 s :
  sees base -> fits (tsz F32) odims -> 0 <= nc -> 0 <= nb -> 0 <= oc ->
  is_Some (base !! p1) -> is_Some (base !! p2) -> is_Some (base !! p3) -> is_Some (base !! p4) ->
  Z.of_nat (length ws) = prodZ odims ->
  (forall b c j, 0 <= b < nb -> 0 <= c < oc -> 0 <= j < W ->
     exists w, ws !! Z.to_nat ((b * oc + c) * W + j) = Some w /\
     conv_val nc (conv_terms T F ss ps ls nc b c (unravel os j)) = Some w) ->
  TN s (replicate (length ws) VU) ->
  wp (for64 0 nb (fun b _ =>
      for64 0 oc (fun c _ =>
        for64 0 W (fun j _ =>
          touch (HPtr p1) ;;; touch (HPtr p2) ;;; touch (HPtr p3) ;;; touch (HPtr p4) ;;;
          conv_element (HPtr pi) (HPtr pf) (HPtr q) (HPtr bA) (HPtr bF) (HPtr px) (Z.of_nat n + 2)
            (Z.of_nat n + 2 - 2) (nb :: nc :: sd)
            ss ps ls b c j nc (prodZ ks)) tt) tt) tt) E s
     (fun _ s' => TN s' ws /\ rpos s' = rpos s).
Proof using Hok HT HF HdT HdF HtT HtF Hnc.
  intros Hsee Hfit Hnc0 Hnb Hoc H1 H2 H3 H4 Hlen Hval HTN.
  pose proof (prodZ_pos _ (cv_outs_pos _ _ _ _ _ Hok)) as HWp. fold os W in HWp.
  assert (prodZ odims = nb * (oc * W)) as Eodims by (unfold odims; by rewrite !prodZ_cons).
  replace (Z.of_nat n + 2 - 2) with (Z.of_nat n) by lia.
  assert (forall p s', is_Some (base !! p) -> forall vs, TN s' vs -> touch (HPtr p) E s' = Done tt s') as Htouch.
  { intros p s' [x Hx] vs HT'. eapply touch_ok. eapply tnew_lookup; [exact HT'|exact Hx]. }
  eapply wp_mono.
  - eapply (tnew_for64 (fun b => prog VU ws (Z.to_nat (Z.of_nat b * oc * W))) (Z.to_nat nb)); [|lia|].
    { change (Z.of_nat 0) with 0. rewrite !Z.mul_0_l, prog_0. exact HTN. }
    intros b s1 Hb HT1 Hr1. 
    eapply wp_mono.
    + eapply (tnew_for64 (fun c => prog VU ws (Z.to_nat ((Z.of_nat b * oc + Z.of_nat c) * W))) (Z.to_nat oc)); [|lia|].
      { rewrite Z.add_0_r. exact HT1. }
      intros c s2 Hc HT2 Hr2.
      eapply wp_mono.
      * eapply (tnew_for64 (fun j => prog VU ws (Z.to_nat ((Z.of_nat b * oc + Z.of_nat c) * W + Z.of_nat j))) (Z.to_nat W)); [|lia|].
        { rewrite Z.add_0_r. exact HT2. }
        intros j s3 Hj HT3 Hr3. 
        eapply wp_step; [by eapply Htouch|]. eapply wp_step; [by eapply Htouch|].
        eapply wp_step; [by eapply Htouch|]. eapply wp_step; [by eapply Htouch|].
        destruct (Hval (Z.of_nat b) (Z.of_nat c) (Z.of_nat j)) as (w & Hw & Hmac); [lia|lia|lia|].
        eapply wp_mono; [eapply conv_element_ok; try done; [lia|lia|lia|by eapply lookup_lt_Some]|].
        intros _ s4 [HT4 Hr4]. split; [|congruence].
        replace (Z.to_nat ((Z.of_nat b * oc + Z.of_nat c) * W + Z.of_nat (S j)))
          with (S (Z.to_nat ((Z.of_nat b * oc + Z.of_nat c) * W + Z.of_nat j))); [exact HT4|].
        pose proof (lin_nonneg (Z.of_nat b) oc (Z.of_nat c) W). lia.
      * intros _ s3 [HT3 Hr3]. split; [|congruence].
        replace ((Z.of_nat b * oc + Z.of_nat (S c)) * W) with ((Z.of_nat b * oc + Z.of_nat c) * W + Z.of_nat (Z.to_nat W))
          by (rewrite Nat2Z.inj_succ, Z2Nat.id by lia; ring). done.
    + intros _ s2 [HT2 Hr2]. split; [|congruence].
      replace (Z.of_nat (S b) * oc * W) with ((Z.of_nat b * oc + Z.of_nat (Z.to_nat oc)) * W)
        by (rewrite Nat2Z.inj_succ, Z2Nat.id by lia; ring). done.
  - intros r s1 [HT1 Hr1]. split; [|done].
    rewrite prog_full in HT1; [done|]. rewrite Z2Nat.id by lia.
    rewrite <-Z.mul_assoc, <-Eodims. lia.
Qed.
End element.

Lemma fits_space a b es : fits (tsz F32) (a :: b :: es) -> Forall (fun d => 0 < d) es -> prodZ es <= INT64_MAX.
Proof.
  intros Hf Hp. destruct Hf as (_ & _ & Hf).
  pose proof (prodZ_max_drop (a :: b :: es) 2) as Hd. change (drop 2 (a :: b :: es)) with es in Hd.
  rewrite (prodZ_max_pos_eq es Hp) in Hd. cbn [tsz] in Hf. 
  pose proof (prodZ_max_pos (a :: b :: es)). llia.
Qed.

Lemma conv_float_any p pf T F T3 nb nc oc fc sd ks ss ps ls o E s :
  wf s -> alloc_all E -> hooks_ok E -> holds (heap s) p T -> holds (heap s) pf F ->
  a_type T = F32 -> a_type F = F32 ->
  a_dims T = nb :: nc :: sd -> a_dims F = oc :: fc :: ks -> nc <= fc -> 0 <= nc ->
  (length sd <= 3)%nat -> cv_ok sd ks ss ps ls ->
  a_type T3 = F32 -> a_dev T3 = a_dev T -> a_dims T3 = nb :: oc :: cv_outs sd ks ss ps ls -> valid T3 ->
  (forall b c x, in_box (a_dims T3) (b :: c :: x) ->
     conv_val nc (conv_terms T F ss ps ls nc b c x) = Some (at_ T3 (b :: c :: x))) ->
  makes_saying (e_garbage E 0) (aitisa_conv_float (HPtr p) (HPtr pf) ss ps ls o) E s T3.
Proof.
  intros Hwf HE HH HT HF HtT HtF HdT HdF Hnc Hnc0 Hrank Hok Ht3 Hdev3 Hdims3 HvT3 Hval.
  set (os := cv_outs sd ks ss ps ls) in *.
  pose proof (holds_valid _ _ _ HT) as HvT. pose proof HvT as [HfitT _].
  pose proof (holds_valid _ _ _ HF) as HvF. pose proof HvF as [HfitF _].
  pose proof HvT3 as [Hfit3 _]. pose proof (valid_len _ HvT3) as Hlen3.
  destruct HT as (_ & bA & tgA & exA & HwT & HxT).
  destruct HF as (_ & bF & tgF & exF & HwF & HxF).
  destruct T3 as [t3 dev3 dims3 ws]. cbn [a_type a_dev a_dims a_vals] in *. subst t3 dev3 dims3.
  rewrite HtT, HdT in *. rewrite HtF, HdF in *.
  pose proof (cv_outs_length _ _ _ _ _ Hok) as Lo. fold os in Lo.
  pose proof (cv_outs_pos _ _ _ _ _ Hok) as Hop. fold os in Hop.
  destruct (cv_ok_length _ _ _ _ _ Hok) as (L1 & L2 & L3 & L4).
  assert (Forall (fun d => 0 <= d) (nb :: oc :: os)) as Hnn by apply Hfit3.
  apply Forall_cons in Hnn as [Hn0 Hnn]. apply Forall_cons in Hnn as [Hn1 _].
  assert (prodZ os <= INT64_MAX) as HWmax.
  { by apply (fits_space nb oc). }
  assert (prodZ ks <= INT64_MAX) as Hks.
  { apply (fits_space oc fc); [done|]. by eapply cv_ks_pos. }
  assert (wp (aitisa_conv_float (HPtr p) (HPtr pf) ss ps ls o) E s (fun r s' => exists q,
    r = (e_garbage E 0, HPtr q) /\ created E s s' q (AT F32 (a_dev T) (nb :: oc :: os) ws))) as Hwp.
  2:{ apply wp_elim in Hwp as (r & s' & Heq & q & -> & Hc). by exists s', q. }
  unfold aitisa_conv_float.
  eapply wp_step; [by eapply tensor_ndim_ok|].
  eapply wp_step; [by eapply tensor_dims_ok|].
  eapply wp_step; [by eapply tensor_dims_ok|].
  assert (Z.of_nat (length (nb :: nc :: sd)) = Z.of_nat (length sd) + 2) as -> by (cbn [length]; lia).
  set (n := Z.of_nat (length sd) + 2).
  assert (0 <= 8 * n <= PTRDIFF_MAX) as Hsz by (unfold n; llia).
  eapply wp_scr0; [done|done|done|apply frame_nil|]. intros c1 s1 W1 F1 R1 C1 S1.
  eapply wp_scr0; [done|done|done|exact F1|]. intros c2 s2 W2 F2 R2 C2 S2.
  eapply wp_scr0; [done|done|done|exact F2|]. intros c3 s3 W3 F3 R3 C3 S3.
  eapply wp_scr0; [done|done|done|exact F3|]. intros c4 s4 W4 F4 R4 C4 S4.
  eapply wp_scr0; [done|done|done|exact F4|]. intros c5 s5 W5 F5 R5 C5 S5.
  eapply wp_scr0; [done|done|done|exact F5|]. intros c6 s6 W6 F6 R6 C6 S6.
  eapply wp_scr0; [done|done|done|exact F6|]. intros c7 s7 W7 F7 R7 C7 S7.
  eapply wp_scr0; [done|done|done|exact F7|]. intros c8 s8 W8 F8 R8 C8 S8.
  eapply wp_step; [eapply touch_frame0; [exact F8|]; rewrite !elem_of_cons; tauto|].
  eapply wp_step; [by apply (conv_output_dims_ok Hok)|]. fold os.
  assert (heap s ⊆ heap s8) as S08 by (by eapply frame_sub).
  pose proof (view_mono _ _ _ _ _ _ _ _ S08 HwT) as HwT8.
  pose proof (view_mono _ _ _ _ _ _ _ _ S08 HwF) as HwF8.
  pose proof (lookup_weaken _ _ _ _ HxT S08) as HxT8.
  pose proof (lookup_weaken _ _ _ _ HxF S08) as HxF8.
  eapply wp_step; [by eapply tensor_dtype_ok|].
  eapply wp_step; [by eapply tensor_device_ok|].
  destruct (create_t_ok F32 (a_dev T) (nb :: oc :: os) HUndef E s8 W8 Hfit3 HE)
    as (s9 & q & pd & pm & pst & px & Hcr & Ht9 & R9).
  replace (Z.of_nat (length (nb :: oc :: os))) with n in Hcr by (unfold n; cbn [length]; lia).
  eapply wp_step; [exact Hcr|].
  cbv beta match. rewrite bool_decide_eq_true_2 by done. cbn [negb].
  assert (forall c, c ∈ [c8; c7; c6; c5; c4; c3; c2; c1] -> touch (HPtr c) E s9 = Done tt s9) as Htouch.
  { intros c Hc. eapply touch_frame; [exact Ht9|exact F8|done]. }
  pose proof (view_mono _ _ _ _ _ _ _ _ (tnew_base _ _ Ht9) HwT8) as HwT9.
  pose proof (view_mono _ _ _ _ _ _ _ _ (tnew_base _ _ Ht9) HwF8) as HwF9.
  pose proof (tnew_view _ _ Ht9) as Hw9.
  eapply wp_step; [apply Htouch; rewrite !elem_of_cons; tauto|].
  eapply wp_step.
  { erewrite all_strides; [done|exact HwT9|apply (tsz_pos F32)|exact HfitT|apply rowmajor_layout|].
    unfold n. rewrite replicate_length. cbn [length]. lia. }
  eapply wp_step; [apply Htouch; rewrite !elem_of_cons; tauto|].
  eapply wp_step.
  { erewrite all_strides; [done|exact HwF9|apply (tsz_pos F32)|exact HfitF|apply rowmajor_layout|].
    unfold n. rewrite replicate_length. cbn [length]. lia. }
  eapply wp_step; [apply Htouch; rewrite !elem_of_cons; tauto|].
  eapply wp_step.
  { erewrite all_strides; [done|exact Hw9|apply (tsz_pos F32)|exact Hfit3|apply rowmajor_layout|].
    unfold n. rewrite replicate_length. cbn [length]. lia. }
  eapply wp_step; [by eapply tensor_data_ok|].
  eapply wp_step; [by eapply tensor_data_ok|].
  eapply wp_step; [by eapply tensor_data_ok|].
  eapply wp_step; [apply size_from_dim_ok; [done|done|llia|unfold n; lia]|].
  eapply wp_step.
  { apply size_from_dim_ok; [by eapply cv_ks_pos|done|llia|unfold n; lia]. }
  eapply wp_step; [by eapply (tensor_dim_ok HwT9 0 nb)|].
  eapply wp_step; [by eapply (tensor_dim_ok HwT9 1 nc)|].
  eapply wp_step; [by eapply (tensor_dim_ok Hw9 1 oc)|].
  assert (forall c, c ∈ [c8; c7; c6; c5; c4; c3; c2; c1] -> is_Some (heap s8 !! c)) as Hsome.
  { intros c Hc. destruct (frame_lookup _ _ c F8 Hc) as (y & Hy & _). eauto. }
  apply wp_bind. eapply wp_mono.
  { unfold n. eapply (conv_images_ok (T := T) (F := F) Hok HvT HvF HdT HdF HtT HtF Hnc (ws := ws)
      (base := heap s8) (pi := p) (pf := pf) (bA := bA) (bF := bF));
      [..|replace (length ws) with (Z.to_nat (prodZ (nb :: oc :: os))) by lia; exact Ht9]; try done.
    - apply Hsome. rewrite !elem_of_cons; tauto.
    - apply Hsome. rewrite !elem_of_cons; tauto.
    - apply Hsome. rewrite !elem_of_cons; tauto.
    - apply Hsome. rewrite !elem_of_cons; tauto.
    - fold os. intros b c j Hb Hc Hj.
      assert (in_box os (unravel os j)) as Hbo by (by apply unravel_in_box).
      assert (in_box (nb :: oc :: os) (b :: c :: unravel os j)) as Hbx by (constructor; [done|]; constructor; done).
      specialize (Hval b c (unravel os j) Hbx).
      unfold at_ in Hval. cbn [a_vals a_dims] in Hval.
      pose proof (ravel_bound _ _ Hbx) as Hrb.
      assert (ravel (nb :: oc :: os) (b :: c :: unravel os j) = (b * oc + c) * prodZ os + j) as Hr.
      { cbn [ravel]. rewrite prodZ_cons, ravel_unravel by done. ring. }
      rewrite Hr in *.
      destruct (lookup_lt_is_Some_2 ws (Z.to_nat ((b * oc + c) * prodZ os + j))) as [w Hw]; [lia|].
      rewrite Hw in Hval. by exists w. }
  intros r s10 (Ht10 & R10). fold os in Ht10.
  eapply (wp_scr_free [c8; c7; c6; c5; c4; c3; c2] c1 []); [done|exact Ht10|exact F8|]. intros h11 s11 Ht11 F11 R11.
  eapply (wp_scr_free [c8; c7; c6; c5; c4; c3] c2 []); [done|exact Ht11|exact F11|]. intros h12 s12 Ht12 F12 R12.
  eapply (wp_scr_free [c8; c7; c6; c5; c4] c3 []); [done|exact Ht12|exact F12|]. intros h13 s13 Ht13 F13 R13.
  eapply (wp_scr_free [c8; c7; c6; c5] c4 []); [done|exact Ht13|exact F13|]. intros h14 s14 Ht14 F14 R14.
  eapply (wp_scr_free [c8; c7] c6 [c5]); [done|exact Ht14|exact F14|]. intros h15 s15 Ht15 F15 R15.
  eapply (wp_scr_free [c8] c7 [c5]); [done|exact Ht15|exact F15|]. intros h16 s16 Ht16 F16 R16.
  eapply (wp_scr_free [] c8 [c5]); [done|exact Ht16|exact F16|]. intros h17 s17 Ht17 F17 R17.
  eapply (wp_scr_free [] c5 []); [done|exact Ht17|exact F17|]. intros h18 s18 Ht18 F18 R18.
  apply frame_nil_inv in F18 as ->.
  eapply wp_step; [done|].
  apply wp_ret. exists q. split; [done|].
  eapply tnew_makes; [done|done| |].
  - eapply tnew_lo; [exact Ht18|lia].
  - congruence.
Qed.
Lemma conv_float_rule p pf T F T3 nb nc oc fc sd ks ss ps ls o E s :
  wf s -> alloc_all E -> hooks_ok E -> holds (heap s) p T -> holds (heap s) pf F ->
  a_type T = F32 -> a_type F = F32 ->
  a_dims T = nb :: nc :: sd -> a_dims F = oc :: fc :: ks -> nc <= fc -> 0 < nc ->
  (length sd <= 3)%nat -> cv_ok sd ks ss ps ls ->
  a_type T3 = F32 -> a_dev T3 = a_dev T -> a_dims T3 = nb :: oc :: cv_outs sd ks ss ps ls -> valid T3 ->
  (forall b c x, in_box (a_dims T3) (b :: c :: x) ->
     mac_all F32 (zero_val F32) (conv_terms T F ss ps ls nc b c x) = Some (at_ T3 (b :: c :: x))) ->
  makes_saying (e_garbage E 0) (aitisa_conv_float (HPtr p) (HPtr pf) ss ps ls o) E s T3.
Proof.
  intros Hwf HE HH HT HF HtT HtF HdT HdF Hnc Hnc0 Hrank Hok Ht3 Hdev3 Hdims3 HvT3 Hval.
  eapply conv_float_any; try done; [lia|]. intros b c x Hx. rewrite conv_val_pos by done. by apply Hval.
Qed.
