(** * ProofUnknown3: pooling of tensors of unknown type *)
From stdpp Require Import gmap list.
From Coq Require Import ZArith Lia Floats.SpecFloat.
From Coq Require Import ZifyBool ZifyNat.
From Verif Require Import Base Mem Spec SpecReal SpecNN SpecUnknown ModelCore ModelBasic ModelMath ModelNN Logic
  ProofCore ProofCore2 ProofCore3 ProofKernel ProofKernel2 ProofBasic ProofLayout ProofIndex ProofSlice ProofFrame ProofMath ProofSqrt
  ProofSqueeze ProofNN ProofSoftmax ProofBasic2 ProofWindow ProofPool ProofPool2 ProofUnknown ProofUnknown2.
Open Scope Z_scope.

Ltac Zify.zify_post_hook ::= Z.div_mod_to_equations.

Lemma while_ret_fuel_or {A R} (g : nat -> A -> Prop) (R0 : R -> Prop) (body : A -> M (ctl (A * bool) R)) N E s :
  (forall k x, (k < N)%nat -> g k x -> exists c, body x E s = Done c s /\
     ((exists r, c = Return r /\ R0 r) \/
      exists y, c = Next (y, bool_decide (S k < N)%nat) /\ g (S k) y)) ->
  forall n k x, (k < N)%nat -> (N - k <= n)%nat -> g k x ->
    exists c, while_ret_fuel n body x E s = Done c s /\
      ((exists r, c = Return r /\ R0 r) \/ exists y, c = Next y).
Proof.
  intros Hb. induction n as [|n IH]; intros k x Hk Hn Hg; [lia|]. cbn [while_ret_fuel].
  destruct (Hb k x Hk Hg) as (c & Hc & [(r & -> & Hr)|(y & -> & Hy)]).
  - erewrite bind_done by done. cbv match. eexists. split; [done|]. eauto.
  - erewrite bind_done by done. cbv beta match.
    destruct (decide (S k < N)%nat).
    + rewrite bool_decide_eq_true_2 by done. apply (IH (S k)); [done|lia|done].
    + rewrite bool_decide_eq_false_2 by done. eexists. split; [done|]. eauto.
Qed.

Lemma while_ret_now {A R} (body : A -> M (ctl (A * bool) R)) x r E s :
  (0 < e_fuel E)%nat -> body x E s = Done (Return r) s -> while_ret body x E s = Done (Return r) s.
Proof.
  intros Hf Hb. unfold while_ret. destruct (e_fuel E) as [|n]; [lia|]. cbn [while_ret_fuel].
  erewrite bind_done by (exact Hb). done.
Qed.

Section unknown.
Context {nb nc : Z} {sd ks ss ps ls : list Z} (Hok : win_ok sd ks ss ps ls) (Hsd : sd <> []).
Let os := win_outs sd ks ss ps ls.
Let n := length sd.
Let dims := nb :: nc :: sd.
Context {E : env} {m : pmode} (Hnn : Forall (fun d => 0 <= d) sd).
Context {dt : dtype} (Hu : unknown dt).

Lemma pool_window_unknown ind s :
  prodZ sd <= INT64_MAX -> (Z.to_nat (prodZ ks) <= e_fuel E)%nat ->
  exists r, pool_window m dt ind (Z.of_nat n) dims (suffs dims) ls
    (heads ps ss (unravel os 0)) (tails ps ss ks ls (unravel os 0)) 0 E s = Done r s /\
    (r = Return NOT_SUPPORTED \/ exists x, r = Next x).
Proof using Hok Hsd Hnn Hu.
  intros Hmax Hfuel. unfold pool_window.
  destruct (win_ok_length _ _ _ _ _ Hok) as (L1 & L2 & L3 & L4).
  pose proof (win_outs_length _ _ _ _ _ Hok) as Lo. fold os n in Lo.
  pose proof (win_outs_pos _ _ _ _ _ Hok) as Hop. fold os in Hop.
  pose proof (win_ks_pos _ _ _ _ _ Hok) as Hkp. pose proof (prodZ_pos _ Hkp) as Hkpos.
  set (o := unravel os 0) in *.
  assert (0 < prodZ os) as Hos by (by apply prodZ_pos).
  assert (in_box os o) as Hbo by (by apply unravel_in_box).
  assert (length o = n) as Loo by (unfold o; rewrite unravel_length; lia).
  pose proof (heads_length Hok o Loo) as Lh.
  match goal with |- context [while_ret ?b _] => set (body := b) end.
  edestruct (while_ret_fuel_or (fun k (x : list Z * spec_float) =>
      x.1 = slice_pos (heads ps ss o) ls (unravel ks (Z.of_nat k))) (fun r => r = NOT_SUPPORTED) body
      (Z.to_nat (prodZ ks)) E s) with (n := e_fuel E) (k := 0%nat) (x := (heads ps ss o, fzero)) as (c & Hc & Hcc).
  - intros k [ix temp] Hk Hix. cbn [fst] in Hix. subst ix. unfold body.
    set (w := unravel ks (Z.of_nat k)).
    assert (length w = n) as Lw by (unfold w; rewrite unravel_length; unfold n in *; lia).
    assert (length (slice_pos (heads ps ss o) ls w) = n) as Lx
      by (rewrite slice_pos_length; unfold n in *; lia).
    erewrite bind_done by (apply pool_position_ok; [done|lia|lia|done]).
    destruct (decide (in_box sd _)).
    { rewrite dispatch_all_unknown by done. erewrite bind_done by done. cbv beta match.
      eexists. split; [done|]. left. eauto. }
    erewrite bind_done by done. cbv beta match. rewrite Nat2Z.id.
    replace n with (length ks) by (unfold n; lia).
    erewrite bind_done.
    2:{ unfold w, tails. apply pool_next_ok.
      - unfold n in *; lia.
      - lia.
      - destruct ks; [|done]. destruct sd; [done|]. cbn in L1. lia.
      - intros i h k0 l Hh Hk0 Hl. pose proof (lookup_lt_Some _ _ _ Hk0) as Hi.
        destruct (win_get _ _ _ _ _ i Hok ltac:(lia))
          as (d' & k' & s' & p' & l' & Hd' & Hk' & Hs' & Hp' & Hl' & Hok1 & He').
        rewrite Hk0 in Hk'. injection Hk' as <-. rewrite Hl in Hl'. injection Hl' as <-.
        destruct (lookup_lt_is_Some_2 o i) as [x Hx]; [unfold n in *; lia|].
        rewrite (heads_lookup _ _ _ _ _ Hp' Hs' Hx) in Hh. injection Hh as <-.
        pose proof (Forall2_lookup_lr _ _ _ _ _ _ Hbo He' Hx) as Hxe. cbv beta in Hxe.
        pose proof (win_reach _ _ _ _ _ x Hok1 Hxe) as [Hr1 Hr2].
        destruct Hok1 as (H1 & H2 & H3 & H4 & H5 & H6 & H7 & H8).
        split_and!; [lia|lia|llia|]. replace (k0 * l) with ((k0 - 1) * l + l) by ring. llia.
      - lia. }
    eexists. split; [done|]. right. eexists. split.
    + do 2 f_equal. apply eq_true_iff_eq. rewrite bool_decide_eq_true. lia.
    + cbn [fst]. do 2 f_equal. lia.
  - lia.
  - lia.
  - cbn [fst]. change (Z.of_nat 0) with 0. rewrite unravel_0.
    apply list_eq_same_length with n; [rewrite slice_pos_length; rewrite ?replicate_length; unfold n in *; lia|done|].
    intros i a b Hi Ha Hb.
    destruct (lookup_lt_is_Some_2 ls i) as [l Hl]; [unfold n in *; lia|].
    rewrite (slice_pos_lookup _ _ _ _ a l 0 Ha Hl) in Hb.
    + injection Hb as <-. ring.
    + rewrite lookup_replicate. split; [done|]. unfold n in *. lia.
  - unfold while_ret at 1. erewrite bind_done by (exact Hc).
    destruct Hcc as [(r & -> & ->)|([ix tp] & ->)]; eexists; (split; [done|]); eauto.
Qed.

Lemma pool_channel_unknown ind outd s :
  prodZ sd <= INT64_MAX -> (Z.to_nat (prodZ ks) <= e_fuel E)%nat -> (0 < e_fuel E)%nat ->
  prodZ os <= INT64_MAX -> nc * prodZ sd <= INT64_MAX -> nc * prodZ os <= INT64_MAX -> 0 <= nc ->
  pool_channel m dt ind outd (Z.of_nat n) dims (suffs dims) (suffs (nb :: nc :: os))
        ks ss ps ls (prodZ ks) 0 0 E s = Done (Return NOT_SUPPORTED) s.
Proof using Hok Hsd Hnn Hu.
  intros Hmax Hf1 Hf2 Hos Hc1 Hc2 Hnc. unfold pool_channel.
  pose proof (win_outs_length _ _ _ _ _ Hok) as Lo. fold os n in Lo.
  assert (forall es, suffs (nb :: nc :: es) !! 0%nat = Some (nc * prodZ es)) as S0.
  { intros es. rewrite suffs_lookup by (cbn; lia). cbn [drop]. by rewrite prodZ_cons. }
  assert (forall es, suffs (nb :: nc :: es) !! 1%nat = Some (prodZ es)) as S1.
  { intros es. rewrite suffs_lookup by (cbn; lia). done. }
  erewrite bind_done by (apply (aget_nat _ 0); apply S0).
  erewrite bind_done by (apply (aget_nat _ 1); apply S1).
  erewrite bind_done by (apply ck64_ok; llia).
  erewrite bind_done by (apply ck64_ok; llia).
  erewrite bind_done by (apply ck64_ok; llia).
  erewrite bind_done by (apply (aget_nat _ 0); apply S0).
  erewrite bind_done by (apply (aget_nat _ 1); apply S1).
  erewrite bind_done by (apply ck64_ok; llia).
  erewrite bind_done by (apply ck64_ok; llia).
  erewrite bind_done by (apply ck64_ok; llia).
  erewrite bind_done by (apply (pool_init_ok Hok)). fold os. cbv beta match.
  change (0 * (nc * prodZ sd) + 0 * prodZ sd) with 0. change (0 * (nc * prodZ os) + 0 * prodZ os) with 0.
  erewrite bind_done; [|apply while_ret_now; [done|]]; [done|].
  destruct (pool_window_unknown ind s Hmax ltac:(lia)) as (r & Hr & [->|[x ->]]).
  - erewrite bind_done by (exact Hr). done.
  - erewrite bind_done by (exact Hr). cbv beta match.
    erewrite bind_done.
    2:{ apply aget_Z; [lia|]. apply suffs_lookup. cbn [length]. lia. }
    rewrite drop_ge by (cbn [length]; lia). change (prodZ []) with 1.
    erewrite bind_done by (apply ck64_ok; llia).
    erewrite bind_done by (apply ck64_ok; llia).
    by rewrite dispatch_all_unknown.
Qed.
End unknown.

Lemma pooling_unknown m p dt dev nb nc sd px ks ss ps ls o E s :
  wf s -> alloc_all E -> view (heap s) p dt dev (nb :: nc :: sd) (rowmajor (2 + length sd)) px ->
  sized dt (nb :: nc :: sd) -> unknown dt ->
  (1 <= length sd <= 3)%nat -> win_ok sd ks ss ps ls ->
  0 < nb -> 0 < nc -> sized dt (nb :: nc :: win_outs sd ks ss ps ls) ->
  prodZ ks <= INT64_MAX -> (Z.to_nat (prodZ ks) <= e_fuel E)%nat ->
  unsupported (aitisa_pooling (HPtr p) m ks ss ps ls o) E s o.
Proof.
  intros Hwf HE Hv Hs Hu Hrank Hok Hb Hc Hs3 Hks Hf1. apply unsup_intro.
  pose proof (proj2 Hs) as Hfit. pose proof (proj2 Hs3) as Hfit3. pose proof (sized_pos _ _ Hs) as Hsp.
  set (os := win_outs sd ks ss ps ls) in *.
  pose proof (win_outs_length _ _ _ _ _ Hok) as Lo. fold os in Lo.
  destruct (win_ok_length _ _ _ _ _ Hok) as (L1 & L2 & L3 & L4).
  assert (Forall (fun d => 0 <= d) (nb :: nc :: sd)) as Hnn by apply Hfit.
  apply Forall_cons in Hnn as [Hn0 Hnn]. apply Forall_cons in Hnn as [Hn1 Hnn].
  assert (sd <> []) as Hsd by (intros ->; cbn in Hrank; lia).
  unfold aitisa_pooling. eapply wp_step; [by eapply tensor_ndim_ok|].
  replace ((2 <? Z.of_nat (length (nb :: nc :: sd))) && (Z.of_nat (length (nb :: nc :: sd)) <? 6)) with true
    by (cbn [length]; lia).
  unfold pooling_double.
  eapply wp_step; [by eapply tensor_ndim_ok|].
  eapply wp_step; [by eapply tensor_dims_ok|].
  set (n := Z.of_nat (length (nb :: nc :: sd))).
  assert (0 <= 8 * n <= PTRDIFF_MAX) as Hsz by (unfold n; cbn [length]; llia).
  eapply wp_scr0; [done|done|done|apply frame_nil|]. intros c1 s1 W1 F1 R1 C1 S1.
  eapply wp_scr0; [done|done|done|exact F1|]. intros c2 s2 W2 F2 R2 C2 S2.
  eapply wp_scr0; [done|done|done|exact F2|]. intros c3 s3 W3 F3 R3 C3 S3.
  eapply wp_scr0; [done|done|done|exact F3|]. intros c4 s4 W4 F4 R4 C4 S4.
  eapply wp_scr0; [done|done|done|exact F4|]. intros c5 s5 W5 F5 R5 C5 S5.
  eapply wp_scr0; [done|done|done|exact F5|]. intros c6 s6 W6 F6 R6 C6 S6.
  eapply wp_step.
  { apply (pool_check_ok nb nc sd ks ss ps ls); [done|]. unfold n. cbn [length]. lia. }
  cbv beta match.
  eapply wp_step; [eapply touch_frame0; [exact F6|]; repeat (first [left|right])|].
  assert (heap s ⊆ heap s6) as S06 by (by eapply frame_sub).
  pose proof (view_mono _ _ _ _ _ _ _ _ S06 Hv) as Hv6.
  destruct (create_sized_ok dt dev (nb :: nc :: os) HUndef E s6 W6 Hs3 HE)
    as (s7 & q & pd & pm & pst & px7 & Hcr & Ht7).
  eapply wp_step.
  { rewrite (pooling_create_ok Hv6 Hok). exact Hcr. }
  cbv beta match. rewrite bool_decide_eq_true_2 by done. cbn [negb].
  eapply wp_step.
  { apply window_size_ok; [by eapply win_ks_pos|done|]. unfold n. cbn [length]. lia. }
  assert (forall c, c ∈ [c6; c5; c4; c3; c2; c1] -> touch (HPtr c) E s7 = Done tt s7) as HT.
  { intros c Hin. eapply touch_frame; [exact Ht7|exact F6|done]. }
  pose proof (view_mono _ _ _ _ _ _ _ _ (tnew_base _ _ Ht7) Hv6) as Hv7.
  pose proof (tnew_view _ _ Ht7) as Hv7'.
  eapply wp_step; [apply HT; rewrite !elem_of_cons; tauto|].
  eapply wp_step.
  { erewrite all_strides; [by rewrite strides_suffs|exact Hv7|exact Hsp|exact Hfit|apply rowmajor_layout|].
    unfold n. rewrite replicate_length. lia. }
  eapply wp_step; [apply HT; rewrite !elem_of_cons; tauto|].
  eapply wp_step.
  { erewrite all_strides; [by rewrite strides_suffs|exact Hv7'|exact Hsp|exact Hfit3|apply rowmajor_layout|].
    unfold n. rewrite replicate_length. cbn [length]. lia. }
  eapply wp_step; [by eapply tensor_data_ok|].
  eapply wp_step; [by eapply tensor_data_ok|].
  eapply wp_step; [by eapply tensor_dtype_ok|].
  eapply wp_step; [by apply (aget_nat _ 0)|].
  eapply wp_step; [by apply (aget_nat _ 1)|].
  replace (n - 2) with (Z.of_nat (length sd)) by (unfold n; cbn [length]; lia).
  pose proof (fits_drop Hsp Hfit) as Hd. pose proof (fits_drop Hsp Hfit3) as Hd3.
  pose proof (Hd 2%nat) as Hd2. pose proof (Hd 1%nat) as Hd1.
  pose proof (Hd3 2%nat) as Hd32. pose proof (Hd3 1%nat) as Hd31. cbn [drop] in *. rewrite !prodZ_cons in Hd1, Hd31.
  rewrite drop_0 in Hd2, Hd32. pose proof (prodZ_pos _ (win_ks_pos _ _ _ _ _ Hok)).
  eapply wp_step.
  { destruct (Z.to_nat nb) as [|nb'] eqn:Hnb; [lia|]. cbn [iter_ret].
    erewrite bind_done.
    2:{ erewrite bind_done by (apply HT; rewrite !elem_of_cons; tauto).
        erewrite bind_done by (apply HT; rewrite !elem_of_cons; tauto).
        erewrite bind_done by (apply HT; rewrite !elem_of_cons; tauto).
        destruct (Z.to_nat nc) as [|nc'] eqn:Hnc; [lia|]. cbn [iter_ret].
        erewrite bind_done.
        2:{ apply (pool_channel_unknown Hok Hsd Hnn Hu); fold os; lia. }
        reflexivity. }
    reflexivity. }
  cbv beta match. apply wp_ret. split.
  - eapply keeps_trans; [|by eapply wf_keeps_tnew]. split_and!; [done|done|lia].
  - left. auto.
Qed.
