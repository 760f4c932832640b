(** * ProofNeg4: average pooling of negated tensors *)
From stdpp Require Import gmap list.
From Coq Require Import ZArith Lia Reals Floats.SpecFloat.
From Verif Require Import Base Mem Spec SpecReal SpecNN SpecUnit SpecNeg ModelCore ModelNN Logic ProofCore ProofCore2
  ProofIndex ProofKernel2 ProofMatmul3 ProofUnit ProofUnit2 ProofNeg ProofNeg2 ProofNeg3 PropPool.
Open Scope Z_scope.

Lemma conv_opp t x : flt_conv t (SFopp x) = SFopp (flt_conv t x).
Proof. destruct x as [?|?| |s m e]; try done. cbn [flt_conv SFopp]. apply round_opp. Qed.
Lemma double_neg t v d : is_float t = true -> to_double t v = Some d -> to_double t (neg_val v) = Some (SFopp d).
Proof.
  intros Ht. destruct v as [z|f|]; cbn [to_double]; rewrite ?Ht; try done. intros [= <-]. rewrite neg_opp. cbn [to_double]. rewrite Ht. by rewrite conv_opp.
Qed.
Lemma doubles_neg t (vs : list val) (ds : list spec_float) : is_float t = true -> mapM (to_double t) vs = Some ds -> mapM (to_double t) (neg_val <$> vs) = Some (SFopp <$> ds).
Proof.
  intros Ht H. apply mapM_Some in H. apply mapM_Some. induction H as [|v d vs ds H _ IH]; [constructor|]. cbn [fmap list_fmap]. constructor; [|done].
  by apply double_neg.
Qed.
Lemma sum_neg (ds : list spec_float) a a' : norm a' = norm (SFopp a) -> norm (foldl dadd a' (SFopp <$> ds)) = norm (SFopp (foldl dadd a ds)).
Proof.
  revert a a'. induction ds as [|d ds IH]; intros a a' H; [done|]. cbn [fmap list_fmap foldl]. apply IH. by apply (add_opp F64).
Qed.
Lemma avg_neg t n (vs : list val) v : is_float t = true -> pool_avg t n vs = Some v ->
  exists v', pool_avg t n (neg_val <$> vs) = Some v' /\ unsign_zero v' = unsign_zero (neg_val v).
Proof.
  intros Ht. unfold pool_avg. destruct (mapM (to_double t) vs) as [ds|] eqn:Hds; [|done]. rewrite (doubles_neg t vs ds Ht Hds).
  cbn [mbind option_bind]. unfold of_double. rewrite Ht. intros [= <-]. eexists. split; [done|]. rewrite neg_opp, !unsign_norm. f_equal.
  apply conv_norm, (div_norm F64). by apply sum_neg.
Qed.
Lemma window_neg T ks ss ps ls b c x : window (negated T) ks ss ps ls b c x = neg_val <$> window T ks ss ps ls b c x.
Proof.
  unfold window. change (a_dims (negated T)) with (a_dims T). apply omap_fmap. intros w. cbv zeta. rewrite at_neg. by destruct (decide _).
Qed.
Lemma pool_neg p T nb nc sd ks ss ps ls E s o :
  wf s -> alloc_all E -> hooks_ok E -> holds (heap s) p T ->
  a_dims T = nb :: nc :: sd -> (1 <= length sd <= 3)%nat -> win_ok sd ks ss ps ls ->
  prodZ ks <= INT64_MAX -> prodZ (win_outs sd ks ss ps ls) <= INT_MAX ->
  (Z.to_nat (prodZ ks) <= e_fuel E)%nat -> (Z.to_nat (prodZ (win_outs sd ks ss ps ls)) <= e_fuel E)%nat ->
  fits (tsz (a_type T)) (nb :: nc :: win_outs sd ks ss ps ls) ->
  is_float (a_type T) = true -> init T ->
  exists B B', opposite B B' /\ makes (aitisa_pooling (HPtr p) PAvg ks ss ps ls o) E s B /\
    forall p' o' E' s', wf s' -> alloc_all E' -> hooks_ok E' -> holds (heap s') p' (negated T) ->
      (Z.to_nat (prodZ ks) <= e_fuel E')%nat -> (Z.to_nat (prodZ (win_outs sd ks ss ps ls)) <= e_fuel E')%nat ->
      makes (aitisa_pooling (HPtr p') PAvg ks ss ps ls o') E' s' B'.
Proof.
  intros W HE HH HT DT Hr Hok H1 H2 H3 H4 Hfit Hf HI.
  destruct (C41_float p T nb nc sd ks ss ps ls E s o W HE HH HT DT Hr Hok H1 H2 H3 H4 Hfit Hf HI) as (B & TB & VB & DB & VaB & EB & MB).
  set (dims := nb :: nc :: win_outs sd ks ss ps ls) in *. rewrite DB in EB.
  set (G := fun c : list Z => match c with b :: c :: x => pool_avg (a_type T) (prodZ ks) (neg_val <$> window T ks ss ps ls b c x) | _ => None end).
  destruct (tab_choose (a_type T) (a_dev T) dims G Hfit) as (B' & VB' & TB' & DB' & SB' & EB').
  { intros c Hc. inversion Hc as [|? b ? c1 Hb Hc1]; subst. inversion Hc1 as [|? c ? x Hc' Hx]; subst.
    destruct (avg_neg _ _ _ _ Hf (EB b c x Hc)) as (v' & Hv & _). exists v'. exact Hv. }
  exists B, B'. split_and!; [|done|].
  - apply opposite_at; try congruence. intros c Hc. rewrite DB in Hc. pose proof (EB' c Hc) as Hg.
    inversion Hc as [|? b ? c1 Hb Hc1]; subst. inversion Hc1 as [|? c ? x Hc' Hx]; subst.
    destruct (avg_neg _ _ _ _ Hf (EB b c x Hc)) as (v' & Hv & Hu). unfold G in Hg. rewrite Hv in Hg. injection Hg as <-. exact Hu.
  - intros p' o' E' s' W' HE' HH' Hh Hf1 Hf2.
    eapply (C41_average p' (negated T) B' nb nc sd ks ss ps ls); try done.
    intros b c x Hx. rewrite SB' in Hx. rewrite window_neg. exact (EB' _ Hx).
Qed.
