(** * ProofConv7: what becomes of a filter that exceeds the input by less than a step *)
From stdpp Require Import gmap list.
From Coq Require Import ZArith Lia Floats.SpecFloat.
From Verif Require Import Base Mem Spec SpecNN SpecConv ModelCore ModelNN Logic ProofCore ProofCore2
  ProofConvWin ProofConv2.
Open Scope Z_scope.

Lemma windows ds ks ss ps ls :
  (win_ok ds ks ss ps ls -> cv_ok ds ks ss ps ls /\ cv_outs ds ks ss ps ls = win_outs ds ks ss ps ls) /\
  (forall d k s p l, cv_ok1 d k s p l -> d + 2 * p < l * (k - 1) + 1 -> cv_out d k s p l = 1).
Proof. split; [apply win_cv|exact cv_out_short]. Qed.

Lemma conv_large p pf T F nb nc oc fc sd ks ss ps ls g o E s i d k st pd l :
  wf s -> alloc_all E -> hooks_ok E -> holds (heap s) p T -> holds (heap s) pf F ->
  a_type T = F32 -> a_type F = F32 ->
  a_dims T = nb :: nc :: sd -> a_dims F = oc :: fc :: ks -> nc <= fc -> 0 < nc ->
  (length sd <= 3)%nat -> cv_ok sd ks ss ps ls ->
  fits (tsz F32) (nb :: oc :: cv_outs sd ks ss ps ls) -> init T -> init F ->
  sd !! i = Some d -> ks !! i = Some k -> ss !! i = Some st -> ps !! i = Some pd -> ls !! i = Some l ->
  d + 2 * pd < l * (k - 1) + 1 ->
  exists T3, init T3 /\ a_dims T3 !! S (S i) = Some 1 /\
    (forall b c x, in_box (a_dims T3) (b :: c :: x) ->
       mac_all F32 (zero_val F32) (conv_terms T F ss ps ls nc b c x) = Some (at_ T3 (b :: c :: x))) /\
    makes_saying (conv_status E) (aitisa_conv (HPtr p) (HPtr pf) ss ps ls g o) E s T3.
Proof.
  intros Hwf HE HH HT HF HtT HtF HdT HdF Hle Hnc Hrank Hok Hfit HiT HiF Hd Hk Hs Hp Hl Hsh.
  destruct (conv_total p pf T F nb nc oc fc sd ks ss ps ls g o E s Hwf HE HH HT HF HtT HtF HdT HdF Hle Hnc Hrank Hok Hfit HiT HiF)
    as (T3 & H1 & H2 & H3 & H4 & H5 & H6 & H7).
  exists T3. split_and!; [done| |done|done]. rewrite H3. change ((nb :: oc :: cv_outs sd ks ss ps ls) !! S (S i)) with (cv_outs sd ks ss ps ls !! i).
  destruct (cv_get _ _ _ _ _ i Hok ltac:(by eapply lookup_lt_Some)) as (d' & k' & s' & p' & l' & Ha & Hb & Hc & Hd' & He & Hok1 & Ho).
  rewrite Hd in Ha. rewrite Hk in Hb. rewrite Hs in Hc. rewrite Hp in Hd'. rewrite Hl in He. simplify_eq.
  rewrite Ho. by rewrite cv_out_short.
Qed.
