(** * ProofPart3: softmax along an axis commutes with slicing the other axes *)
From stdpp Require Import gmap list.
From Coq Require Import ZArith Lia Floats.SpecFloat.
From Coq Require Import ZifyBool ZifyNat.
From Verif Require Import Base Mem Spec SpecReal SpecNN SpecCommute ModelCore ModelBasic ModelMath ModelNN.
From Verif Require Import Logic ProofCore ProofCore2 ProofKernel ProofKernel2 ProofIndex ProofSlice ProofSoftmax3 ProofSoftInt3 ProofPart PropNN PropSoftInt PropBasic2.
Ltac Zify.zify_post_hook ::= idtac.
Open Scope Z_scope.

Lemma src_in_box ds bs ns ts c : slice_ok ds bs ns ts -> Forall (fun n => 0 < n) ns -> in_box (slice_dims ns ts) c ->
  in_box ds (slice_src bs ns ts c).
Proof.
  revert bs ns ts c. induction ds as [|d ds IH]; intros [|b bs] [|n ns] [|t ts] c H Hp Hc; try done; [by constructor|].
  cbn [slice_ok] in H. destruct H as [H1 H]. inversion Hp as [|? ? Hn Hp']; subst. cbn [slice_dims slice_src] in *.
  replace (n =? 0) with false in * by lia. inversion Hc as [|? i ? c' Hi Hc']; subst. constructor; [|by apply IH].
  pose proof (cdiv_bound n t i ltac:(lia) Hi). nia.
Qed.
Lemma src_axis ds bs ns ts c a d j : slice_ok ds bs ns ts -> Forall (fun n => 0 < n) ns ->
  bs !! a = Some 0 -> ns !! a = Some d -> ts !! a = Some 1 -> length c = length ns ->
  slice_src bs ns ts (<[a := j]> c) = <[a := j]> (slice_src bs ns ts c) /\ slice_src bs ns ts c !! a = c !! a.
Proof.
  revert bs ns ts c a. induction ds as [|e ds IH]; intros [|b bs] [|n ns] [|t ts] c a H Hp Hb Hn Ht Hl; try done.
  cbn [slice_ok] in H. destruct H as [H1 H]. inversion Hp as [|? ? Hn' Hp']; subst. destruct c as [|i c]; [done|].
  cbn [slice_src]. replace (n =? 0) with false by lia. destruct a as [|a].
  - cbn in Hb, Hn, Ht. simplify_eq. cbn. replace (0 + 1 * j) with j by lia. replace (0 + 1 * i) with i by lia. 
    replace (d =? 0) with false by lia. done.
  - cbn in Hb, Hn, Ht, Hl. destruct (IH bs ns ts c a H Hp' Hb Hn Ht ltac:(lia)) as [K1 K2]. cbn.
    replace (n =? 0) with false by lia. split; [|exact K2]. f_equal. exact K1.
Qed.
Lemma dims_axis ds bs ns ts a d : slice_ok ds bs ns ts -> Forall (fun n => 0 < n) ns ->
  ns !! a = Some d -> ts !! a = Some 1 -> slice_dims ns ts !! a = Some d /\ length (slice_dims ns ts) = length ns.
Proof.
  revert bs ns ts a. induction ds as [|e ds IH]; intros [|b bs] [|n ns] [|t ts] a H Hp Hn Ht; try done.
  cbn [slice_ok] in H. destruct H as [H1 H]. inversion Hp as [|? ? Hn' Hp']; subst.
  assert (length (slice_dims ns ts) = length ns) as HL.
  { clear -H Hp'. revert bs ns ts H Hp'. induction ds as [|e ds IH]; intros [|b bs] [|n ns] [|t ts] H Hp; try done.
    cbn [slice_ok] in H. destruct H as [H1 H]. inversion Hp as [|? ? Hn' Hp']; subst. cbn. replace (n =? 0) with false by lia.
    cbn. f_equal. by eapply IH. }
  cbn [slice_dims]. replace (n =? 0) with false by lia. destruct a as [|a]; cbn in Hn, Ht |- *.
  - simplify_eq. rewrite cdiv_1. by rewrite HL.
  - destruct (IH bs ns ts a H Hp' Hn Ht) as [K _]. split; [exact K|by rewrite HL].
Qed.
Definition sliced (bs ns ts : list Z) (T : atensor) : atensor :=
  AT (a_type T) (a_dev T) (slice_dims ns ts) (tab (slice_dims ns ts) (fun c => at_ T (slice_src bs ns ts c))).
Lemma softmax_slice p T a d bs ns ts o E s :
  wf s -> alloc_all E -> hooks_ok E -> holds (heap s) p T -> init T ->
  Forall (fun d => 0 < d) (a_dims T) -> 2 * prodZ (a_dims T) <= INT64_MAX -> a_dims T !! a = Some d ->
  (exists X, makes (aitisa_softmax (HPtr p) (Z.of_nat a) o) E s X) ->
  slice_ok (a_dims T) bs ns ts -> Forall (fun n => 0 < n) ns -> prodZ (slice_dims ns ts) <= INT_MAX ->
  bs !! a = Some 0 -> ns !! a = Some d -> ts !! a = Some 1 ->
  exists B C D, makes (aitisa_softmax (HPtr p) (Z.of_nat a) o) E s B /\
    gives1 (e_exp E) (fun p o => aitisa_slice p bs ns ts o) T C /\ gives1 (e_exp E) (fun p o => aitisa_slice p bs ns ts o) B D /\
    gives1 (e_exp E) (fun p o => aitisa_softmax p (Z.of_nat a) o) C D.
Proof.
  intros W HE HH HT I Hpos Hmax Ha [X MX] Hsl Hns Hpr Hb Hn Ht.
  destruct (C39_exact_axis p T a d o E s W HE HH HT I Hpos Hmax Ha) as [K1 K2].
  destruct K1 as (B & TB & VB & DB & EB & MB).
  { intros c Hc Hnone. specialize (K2 c Hc Hnone). destruct MX as (? & ? & MX & _). by rewrite K2 in MX. }
  assert (valid B) as VaB by (by destruct MB as (? & ? & ? & MB & ?)).
  assert (a_dims T <> []) as Hne by (by destruct (a_dims T)).
  pose proof (holds_valid _ _ _ HT) as VT.
  exists B, (sliced bs ns ts T), (sliced bs ns ts B). split_and!; [done| | |].
  - intros p' o' E' s' W' HE' HH' _ HT'. by apply C22_slice.
  - intros p' o' E' s' W' HE' HH' _ HT'. apply C22_slice; try done; by rewrite DB.
  - intros p' o' E' s' W' HE' HH' HX HC.
    destruct (dims_axis _ _ _ _ a d Hsl Hns Hn Ht) as [Hda Hlen].
    eapply (C39_axis p' _ _ a d); try done.
    + by eapply slice_dims_pos.
    + cbn [sliced a_dims]. unfold INT64_MAX, INT_MAX in *. lia.
    + apply tab_valid. rewrite TB. eapply slice_dims_fits; [exact Hsl|]. by apply valid_fits.
    + intros c j Hc Hj. cbn [sliced a_dims] in Hc. assert (length c = length ns) as Hlc by (rewrite <-Hlen; symmetry; by eapply Forall2_length).
      pose proof (src_in_box _ _ _ _ _ Hsl Hns Hc) as Hsrc.
      destruct (EB (slice_src bs ns ts c) j Hsrc) as (ys & Hys & Hyj).
      { by rewrite (proj2 (src_axis _ _ _ _ c a d j Hsl Hns Hb Hn Ht Hlc)). }
      exists ys. rewrite HX. change (a_type (sliced bs ns ts T)) with (a_type T). split.
      * rewrite <-Hys. f_equal. unfold lane. cbn [sliced a_dims]. rewrite Hda, Ha. cbn [default from_option].
        apply list_fmap_ext. intros k x Hk. apply lookup_seq in Hk as [-> Hk]. rewrite Nat.add_0_l. unfold sliced. rewrite at_tab.
        -- by rewrite (proj1 (src_axis _ _ _ _ c a d (Z.of_nat k) Hsl Hns Hb Hn Ht Hlc)).
        -- unfold in_box. rewrite <-(list_insert_id (slice_dims ns ts) a d) by done. unfold id in Hk. apply Forall2_insert; [done|lia].
      * rewrite Hyj. unfold sliced. by rewrite at_tab.
Qed.
