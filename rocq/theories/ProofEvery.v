(** * ProofEvery: exactly when broadcasting, pooling and convolution go wrong *)
From stdpp Require Import gmap list.
From Coq Require Import ZArith Lia.
From Coq Require Import ZifyBool ZifyNat.
From Verif Require Import Base Mem Spec SpecReal SpecNN ModelCore ModelBasic ModelMath ModelNN Logic ProofCore ProofCore2
  ProofBasic ProofBasic2 ProofBroadcast ProofIndex ProofKernel ProofSoftmax ProofPool2 ProofPool3 ProofConv ProofConv2 ProofConv5.
Open Scope Z_scope.

(** ** Broadcasting *)
Lemma craw_same l k r r' : craw l k = Some r -> bcast_rev l k = Some r' ->
  (r = r' <-> forall j a b, l !! j = Some a -> k !! j = Some b ->
     ~ (a < 1 /\ b = 1) /\ ~ (a = 1 /\ b < 1)).
Proof.
  revert k r r'. induction l as [|a l IH]; intros [|b k] r r'; cbn [craw bcast_rev].
  - intros [= <-] [= <-]. split; [done|]. done.
  - intros [= <-] [= <-]. split; [done|]. done.
  - intros [= <-] [= <-]. split; [done|]. done.
  - unfold bdim. destruct (bok a b) eqn:Hok; [|done]. unfold bok in Hok.
    intros (r1 & Hr1 & ->)%fmap_Some.
    destruct (bcast_rev l k) as [r2|] eqn:Hr2; [|by repeat case_match].
    intros Hx. assert (exists x, r' = x :: r2 /\
      x = if a =? b then a else if a =? 1 then b else a) as (x & -> & Hxv).
    { destruct (Z.eqb_spec a b); [simplify_eq; eauto|]. destruct (Z.eqb_spec a 1); [simplify_eq; eauto|].
      destruct (Z.eqb_spec b 1); [simplify_eq; eauto|done]. }
    specialize (IH k r1 r2 Hr1 Hr2). split.
    + intros [= Hz Hrr]. pose proof (proj1 IH Hrr) as Hrest. clear Hx. intros [|j] a' b' Ha Hb; [|by eapply Hrest].
      cbn in Ha, Hb. simplify_eq. unfold zmax in Hz.
      destruct (Z.ltb_spec b' a'), (Z.eqb_spec a' b'), (Z.eqb_spec a' 1); lia.
    + intros H. assert (~ (a < 1 /\ b = 1) /\ ~ (a = 1 /\ b < 1)) as Hab by by apply (H 0%nat).
      f_equal.
      * unfold zmax. subst x. destruct (Z.ltb_spec b a), (Z.eqb_spec a b), (Z.eqb_spec a 1); lia.
      * apply IH. intros j a' b' Ha Hb. by apply (H (S j)).
Qed.

Lemma broadcast_exact E s d1 d2 out r :
  length out = Nat.max (length d1) (length d2) -> bcast d1 d2 = Some r ->
  (aitisa_broadcast_array d1 (Z.of_nat (length d1)) d2 (Z.of_nat (length d2)) out (Z.of_nat (length out)) E s
   = Done (SUCCESS, Some <$> r) s
   <-> forall j a b, rev d1 !! j = Some a -> rev d2 !! j = Some b ->
     ~ (a < 1 /\ b = 1) /\ ~ (a = 1 /\ b < 1)).
Proof.
  intros Hl Hr. destruct (broadcast_craw d1 d2 out E s Hl) as [out' ->].
  unfold bcast in Hr. destruct (bcast_rev (rev d1) (rev d2)) as [r'|] eqn:Hr'; [|done].
  injection Hr as <-.
  destruct (craw (rev d1) (rev d2)) as [r2|] eqn:Hr2.
  2:{ apply craw_None_iff in Hr2. congruence. }
  rewrite <-(craw_same _ _ _ _ Hr2 Hr'). split; [|by intros ->].
  intros [= H]. apply (inj (fmap Some)) in H. by apply (inj rev) in H || by rewrite <-(rev_involutive r2), H, rev_involutive.
Qed.

(** ** Tensors nothing was written to *)
Definition blank (t : tcode) (dev : device) (dims : list Z) : atensor :=
  AT t dev dims (replicate (Z.to_nat (prodZ dims)) VU).
Lemma blank_valid t dev dims : fits (tsz t) dims -> valid (blank t dev dims).
Proof.
  intros Hf. split; [exact Hf|]. cbn. rewrite replicate_length.
  pose proof (prodZ_nonneg dims (proj1 Hf)). lia.
Qed.
Lemma blank_at t dev dims c : fits (tsz t) dims -> in_box dims c -> at_ (blank t dev dims) c = VU.
Proof.
  intros Hf Hc. pose proof (at_elem (blank t dev dims) c (blank_valid _ _ _ Hf) Hc) as H.
  by apply elem_of_replicate in H as [-> _].
Qed.

(** ** Pooling in a mode that does not exist *)
Lemma pooling_other p T nb nc sd ks ss ps ls o E s :
  wf s -> alloc_all E -> hooks_ok E -> holds (heap s) p T -> init T ->
  a_dims T = nb :: nc :: sd -> (1 <= length sd <= 3)%nat -> win_ok sd ks ss ps ls ->
  prodZ ks <= INT64_MAX -> prodZ (win_outs sd ks ss ps ls) <= INT_MAX ->
  (Z.to_nat (prodZ ks) <= e_fuel E)%nat -> (Z.to_nat (prodZ (win_outs sd ks ss ps ls)) <= e_fuel E)%nat ->
  fits (tsz (a_type T)) (nb :: nc :: win_outs sd ks ss ps ls) ->
  makes (aitisa_pooling (HPtr p) POther ks ss ps ls o) E s
    (AT (a_type T) (a_dev T) (nb :: nc :: win_outs sd ks ss ps ls)
       (replicate (Z.to_nat (prodZ (nb :: nc :: win_outs sd ks ss ps ls))) VU)).
Proof.
  intros Hwf HE HH HT Hin Hdim Hrank Hok Hks Hos Hf1 Hf2 Hfit.
  apply (pooling_rule_any POther p T (blank (a_type T) (a_dev T) (nb :: nc :: win_outs sd ks ss ps ls)) nb nc sd);
    try done; [by apply blank_valid|].
  intros b c x Hx. cbn [blank a_dims] in Hx. rewrite blank_at by done.
  inversion Hx as [|? ? ? ? Hb Hy]; subst. inversion Hy as [|? ? ? ? Hc Hz]; subst.
  pose proof (window_forall _ T nb nc sd ks ss ps ls b c x (holds_valid _ _ _ HT) Hdim Hb Hc Hin) as Hw.
  unfold pool_value.
  destruct (mapM_total (to_double (a_type T)) (fun _ => True) (window T ks ss ps ls b c x)) as (ds & -> & _); [|done].
  eapply Forall_impl; [exact Hw|]. intros [z|f|] Hv; [| |done]; unfold to_double.
  - destruct (is_float (a_type T)) eqn:Hf; [|eauto]. destruct Hv; congruence.
  - destruct (is_float (a_type T)) eqn:Hf; [eauto|]. destruct Hv; congruence.
Qed.

(** ** Convolution without input channels *)
Lemma conv_zero_channels p pf T F nb oc fc sd ks ss ps ls g o E s :
  wf s -> alloc_all E -> hooks_ok E -> holds (heap s) p T -> holds (heap s) pf F ->
  a_type T = F32 -> a_type F = F32 ->
  a_dims T = nb :: 0 :: sd -> a_dims F = oc :: fc :: ks ->
  (length sd <= 3)%nat -> win_ok sd ks ss ps ls ->
  fits (tsz F32) (nb :: oc :: win_outs sd ks ss ps ls) ->
  makes_saying (conv_status E) (aitisa_conv (HPtr p) (HPtr pf) ss ps ls g o) E s
    (AT F32 (a_dev T) (nb :: oc :: win_outs sd ks ss ps ls)
       (replicate (Z.to_nat (prodZ (nb :: oc :: win_outs sd ks ss ps ls))) VU)).
Proof.
  intros Hwf HE HH HT HF HtT HtF HdT HdF Hrank Hok Hfit.
  eapply conv_float_conv; [exact HT|done|].
  assert (0 <= fc) as Hfc.
  { pose proof (valid_fits _ (holds_valid _ _ _ HF)) as [Hn _]. rewrite HdF in Hn.
    apply Forall_cons in Hn as [_ Hn]. by apply Forall_cons in Hn as [Hn _]. }
  eapply (fit_conv_float_any p pf T F (blank F32 (a_dev T) (nb :: oc :: win_outs sd ks ss ps ls)) nb 0 oc fc sd ks);
    try done; [by apply blank_valid|].
  intros b c x Hx. cbn [blank a_dims] in Hx. by rewrite blank_at.
Qed.
