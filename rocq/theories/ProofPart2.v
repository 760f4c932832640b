(** * ProofPart2: batch normalisation treats samples and channels independently *)
From stdpp Require Import gmap list.
From Coq Require Import ZArith Lia Floats.SpecFloat.
From Coq Require Import ZifyBool ZifyNat.
From Verif Require Import Base Mem Spec SpecReal SpecNN SpecNorm SpecCommute SpecPart ModelCore ModelBasic ModelMath ModelNN.
From Verif Require Import Logic ProofCore ProofCore2 ProofKernel ProofKernel2 ProofIndex ProofSlice ProofNorm6 ProofPart PropBasic2.
Ltac Zify.zify_post_hook ::= idtac.
Open Scope Z_scope.

Section part1.
  Context (c m u d : Z) (H0 : 0 <= c) (H1 : 0 < m) (H2 : c + m <= d) (H3 : c + m <= INT_MAX) (H4 : 1 <= u <= INT_MAX).
  Definition part1_of (T : atensor) : atensor :=
    AT (a_type T) (a_dev T) [cdiv m u] (tab [cdiv m u] (fun x => match x with [j] => at_ T [c + u * j] | _ => VU end)).
  Lemma part1_at T j : 0 <= j < cdiv m u -> at_ (part1_of T) [j] = at_ T [c + u * j].
  Proof using. intros Hj. unfold part1_of. rewrite at_tab; [done|]. constructor; [done|constructor]. Qed.
  Lemma part1_dims : slice_dims [m] [u] = [cdiv m u].
  Proof using H1. cbn. by replace (m =? 0) with false by lia. Qed.
  Lemma part1_legal : slice_ok [d] [c] [m] [u].
  Proof using H0 H1 H2 H3 H4. cbn. unfold INT_MAX in *. split_and!; lia. Qed.
  Lemma cdiv_le : cdiv m u <= m.
  Proof using H1 H4.
    pose proof (cdiv_pos m u H1 ltac:(lia)). pose proof (cdiv_bound m u (cdiv m u - 1) ltac:(lia) ltac:(lia)). nia.
  Qed.
  Lemma part1_makes ex T : a_dims T = [d] -> gives1 ex (part1 c m u) T (part1_of T).
  Proof using H0 H1 H2 H3 H4.
    intros Hd p o E s W HE HK _ HT. pose proof (C22_slice p T [c] [m] [u] o E s W HE HK HT) as K.
    rewrite part1_dims in K. unfold part1, part1_of.
    rewrite (tab_ext _ _ (fun x => match x with [j] => at_ T [c + u * j] | _ => VU end)) in K.
    - apply K; [by rewrite Hd|rewrite Hd; apply part1_legal|]. rewrite prodZ_cons. change (prodZ []) with 1.
      pose proof cdiv_le. lia.
    - intros x Hx. inversion Hx as [|? j ? x' Hj Hx']; subst. inversion Hx'; subst. cbn. by replace (m =? 0) with false by lia.
    - constructor; [|constructor]. pose proof (cdiv_pos m u). lia.
  Qed.
  Lemma part1_in j : 0 <= j < cdiv m u -> 0 <= c + u * j < d.
  Proof using H0 H1 H2 H3 H4. intros Hj. pose proof (cdiv_bound m u j ltac:(lia) Hj). nia. Qed.
  Lemma part1_init T : init T -> valid T -> a_dims T = [d] -> init (part1_of T).
  Proof using H0 H1 H2 H3 H4.
    intros I V Hd. unfold init, part1_of, tab. cbn [a_vals a_type]. apply Forall_fmap, Forall_forall. intros k _. unfold compose.
    assert (Forall (fun d => 0 < d) [cdiv m u]) as Hp by (constructor; [apply cdiv_pos; lia|constructor]).
    pose proof (unravel_in_box _ (Z.of_nat k) Hp) as Hx. destruct (unravel _ (Z.of_nat k)) as [|j x]; [by inversion Hx|].
    inversion Hx as [|? ? ? ? Hj Hx']; subst. inversion Hx'; subst. pose proof (part1_in j Hj) as Hj'.
    assert (in_box (a_dims T) [c + u * j]) as Hb by (rewrite Hd; constructor; [lia|constructor]).
    pose proof (ravel_bound _ _ Hb) as Hr. pose proof (valid_len _ V). unfold at_.
    destruct (lookup_lt_is_Some_2 (a_vals T) (Z.to_nat (ravel (a_dims T) [c + u * j])) ltac:(lia)) as [v Hv].
    rewrite Hv. cbn. by eapply Forall_lookup_1.
  Qed.
End part1.

Lemma bn_part ex p pS pB pM pV T Sc Bi Me Va d1 d2 sd eps o E s b n t c m u :
  wf s -> alloc_all E -> hooks_ok E ->
  holds (heap s) p T -> holds (heap s) pS Sc -> holds (heap s) pB Bi -> holds (heap s) pM Me -> holds (heap s) pV Va ->
  is_float (a_type T) = true -> a_dims T = d1 :: d2 :: sd -> bn_ok T 1 Sc Bi Me Va eps -> bn_sizes T 1 ->
  valid_binary (fprec F64) (femax F64) eps = true ->
  Forall (fun U => dev_type (a_dev U) = 0 /\ init U) [T; Sc; Bi; Me; Va] ->
  Forall (fun v => ~ negative v) (a_vals Va) ->
  part_ok b n t c m u d1 d2 sd ->
  exists B C D Sc' Bi' Me' Va',
    makes (aitisa_batch_norm (HPtr p) 1 (HPtr pS) (HPtr pB) (HPtr pM) (HPtr pV) eps o) E s B /\
    gives1 ex (part b n t c m u sd) T C /\ gives1 ex (part1 c m u) Sc Sc' /\ gives1 ex (part1 c m u) Bi Bi' /\
    gives1 ex (part1 c m u) Me Me' /\ gives1 ex (part1 c m u) Va Va' /\ gives1 ex (part b n t c m u sd) B D /\
    forall p' pS' pB' pM' pV' o' E' s', wf s' -> alloc_all E' -> hooks_ok E' ->
      holds (heap s') p' C -> holds (heap s') pS' Sc' -> holds (heap s') pB' Bi' -> holds (heap s') pM' Me' -> holds (heap s') pV' Va' ->
      makes (aitisa_batch_norm (HPtr p') 1 (HPtr pS') (HPtr pB') (HPtr pM') (HPtr pV') eps o') E' s' D.
Proof.
  intros W HE HH HT HS HB HM HV Ht Hd Hok Hsz Hv Hall Hneg HP.
  destruct (bn_float_out p pS pB pM pV T Sc Bi Me Va 1 eps o E s) as (ds & B & TB & VB & DB & VaB & Hds & Hout & _ & MB); try done.
  pose proof Hok as (Hr & _ & TS & TB' & TM & TV & (ch & Hch & DS & DB' & DM & DV) & Heps).
  rewrite Hd in Hch, Hds, Hout. change ((d1 :: d2 :: sd) !! Z.to_nat 1) with (Some d2) in Hch. injection Hch as <-.
  change (nth (Z.to_nat 1) (d1 :: d2 :: sd) 0) with d2 in Hds.
  pose proof HP as (Pb & Pn & Pbn & Pbi & Pt & Pc & Pm & Pcm & Pci & Pu & Ps & _).
  rewrite !Forall_cons in Hall. destruct Hall as ((C1 & I1) & (C2 & I2) & (C3 & I3) & (C4 & I4) & (C5 & I5) & _).
  exists B, (part_of b n t c m u sd T), (part_of b n t c m u sd B), (part1_of c m u Sc), (part1_of c m u Bi), (part1_of c m u Me), (part1_of c m u Va).
  split_and!; [done|by eapply part_makes|by apply (part1_makes c m u d2)..|by eapply part_makes; [|rewrite DB]|].
  intros p' pS' pB' pM' pV' o' E' s' W' HE' HH' HT' HS' HB' HM' HV'.
  pose proof (cdiv_le m u Pm Pu) as Lm. pose proof (cdiv_le n t Pn Pt) as Ln. pose proof (cdiv_pos m u Pm ltac:(lia)) as Qm.
  eapply bn_rule with (Sc := part1_of c m u Sc) (Bi := part1_of c m u Bi) (Me := part1_of c m u Me) (Va := part1_of c m u Va)
    (T := part_of b n t c m u sd T) (ds := fun k => ds (c + u * k)); try done.
  - rewrite Hd in Hr. cbn in Hr. split_and!; try done; cbn; try lia. by exists (cdiv m u).
  - destruct Hsz as (Z1 & Z2 & Z3). rewrite Hd in Z1, Z2. unfold bn_sizes, bn_lane in *. cbn [part_of a_dims tail].
    split_and!.
    + constructor; [done|]. by inversion Z1.
    + inversion Z2 as [|? ? Y1 Z2']; subst. inversion Z2' as [|? ? Y2 Z2'']; subst. constructor; [lia|]. constructor; [lia|done].
    + intros Hl. rewrite Hd in Z3. destruct (Z3 Hl) as (Y1 & Y2 & Y3). split_and!; [done|done|].
      change (nth (Z.to_nat 1) (cdiv n t :: cdiv m u :: sd) 0) with (cdiv m u).
      change (nth (Z.to_nat 1) (d1 :: d2 :: sd) 0) with d2 in Y3. change (a_type (part_of b n t c m u sd T)) with (a_type T). nia.
  - apply (part1_init c m u d2); try done. by eapply holds_valid.
  - by repeat constructor.
  - cbn [part_of a_dims]. change (nth (Z.to_nat 1) (cdiv n t :: cdiv m u :: sd) 0) with (cdiv m u). intros k Hk.
    rewrite part1_at by done. apply Hds. by apply (part1_in c m u d2).
  - by eapply part_valid; [|done|rewrite DB].
  - intros x Hx. cbn [part_of a_dims] in Hx. inversion Hx as [|? i ? x1 Hi Hx1]; subst. inversion Hx1 as [|? j ? x2 Hj Hx2]; subst.
    change (chan 1 (i :: j :: x2)) with j. cbv zeta. rewrite !part1_at by done. rewrite !part_at by done.
    destruct (part_in _ _ _ _ _ _ _ _ _ HP i j Hi Hj) as [Hi' Hj'].
    apply (Hout (b + t * i :: c + u * j :: x2)). constructor; [done|]. by constructor.
Qed.
