(** * ProofNeg: products and convolutions with negated operands *)
From stdpp Require Import gmap list list_numbers.
From Coq Require Import ZArith Lia Reals Floats.SpecFloat.
From Coq Require Import ZifyBool ZifyNat.
From Verif Require Import Base Mem Spec SpecReal SpecNN SpecUnit SpecRing SpecNeg ModelCore ModelMath ModelNN Logic ProofCore ProofCore2
  ProofIndex ProofKernel ProofKernel2 ProofMath ProofMatmul ProofMatmul3 ProofPool3 ProofDot4 ProofExp4 ProofConv ProofWindow ProofConv5 ProofLaws ProofRing ProofUnit ProofUnit2 ProofPoint PropConv PropMath2.
Ltac Zify.zify_post_hook ::= idtac.
Open Scope Z_scope.

(** ** Sign symmetry of the operations *)
Lemma neg_opp f : neg_val (VF f) = VF (SFopp f).
Proof. by destruct f. Qed.
Lemma round_aux_opp p e sx m ex l : binary_round_aux p e (negb sx) m ex l = SFopp (binary_round_aux p e sx m ex l).
Proof.
  unfold binary_round_aux. destruct (shr_fexp p e m ex l) as [r q]. destruct (shr_fexp p e (round_nearest_even (shr_m r) (loc_of_shr_record r)) q SpecFloat.loc_Exact) as [r' q'].
  destruct (shr_m r'); [done| |done]. destruct (_ <=? _); done.
Qed.
Lemma round_opp p e sx m ex : binary_round p e (negb sx) m ex = SFopp (binary_round p e sx m ex).
Proof. unfold binary_round. destruct (shl_align _ _ _). apply round_aux_opp. Qed.
Lemma mul_opp t x y : flt_op t OpMul x (SFopp y) = SFopp (flt_op t OpMul x y).
Proof.
  unfold flt_op, SFmul. destruct x as [s|s| |s m e], y as [s'|s'| |s' m' e']; cbn [SFopp]; try (by destruct s, s'); try done.
  rewrite <-round_aux_opp. f_equal. by destruct s, s'.
Qed.
Lemma norm_opp x : norm (SFopp x) = match norm x with S754_zero _ => fzero | y => SFopp y end.
Proof. by destruct x. Qed.
Lemma normalize_opp p e z ex s s' : norm (binary_normalize p e (- z) ex s) = norm (SFopp (binary_normalize p e z ex s')).
Proof.
  unfold binary_normalize. destruct z as [|z|z]; cbn [Z.opp]; [done| |].
  - by rewrite <-round_opp.
  - by rewrite <-round_opp.
Qed.
Lemma add_opp t a a' m : norm a' = norm (SFopp a) -> norm (flt_op t OpAdd a' (SFopp m)) = norm (SFopp (flt_op t OpAdd a m)).
Proof.
  unfold flt_op. intros H.
  destruct a as [s|s| |s n e], a' as [s'|s'| |s' n' e']; cbn in H; try discriminate H; try injection H as ->; subst;
    destruct m as [u|u| |u k f]; try (by destruct s, u); try (by destruct s', s, u); try (by destruct u); try done.
  - cbn [SFopp SFadd]. cbv zeta.
    replace (cond_Zopp (negb s) (Z.pos (fst (shl_align n e (Z.min e f)))) + cond_Zopp (negb u) (Z.pos (fst (shl_align k f (Z.min e f)))))
      with (- (cond_Zopp s (Z.pos (fst (shl_align n e (Z.min e f)))) + cond_Zopp u (Z.pos (fst (shl_align k f (Z.min e f)))))).
    + apply normalize_opp.
    + destruct s, u; cbn [cond_Zopp negb]; lia.
Qed.

(** ** Sums of products *)
Definition neg1 (p : val * val) : val * val := (neg_val p.1, p.2).
Definition neg2 (p : val * val) : val * val := (p.1, neg_val p.2).
Lemma neg_neg v : neg_val (neg_val v) = v.
Proof. destruct v as [|[[]|[]| |[] ? ?]|]; done. Qed.
Lemma mac_swap t c x y : mac_val t c (neg_val x) y = mac_val t c x (neg_val y).
Proof.
  destruct c as [?|c|], x as [?|x|], y as [?|y|]; rewrite ?neg_opp; try done. cbn [mac_val].
  by rewrite (mul_comm t (SFopp x)), !mul_opp, (mul_comm t y x).
Qed.
Lemma mac_all_swap t l c : mac_all t c (neg1 <$> l) = mac_all t c (neg2 <$> l).
Proof.
  unfold mac_all. generalize (Some c) as acc. induction l as [|[x y] l IH]; intros acc; [done|]. cbn [fmap list_fmap foldl neg1 neg2 fst snd].
  destruct acc as [a|]; cbn [mbind option_bind]; [rewrite mac_swap; apply IH|apply IH].
Qed.
Lemma mac_all_both t l c : mac_all t c (neg1 <$> (neg2 <$> l)) = mac_all t c l.
Proof.
  rewrite mac_all_swap. f_equal. rewrite <-list_fmap_compose. rewrite <-(list_fmap_id l) at 2. apply list_fmap_ext. intros ? [x y] _.
  unfold compose, neg2. cbn. by rewrite neg_neg.
Qed.
Lemma mac_neg t l : is_float t = true -> forall a a' v, mac_all t (VF a) l = Some v -> norm a' = norm (SFopp a) ->
  exists r r', v = VF r /\ mac_all t (VF a') (neg2 <$> l) = Some (VF r') /\ norm r' = norm (SFopp r).
Proof.
  intros Ht. induction l as [|[x y] l IH]; intros a a' v Hv Hn.
  - injection Hv as <-. by exists a, a'.
  - unfold mac_all in Hv |- *. cbn [fmap list_fmap foldl neg2 fst snd mbind option_bind] in Hv |- *.
    destruct x as [x|x|], y as [y|y|]; rewrite ?neg_opp; cbn [mac_val neg_val] in Hv |- *; rewrite ?Ht in *;
      try (unfold mac_all in *; rewrite mac_all_none in Hv; discriminate).
    rewrite mul_opp. apply (IH _ _ _ Hv). by apply add_opp.
Qed.
Lemma omap_fmap {A B} (f f' : A -> option B) (g : B -> B) (l : list A) : (forall x, f' x = g <$> f x) -> omap f' l = g <$> omap f l.
Proof. intros H. induction l as [|x l IH]; [done|]. cbn. rewrite H. destruct (f x); cbn; [f_equal|]; exact IH. Qed.
Lemma bind_fmap {A B} (h h' : A -> list B) (g : B -> B) (l : list A) : (forall x, h' x = g <$> h x) -> l ≫= h' = g <$> (l ≫= h).
Proof. intros H. induction l as [|x l IH]; [done|]. cbn. by rewrite H, IH, fmap_app. Qed.
Lemma at_neg T c : at_ (negated T) c = neg_val (at_ T c).
Proof. unfold at_, negated. cbn [a_vals a_dims]. rewrite list_lookup_fmap. by destruct (a_vals T !! _). Qed.
Lemma valid_neg T : valid T -> valid (negated T).
Proof. intros [V1 V2]. split; [exact V1|]. cbn [negated a_vals a_dims a_type]. by rewrite fmap_length. Qed.
Lemma terms_neg2 T F ss ps ls nc b c x : conv_terms T (negated F) ss ps ls nc b c x = neg2 <$> conv_terms T F ss ps ls nc b c x.
Proof.
  unfold conv_terms. apply bind_fmap. intros ic. unfold conv_chan. cbn [negated a_dims]. apply omap_fmap. intros w. cbv zeta. rewrite at_neg.
  destruct (decide _); done.
Qed.
Lemma terms_neg1 T F ss ps ls nc b c x : conv_terms (negated T) F ss ps ls nc b c x = neg1 <$> conv_terms T F ss ps ls nc b c x.
Proof.
  unfold conv_terms. apply bind_fmap. intros ic. unfold conv_chan. change (a_dims (negated T)) with (a_dims T). apply omap_fmap. intros w. cbv zeta. rewrite at_neg.
  destruct (decide _); done.
Qed.
Lemma unsign_norm f : unsign_zero (VF f) = VF (norm f).
Proof. by destruct f. Qed.
(** Tensors that are opposite at all coordinates *)
Lemma opposite_at A B : valid A -> valid B -> a_type B = a_type A -> a_dev B = a_dev A -> a_dims B = a_dims A ->
  (forall c, in_box (a_dims A) c -> unsign_zero (at_ B c) = unsign_zero (neg_val (at_ A c))) -> opposite A B.
Proof.
  intros VA VB Ht Hd Hs H. split_and!; try done.
  rewrite <-(tab_at _ VA), <-(tab_at _ VB), Hs. unfold tab. rewrite <-!list_fmap_compose. apply list_fmap_ext. intros ? k Hk. unfold compose.
  apply H. apply lookup_seq in Hk as [-> Hk]. apply unravel_in_box, prodZ_pos_inv; [apply VA|lia].
Qed.

(** ** Convolutions and matrix products *)
Lemma conv_neg p pf T F nb nc oc fc sd ks ss ps ls g o E s :
  wf s -> alloc_all E -> hooks_ok E -> holds (heap s) p T -> holds (heap s) pf F ->
  a_type T = F32 -> a_type F = F32 ->
  a_dims T = nb :: nc :: sd -> a_dims F = oc :: fc :: ks -> nc <= fc -> 0 < nc ->
  (length sd <= 3)%nat -> win_ok sd ks ss ps ls ->
  fits (tsz F32) (nb :: oc :: win_outs sd ks ss ps ls) -> init T -> init F ->
  exists B B', opposite B B' /\
    makes_saying (conv_status E) (aitisa_conv (HPtr p) (HPtr pf) ss ps ls g o) E s B /\
    forall q qf g' o' E' s', wf s' -> alloc_all E' -> hooks_ok E' ->
      (holds (heap s') q T -> holds (heap s') qf (negated F) ->
        makes_saying (conv_status E') (aitisa_conv (HPtr q) (HPtr qf) ss ps ls g' o') E' s' B') /\
      (holds (heap s') q (negated T) -> holds (heap s') qf F ->
        makes_saying (conv_status E') (aitisa_conv (HPtr q) (HPtr qf) ss ps ls g' o') E' s' B') /\
      (holds (heap s') q (negated T) -> holds (heap s') qf (negated F) ->
        makes_saying (conv_status E') (aitisa_conv (HPtr q) (HPtr qf) ss ps ls g' o') E' s' B).
Proof.
  intros W HE HH HT HF TT TF DT DF Hnf Hnc Hr Hok Hfit IT IF.
  destruct (C44_defined p pf T F nb nc oc fc sd ks ss ps ls g o E s W HE HH HT HF TT TF DT DF Hnf Hnc Hr Hok Hfit IT IF)
    as (B & TB & VB & DB & VaB & _ & EB & MB).
  set (dims := nb :: oc :: win_outs sd ks ss ps ls) in *.
  set (G := fun c : list Z => match c with b :: c :: x => mac_all F32 (zero_val F32) (neg2 <$> conv_terms T F ss ps ls nc b c x) | _ => None end).
  assert (forall b c x, in_box dims (b :: c :: x) -> exists r r', at_ B (b :: c :: x) = VF r /\ G (b :: c :: x) = Some (VF r') /\ norm r' = norm (SFopp r)) as HG.
  { intros b c x Hx. rewrite DB in EB. pose proof (EB b c x Hx) as Hb. by apply (mac_neg F32 _ eq_refl fzero fzero _ Hb). }
  destruct (tab_choose F32 (a_dev T) dims G Hfit) as (B' & VB' & TB' & DB' & SB' & EB').
  { intros c Hc. inversion Hc as [|? b ? c1 Hb Hc1]; subst. inversion Hc1 as [|? c ? x Hc' Hx]; subst.
    destruct (HG b c x Hc) as (r & r' & _ & -> & _). eauto. }
  exists B, B'. split_and!; [|done|].
  - apply opposite_at; try congruence. intros c Hc. rewrite DB in Hc.
    inversion Hc as [|? b ? c1 Hb Hc1]; subst. inversion Hc1 as [|? c ? x Hc' Hx]; subst.
    destruct (HG b c x Hc) as (r & r' & H1 & H2 & H3). rewrite EB' in H2 by done. injection H2 as H2. rewrite H1, H2, neg_opp, !unsign_norm. by rewrite H3.
  - intros q qf g' o' E' s' W' HE' HH'. split_and!; intros Hq Hqf.
    + eapply (C44_convolution q qf T (negated F) nb nc oc fc sd ks); try done. intros b c x Hx. rewrite SB' in Hx. rewrite terms_neg2. exact (EB' _ Hx).
    + eapply (C44_convolution q qf (negated T) F nb nc oc fc sd ks); try done. intros b c x Hx. rewrite SB' in Hx. rewrite terms_neg1, mac_all_swap. exact (EB' _ Hx).
    + eapply (C44_convolution q qf (negated T) (negated F) nb nc oc fc sd ks); try done. intros b c x Hx. rewrite terms_neg1, terms_neg2, mac_all_both. by apply EB.
Qed.

Lemma float_at T c : is_float (a_type T) = true -> valid T -> init T -> in_box (a_dims T) c -> exists f, at_ T c = VF f.
Proof.
  intros Hf V I Hc. pose proof (at_elem T c V Hc) as He. unfold init in I. rewrite Forall_forall in I. specialize (I _ He).
  destruct (at_ T c) as [z|f|]; [destruct I; congruence|eauto|done].
Qed.
Lemma mac_float t (f g : nat -> val) ks : is_float t = true -> (forall k, k ∈ ks -> exists x y, f k = VF x /\ g k = VF y) ->
  forall a, exists r, mac_all t (VF a) ((fun k => (f k, g k)) <$> ks) = Some (VF r).
Proof.
  intros Ht. induction ks as [|k ks IH]; intros H a; [by exists a|]. unfold mac_all. cbn [fmap list_fmap foldl mbind option_bind].
  destruct (H k) as (x & y & -> & ->); [by left|]. cbn [mac_val]. rewrite Ht. apply IH. intros k' Hk'. apply H. by right.
Qed.
Lemma inner_neg2 t n f g : inner t n f (fun q => neg_val (g q)) = mac_all t (zero_val t) (neg2 <$> ((fun k => (f (Z.of_nat k), g (Z.of_nat k))) <$> seq 0 (Z.to_nat n))).
Proof. rewrite <-mac_inner, <-list_fmap_compose. done. Qed.
Lemma inner_neg1 t n f g : inner t n (fun q => neg_val (f q)) g = inner t n f (fun q => neg_val (g q)).
Proof. rewrite inner_neg2, <-mac_all_swap, <-mac_inner, <-list_fmap_compose. done. Qed.
Lemma inner_neg_both t n f g : inner t n (fun q => neg_val (f q)) (fun q => neg_val (g q)) = inner t n f g.
Proof. rewrite inner_neg1. rewrite <-!mac_inner. f_equal. apply list_fmap_ext. intros ? k _. by rewrite neg_neg. Qed.

Lemma box_ij m n i j : 0 <= i < m -> 0 <= j < n -> in_box [m; n] [i; j].
Proof. intros. constructor; [done|]. by constructor. Qed.
Lemma mm_neg t m k n A B : is_float t = true -> matrix t m k A -> matrix t k n B ->
  m <= INT_MAX -> k <= INT_MAX -> n <= INT_MAX -> m * n <= INT_MAX -> fits (tsz t) [m; n] ->
  exists C C', opposite C C' /\
    gives aitisa_matmul A B C /\ gives aitisa_matmul (negated A) (negated B) C /\
    gives aitisa_matmul A (negated B) C' /\ gives aitisa_matmul (negated A) B C'.
Proof.
  intros Hf (VA & IA & YA & DA & SA) (VB & IB & YB & DB & SB) Hm Hk Hn Hmn Hfit.
  set (l := fun i j => (fun q => (at_ A [i; Z.of_nat q], at_ B [Z.of_nat q; j])) <$> seq 0 (Z.to_nat k)).
  assert (forall i j, 0 <= i < m -> 0 <= j < n -> exists r r', mac_all t (zero_val t) (l i j) = Some (VF r) /\
    mac_all t (zero_val t) (neg2 <$> l i j) = Some (VF r') /\ norm r' = norm (SFopp r)) as HL.
  { intros i j Hi Hj. unfold zero_val. rewrite Hf.
    destruct (mac_float t (fun q => at_ A [i; Z.of_nat q]) (fun q => at_ B [Z.of_nat q; j]) (seq 0 (Z.to_nat k)) Hf) with (a := fzero) as [r Hr].
    { intros q Hq. apply elem_of_seq in Hq. destruct (float_at A [i; Z.of_nat q]) as [x Hx]; [congruence|done|done|rewrite SA; apply box_ij; lia|].
      destruct (float_at B [Z.of_nat q; j]) as [y Hy]; [congruence|done|done|rewrite SB; apply box_ij; lia|]. eauto. }
    destruct (mac_neg t _ Hf fzero fzero _ Hr eq_refl) as (r1 & r' & E1 & E2 & E3). injection E1 as <-. by exists r, r'. }
  destruct (tab_choose t (a_dev A) [m; n] (fun c => match c with [i; j] => mac_all t (zero_val t) (l i j) | _ => None end) Hfit) as (C & VC & TC & DC & SC & EC).
  { intros c Hc. inversion Hc as [|? i ? c1 Hi Hc1]; subst. inversion Hc1 as [|? j ? c2 Hj Hc2]; subst. inversion Hc2; subst.
    destruct (HL i j Hi Hj) as (r & r' & -> & _). eauto. }
  destruct (tab_choose t (a_dev A) [m; n] (fun c => match c with [i; j] => mac_all t (zero_val t) (neg2 <$> l i j) | _ => None end) Hfit) as (C' & VC' & TC' & DC' & SC' & EC').
  { intros c Hc. inversion Hc as [|? i ? c1 Hi Hc1]; subst. inversion Hc1 as [|? j ? c2 Hj Hc2]; subst. inversion Hc2; subst.
    destruct (HL i j Hi Hj) as (r & r' & _ & -> & _). eauto. }
  assert (prodZ [m; n] <= INT_MAX) as Hmn' by (rewrite !prodZ_cons, prodZ_nil; lia).
  exists C, C'. split_and!.
  - apply opposite_at; try congruence. intros c Hc. rewrite SC in Hc.
    pose proof (EC c Hc) as H1. pose proof (EC' c Hc) as H2.
    inversion Hc as [|? i ? c1 Hi Hc1]; subst. inversion Hc1 as [|? j ? c2 Hj Hc2]; subst. inversion Hc2; subst. cbv beta match in H1, H2.
    destruct (HL i j Hi Hj) as (r & r' & E1 & E2 & E3). rewrite E1 in H1. rewrite E2 in H2. injection H1 as <-. injection H2 as <-.
    rewrite neg_opp, !unsign_norm. by rewrite E3.
  - intros p1 p2 o E s W HE H1 H2. eapply makes_enough; [done|]. eapply (C31_matrix_matrix p1 p2 _ _ C o E s); try done; try congruence.
    intros i j Hi Hj. rewrite YA, <-(EC [i; j]) by (apply box_ij; lia). rewrite <-mac_inner. done.
  - intros p1 p2 o E s W HE H1 H2. eapply makes_enough; [done|]. eapply (C31_matrix_matrix p1 p2 _ _ C o E s); try done; cbn [negated a_type a_dev a_dims]; try congruence.
    intros i j Hi Hj. rewrite YA, <-(EC [i; j]) by (apply box_ij; lia).
    rewrite (inner_ext t k _ _ (fun q => neg_val (at_ A [i; q])) (fun q => neg_val (at_ B [q; j]))) by (intros; split; apply at_neg).
    rewrite inner_neg_both, <-mac_inner. done.
  - intros p1 p2 o E s W HE H1 H2. eapply makes_enough; [done|]. eapply (C31_matrix_matrix p1 p2 _ _ C' o E s); try done; cbn [negated a_type a_dev a_dims]; try congruence.
    intros i j Hi Hj. rewrite YA, <-(EC' [i; j]) by (apply box_ij; lia).
    rewrite (inner_ext t k _ _ (fun q => at_ A [i; q]) (fun q => neg_val (at_ B [q; j]))) by (intros; split; [done|apply at_neg]).
    by rewrite inner_neg2.
  - intros p1 p2 o E s W HE H1 H2. eapply makes_enough; [done|]. eapply (C31_matrix_matrix p1 p2 _ _ C' o E s); try done; cbn [negated a_type a_dev a_dims]; try congruence.
    intros i j Hi Hj. rewrite YA, <-(EC' [i; j]) by (apply box_ij; lia).
    rewrite (inner_ext t k _ _ (fun q => neg_val (at_ A [i; q])) (fun q => at_ B [q; j])) by (intros; split; [apply at_neg|done]).
    by rewrite inner_neg1, inner_neg2.
Qed.
