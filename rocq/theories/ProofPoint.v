(** * ProofPoint: convolutions whose filters have one element per channel *)
From stdpp Require Import gmap list.
From Coq Require Import ZArith Lia Reals Floats.SpecFloat.
From Coq Require Import ZifyBool ZifyNat.
From Flocq Require Import Core IEEE754.BinarySingleNaN.
From Verif Require Import Base Mem Spec SpecReal SpecNN SpecUnit SpecRing ModelCore ModelMath ModelNN Logic ProofCore ProofCore2
  ProofIndex ProofKernel ProofMath ProofMatmul ProofDot4 ProofFloat ProofFloat2 ProofFloat3 ProofWindow ProofConv5 ProofLaws ProofRing ProofUnit ProofUnit2 PropConv PropMath2.
Ltac Zify.zify_post_hook ::= idtac.
Open Scope Z_scope.

Lemma chan_ones T F nb nc oc fc sd b c ic x : a_dims T = nb :: nc :: sd -> a_dims F = oc :: fc :: ones (length sd) -> in_box sd x ->
  let n := length sd in
  conv_chan T F (ones n) (zeros n) (ones n) b c ic x = [(at_ T (b :: ic :: x), at_ F (c :: ic :: zeros n))].
Proof.
  intros HT HF Hx n. unfold conv_chan, coords. rewrite HF. cbn [drop]. rewrite ?drop_0. rewrite prod_ones. change (Z.to_nat 1) with 1%nat.
  change (seq 0 1) with [0%nat]. cbn [fmap list_fmap]. change (Z.of_nat 0) with 0. rewrite unravel_ones. cbn [omap list_omap]. subst n.
  pose proof (Forall2_length _ _ _ Hx) as Hl. rewrite Hl, win_coord_ones, HT. cbn [drop]. rewrite ?drop_0. rewrite decide_True by done. done.
Qed.
Lemma mac_terms t nc (f g : Z -> val) (l : Z -> list (val * val)) : (forall i, 0 <= i < nc -> l i = [(f i, g i)]) ->
  mac_all t (zero_val t) (seqZ 0 nc ≫= l) = inner t nc f g.
Proof.
  intros H. unfold mac_all, inner.
  assert (seqZ 0 nc = Z.of_nat <$> seq 0 (Z.to_nat nc)) as ->.
  { unfold seqZ. apply list_fmap_ext. intros i x _. lia. }
  generalize (Some (zero_val t)) as acc.
  assert (forall k, k ∈ seq 0 (Z.to_nat nc) -> l (Z.of_nat k) = [(f (Z.of_nat k), g (Z.of_nat k))]) as H'.
  { intros k Hk. apply H. apply elem_of_seq in Hk. lia. }
  clear H. revert H'. generalize (seq 0 (Z.to_nat nc)) as ks. induction ks as [|k ks IH]; intros Hl acc; [done|].
  cbn [fmap list_fmap mbind list_bind foldl]. rewrite (Hl k) by (by left). cbn [app foldl]. apply IH. intros k' Hk'. apply Hl. by right.
Qed.
Lemma pointwise p pf T F nb nc oc fc sd g o E s :
  wf s -> alloc_all E -> hooks_ok E -> holds (heap s) p T -> holds (heap s) pf F -> a_type T = F32 -> a_type F = F32 ->
  let n := length sd in
  a_dims T = nb :: nc :: sd -> a_dims F = oc :: fc :: ones n -> nc <= fc -> 0 < nc -> (n <= 3)%nat -> Forall (fun d => 1 <= d <= 2 ^ 51) sd ->
  forall T3, a_type T3 = F32 -> a_dev T3 = a_dev T -> a_dims T3 = nb :: oc :: sd -> valid T3 ->
  (forall b c x, in_box (nb :: oc :: sd) (b :: c :: x) ->
     inner F32 nc (fun i => at_ T (b :: i :: x)) (fun i => at_ F (c :: i :: zeros n)) = Some (at_ T3 (b :: c :: x))) ->
  makes_saying (conv_status E) (aitisa_conv (HPtr p) (HPtr pf) (ones n) (zeros n) (ones n) g o) E s T3.
Proof.
  intros W HE HH HT HF TT TF n DT DF Hnf Hnc Hn Hsd T3 T3t T3v T3d V3 H3.
  eapply (C44_convolution p pf T F nb nc oc fc sd (ones n)); try done.
  - by apply win_ok_ones.
  - by rewrite T3d, win_outs_ones.
  - intros b c x Hx. rewrite T3d in Hx. rewrite <-(H3 b c x Hx). apply mac_terms. intros i Hi.
    inversion Hx as [|? ? ? ? Hb Hx1]; subst. inversion Hx1 as [|? ? ? ? Hc Hx2]; subst. by eapply chan_ones.
Qed.

(** Samples pass through filters that form a unit matrix *)
Lemma unit_conv p pf T F nb nc sd g o E s :
  wf s -> alloc_all E -> hooks_ok E -> holds (heap s) p T -> holds (heap s) pf F -> a_type T = F32 -> a_type F = F32 ->
  let n := length sd in
  a_dims T = nb :: nc :: sd -> a_dims F = nc :: nc :: ones n -> 0 < nc -> (n <= 3)%nat -> Forall (fun d => 1 <= d <= 2 ^ 51) sd ->
  Forall finite_elem (a_vals T) -> init T ->
  (forall c i, 0 <= c < nc -> 0 <= i < nc -> at_ F (c :: i :: zeros n) = VF (flt_of_Z F32 (if c =? i then 1 else 0))) ->
  makes_saying (conv_status E) (aitisa_conv (HPtr p) (HPtr pf) (ones n) (zeros n) (ones n) g o) E s
    (AT F32 (a_dev T) (a_dims T) (unsign_zero <$> a_vals T)).
Proof.
  intros W HE HH HT HF TT TF n DT DF Hnc Hn Hsd Hfin Hi HU. pose proof (holds_valid _ _ _ HT) as V.
  pose proof (valid_unsign T V) as VA. rewrite TT in VA.
  eapply (pointwise p pf T F nb nc nc nc sd); try done.
  intros b c x Hx.
  assert (0 <= c < nc) as Hc. { inversion Hx as [|? ? ? ? Hb Hx1]; subst. by inversion Hx1. }
  assert (forall q, 0 <= q < nc -> at_ T (b :: q :: x) = VF (fv T (b :: q :: x)) /\ vb F32 (fv T (b :: q :: x)) = true /\ is_finite_SF (fv T (b :: q :: x)) = true) as HA.
  { intros q Hq. rewrite <-TT. apply fv_at; [done|done|done|]. rewrite DT. inversion Hx as [|? ? ? ? Hb Hx1]; subst. inversion Hx1; subst.
    constructor; [done|]. by constructor. }
  rewrite (inner_ext F32 nc _ _ (fun q => VF (fv T (b :: q :: x))) (fun q => VF (flt_of_Z F32 (if q =? c then 1 else 0)))).
  - rewrite inner_unit_float by (try done; intros; by apply HA). pose proof (at_unsign T (b :: c :: x)) as Hu. rewrite TT in Hu. rewrite Hu.
    destruct (HA c Hc) as [-> _]. by destruct (fv T (b :: c :: x)).
  - intros q Hq. split; [by apply HA|]. rewrite HU by done. by rewrite Z.eqb_sym.
Qed.

(** Such a convolution exists for every input and every filter *)
Lemma pointwise_total p pf T F nb nc oc fc sd g o E s :
  wf s -> alloc_all E -> hooks_ok E -> holds (heap s) p T -> holds (heap s) pf F -> a_type T = F32 -> a_type F = F32 ->
  let n := length sd in
  a_dims T = nb :: nc :: sd -> a_dims F = oc :: fc :: ones n -> nc <= fc -> 0 < nc -> (n <= 3)%nat -> Forall (fun d => 1 <= d <= 2 ^ 51) sd ->
  fits (tsz F32) (nb :: oc :: sd) -> init T -> init F ->
  exists T3, a_type T3 = F32 /\ a_dev T3 = a_dev T /\ a_dims T3 = nb :: oc :: sd /\ valid T3 /\ init T3 /\
  (forall b c x, in_box (nb :: oc :: sd) (b :: c :: x) ->
     inner F32 nc (fun i => at_ T (b :: i :: x)) (fun i => at_ F (c :: i :: zeros n)) = Some (at_ T3 (b :: c :: x))) /\
  makes_saying (conv_status E) (aitisa_conv (HPtr p) (HPtr pf) (ones n) (zeros n) (ones n) g o) E s T3.
Proof.
  intros W HE HH HT HF TT TF n DT DF Hnf Hnc Hn Hsd Hfit IT IF.
  destruct (C44_defined p pf T F nb nc oc fc sd (ones n) (ones n) (zeros n) (ones n) g o E s) as (T3 & Y3 & V3 & D3 & VV & II & EQ & MK); try done.
  { by apply win_ok_ones. } { subst n. by rewrite win_outs_ones. }
  subst n. rewrite win_outs_ones in D3. exists T3. split_and!; try done. intros b c x Hx.
  rewrite <-(EQ b c x) by (by rewrite D3). symmetry. apply mac_terms. intros i Hi.
  inversion Hx as [|? ? ? ? Hb Hx1]; subst. inversion Hx1 as [|? ? ? ? Hc Hx2]; subst. by eapply chan_ones.
Qed.

(** Filters as large as the image: the convolution and the matrix product compute the same numbers *)
Lemma ravel_ones n : ravel (ones n) (zeros n) = 0.
Proof. induction n as [|n IH]; [done|]. unfold ones, zeros in *. cbn [replicate ravel]. rewrite IH. lia. Qed.
Lemma at_point t d a b n vs i j : at_ (AT t d (a :: b :: ones n) vs) (i :: j :: zeros n) = at_ (AT t d [a; b] vs) [i; j].
Proof. unfold at_. cbn [a_dims a_vals ravel]. rewrite ravel_ones, !prodZ_cons, prod_ones, prodZ_nil. do 3 f_equal; lia. Qed.
Lemma max_ones n : prodZ (Z.max 1 <$> ones n) = 1.
Proof. induction n as [|n IH]; [done|]. unfold ones in *. cbn [replicate]. rewrite fmap_cons, prodZ_cons, IH. done. Qed.
Lemma fits_point sz a b n : fits sz (a :: b :: ones n) -> fits sz [a; b].
Proof.
  intros (H1 & H2 & H3). inversion H1 as [|? ? Ha H1']; subst. inversion H1' as [|? ? Hb _]; subst. split_and!; [by repeat constructor|done|].
  rewrite !fmap_cons, !prodZ_cons in H3 |- *. rewrite max_ones in H3. by rewrite fmap_nil, prodZ_nil.
Qed.
Lemma box_zeros n : in_box (ones n) (zeros n).
Proof. induction n as [|n IH]; [constructor|]. unfold ones, zeros in *. cbn [replicate]. constructor; [lia|done]. Qed.
Lemma point_eta T dims : a_dims T = dims -> T = AT (a_type T) (a_dev T) dims (a_vals T).
Proof. destruct T. cbn. by intros ->. Qed.
Lemma full_outs sd ss : win_ok sd sd ss (zeros (length sd)) (ones (length sd)) ->
  win_outs sd sd ss (zeros (length sd)) (ones (length sd)) = ones (length sd) /\ length ss = length sd /\ Forall (fun d => 0 < d) sd.
Proof.
  revert ss. induction sd as [|d sd IH]; intros [|s ss] H; try done. cbn in H. destruct H as [H1 H].
  destruct (IH ss H) as (E1 & E2 & E3). unfold win_ok1 in H1. split_and!; [|cbn; lia|constructor; [lia|done]].
  cbn. unfold ones in *. cbn [replicate]. f_equal; [|exact E1]. unfold win_out.
  replace (d + 2 * 0 - 1 * (d - 1) - 1) with 0 by lia. by rewrite Z.div_0_l by lia.
Qed.
Lemma win_coord_zeros ss w : length ss = length w -> win_coord ss (zeros (length w)) (ones (length w)) (zeros (length w)) w = w.
Proof.
  revert ss. induction w as [|i w IH]; intros [|s ss] H; try done. unfold win_coord, ones, zeros in *. cbn [length replicate zip_with].
  rewrite IH by (cbn in H; lia). f_equal. lia.
Qed.
Lemma at_flat t d a b sd vs i j k : Forall (fun d => 0 < d) sd -> 0 <= k < prodZ sd ->
  at_ (AT t d (a :: b :: sd) vs) (i :: j :: unravel sd k) = at_ (AT t d [a; b * prodZ sd] vs) [i; j * prodZ sd + k].
Proof.
  intros Hd Hk. unfold at_. cbn [a_dims a_vals ravel]. rewrite ravel_unravel by done. rewrite !prodZ_cons, prodZ_nil. do 3 f_equal; lia.
Qed.
Lemma omap_all {A B} (f : A -> option B) (g : A -> B) (l : list A) : (forall x, x ∈ l -> f x = Some (g x)) -> omap f l = g <$> l.
Proof.
  induction l as [|x l IH]; intros H; [done|]. cbn. rewrite (H x) by (by left). f_equal. apply IH. intros y Hy. apply H. by right.
Qed.
Lemma bind_blocks {A} (f : nat -> A) m P : (seq 0 m ≫= fun i => (fun k => f (i * P + k)%nat) <$> seq 0 P) = f <$> seq 0 (m * P).
Proof.
  induction m as [|m IH]; [done|]. rewrite seq_S, bind_app, IH. cbn [Nat.add mbind list_bind]. rewrite app_nil_r.
  replace (S m * P)%nat with (m * P + P)%nat by lia. rewrite seq_app, fmap_app. f_equal. cbn [Nat.add].
  generalize (m * P)%nat as z. intros z. replace (seq z P) with (seq (z + 0) P) by (f_equal; lia). rewrite <-fmap_add_seq, <-list_fmap_compose. done.
Qed.
Lemma mac_inner t n (f g : Z -> val) : mac_all t (zero_val t) ((fun k => (f (Z.of_nat k), g (Z.of_nat k))) <$> seq 0 (Z.to_nat n)) = inner t n f g.
Proof.
  unfold mac_all, inner. generalize (Some (zero_val t)) as acc. induction (seq 0 (Z.to_nat n)) as [|k ks IH]; intros acc; [done|]. cbn. apply IH.
Qed.
Lemma full_terms T F nb nc oc sd ss b c : a_dims T = nb :: nc :: sd -> a_dims F = oc :: nc :: sd -> 0 < nc ->
  length ss = length sd -> Forall (fun d => 0 < d) sd -> let n := length sd in let K := nc * prodZ sd in
  mac_all F32 (zero_val F32) (conv_terms T F ss (zeros n) (ones n) nc b c (zeros n)) =
  inner F32 K (fun q => at_ (AT (a_type T) (a_dev T) [nb; K] (a_vals T)) [b; q]) (fun q => at_ (AT (a_type F) (a_dev F) [oc; K] (a_vals F)) [c; q]).
Proof.
  intros DT DF Hnc Hss Hsd n K. rewrite <-mac_inner. f_equal. unfold conv_terms. pose proof (prodZ_pos _ Hsd) as HP.
  set (P := Z.to_nat (prodZ sd)). replace (Z.to_nat K) with (Z.to_nat nc * P)%nat by (subst K P; lia). rewrite <-bind_blocks.
  assert (seqZ 0 nc = Z.of_nat <$> seq 0 (Z.to_nat nc)) as ->.
  { unfold seqZ. apply list_fmap_ext. intros i x _. lia. }
  induction (seq 0 (Z.to_nat nc)) as [|i is IH]; [done|]. cbn [fmap list_fmap mbind list_bind]. f_equal; [|exact IH].
  unfold conv_chan. rewrite DT, DF. cbn [drop]. rewrite ?drop_0. unfold coords. fold P.
  rewrite (omap_all _ (fun w => (at_ T (b :: Z.of_nat i :: w), at_ F (c :: Z.of_nat i :: w)))).
  - rewrite <-list_fmap_compose. apply list_fmap_ext. intros ? k Hk. apply elem_of_list_lookup_2, elem_of_seq in Hk. unfold compose.
    rewrite (point_eta T _ DT) at 1. rewrite (point_eta F _ DF) at 1.
    rewrite !at_flat by (try done; subst P; lia). subst P.
    replace (Z.of_nat (i * Z.to_nat (prodZ sd) + k)) with (Z.of_nat i * prodZ sd + Z.of_nat k) by lia. done.
  - intros w Hw. apply elem_of_list_fmap in Hw as (k & -> & Hk). pose proof (unravel_in_box sd (Z.of_nat k) Hsd) as Hbox.
    pose proof (Forall2_length _ _ _ Hbox) as Hl. subst n. rewrite Hl. rewrite win_coord_zeros by congruence. by rewrite decide_True.
Qed.
Lemma conv_full p pf T F nb nc oc sd ss G g o E s :
  wf s -> alloc_all E -> hooks_ok E -> holds (heap s) p T -> holds (heap s) pf F -> a_type T = F32 -> a_type F = F32 ->
  let n := length sd in let K := nc * prodZ sd in
  a_dims T = nb :: nc :: sd -> a_dims F = oc :: nc :: sd -> 0 < nc -> (n <= 3)%nat -> win_ok sd sd ss (zeros n) (ones n) ->
  fits (tsz F32) (nb :: oc :: ones n) -> init T -> init F ->
  dev_type (a_dev T) = 0 -> nb <= INT_MAX -> K <= INT_MAX -> oc <= INT_MAX -> nb * oc <= INT_MAX ->
  valid G -> a_type G = F32 -> dev_type (a_dev G) = 0 -> a_dims G = [K; oc] ->
  (forall q c, 0 <= q < K -> 0 <= c < oc -> at_ G [q; c] = at_ (AT F32 (a_dev F) [oc; K] (a_vals F)) [c; q]) ->
  exists vs,
    makes_saying (conv_status E) (aitisa_conv (HPtr p) (HPtr pf) ss (zeros n) (ones n) g o) E s
      (AT F32 (a_dev T) (nb :: oc :: ones n) vs) /\
    gives aitisa_matmul (AT F32 (a_dev T) [nb; K] (a_vals T)) G (AT F32 (a_dev T) [nb; oc] vs).
Proof.
  intros W HE HH HT HF TT TF n K DT DF Hnc Hn Hok Hfit IT IF Hdv H1 H2 H3 H4 VG TG DvG DG EG.
  destruct (full_outs sd ss Hok) as (Eo & Els & Hpos). fold n in Eo.
  destruct (C44_defined p pf T F nb nc oc nc sd sd ss (zeros n) (ones n) g o E s) as (T3 & Y3 & V3 & D3 & VV & II & EQ & MK); try done.
  { by rewrite Eo. }
  rewrite Eo in D3. pose proof (point_eta T3 _ D3) as Eta. rewrite Y3, V3 in Eta.
  exists (a_vals T3). split; [by rewrite <-Eta|].
  intros p1 p2 o' E' s' W' HE' Hh1 Hh2. eapply makes_enough; [done|].
  eapply (C31_matrix_matrix p1 p2 _ G _ o' E' s'); try done.
  - split; [by eapply fits_point|]. destruct VV as [_ VL]. cbn [a_vals a_dims]. rewrite D3 in VL.
    rewrite VL, !prodZ_cons, prod_ones, prodZ_nil. lia.
  - cbn [a_dims]. rewrite !prodZ_cons, prodZ_nil. lia.
  - intros i j Hi Hj. cbn [a_type]. rewrite <-(at_point F32 (a_dev T) nb oc n), <-Eta.
    rewrite <-(EQ i j (zeros n)).
    2:{ rewrite D3. constructor; [lia|]. constructor; [lia|]. apply box_zeros. }
    subst n. rewrite (full_terms T F nb nc oc sd ss i j) by done. fold K. rewrite TT, TF. apply inner_ext. intros q Hq. split; [done|]. by apply EG.
Qed.
