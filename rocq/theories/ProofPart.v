(** * ProofPart: pooling and convolution treat samples (and channels, filters) independently *)
From stdpp Require Import gmap list.
From Coq Require Import ZArith Lia Floats.SpecFloat.
From Coq Require Import ZifyBool ZifyNat.
From Verif Require Import Base Mem Spec SpecReal SpecNN SpecCommute SpecPart SpecProduct ModelCore ModelBasic ModelMath ModelNN.
From Verif Require Import Logic ProofCore ProofCore2 ProofKernel ProofKernel2 ProofIndex ProofSlice ProofWindow ProofPool2 ProofPool4 ProofConv5 ProofMatmul ProofDot4 ProofProduct ProofLaws.
From Verif Require Import PropBasic2 PropPool PropPool2 PropConv.
Ltac Zify.zify_post_hook ::= idtac.
Open Scope Z_scope.

Lemma cdiv_1 d : cdiv d 1 = d.
Proof. unfold cdiv. rewrite Z.div_1_r. lia. Qed.
Lemma cdiv_bound n t i : 1 <= t -> 0 <= i < cdiv n t -> t * i <= n - 1.
Proof.
  intros Ht Hi. unfold cdiv in Hi. pose proof (Z.div_mod (n + t - 1) t ltac:(lia)) as Hd.
  pose proof (Z.mod_pos_bound (n + t - 1) t ltac:(lia)). nia.
Qed.
Lemma rest_dims sd : Forall (fun d => 0 < d) sd -> slice_dims sd (replicate (length sd) 1) = sd.
Proof. induction 1 as [|d sd Hd H IH]; [done|]. cbn. replace (d =? 0) with false by lia. by rewrite cdiv_1, IH. Qed.
Lemma rest_src sd x : Forall (fun d => 0 < d) sd -> length x = length sd ->
  slice_src (replicate (length sd) 0) sd (replicate (length sd) 1) x = x.
Proof.
  intros H. revert x. induction H as [|d sd Hd H IH]; intros [|i x] Hl; try done. cbn [slice_src length replicate].
  replace (d =? 0) with false by lia. rewrite IH by (cbn in Hl; lia). f_equal. lia.
Qed.
Lemma rest_ok sd : Forall (fun d => 0 < d <= INT_MAX) sd -> slice_ok sd (replicate (length sd) 0) sd (replicate (length sd) 1).
Proof. induction 1 as [|d sd Hd H IH]; [done|]. cbn. unfold INT_MAX in *. split; [lia|exact IH]. Qed.

Section part.
  Context (b n t c m u d1 d2 : Z) (sd : list Z) (H : part_ok b n t c m u d1 d2 sd).
  Lemma part_pos : Forall (fun d => 0 < d) sd.
  Proof using H. destruct H as (_ & _ & _ & _ & _ & _ & _ & _ & _ & _ & Hs & _). eapply Forall_impl; [exact Hs|]. cbn. lia. Qed.
  Lemma part_dims : slice_dims (n :: m :: sd) (t :: u :: replicate (length sd) 1) = cdiv n t :: cdiv m u :: sd.
  Proof using H.
    pose proof part_pos. destruct H as (_ & Hn & _ & _ & _ & _ & Hm & _). cbn [slice_dims].
    replace (n =? 0) with false by lia. replace (m =? 0) with false by lia. by rewrite rest_dims.
  Qed.
  Lemma part_src i j x : length x = length sd ->
    slice_src (b :: c :: replicate (length sd) 0) (n :: m :: sd) (t :: u :: replicate (length sd) 1) (i :: j :: x)
    = b + t * i :: c + u * j :: x.
  Proof using H.
    intros Hl. pose proof part_pos. destruct H as (_ & Hn & _ & _ & _ & _ & Hm & _). cbn [slice_src].
    replace (n =? 0) with false by lia. replace (m =? 0) with false by lia. by rewrite rest_src.
  Qed.
  Lemma part_legal : slice_ok (d1 :: d2 :: sd) (b :: c :: replicate (length sd) 0) (n :: m :: sd) (t :: u :: replicate (length sd) 1).
  Proof using H.
    destruct H as (? & ? & ? & ? & ? & ? & ? & ? & ? & ? & Hs & ?). cbn [slice_ok]. split_and!; try lia. by apply rest_ok.
  Qed.
  Lemma part_in i j : 0 <= i < cdiv n t -> 0 <= j < cdiv m u -> 0 <= b + t * i < d1 /\ 0 <= c + u * j < d2.
  Proof using H.
    destruct H as (? & ? & ? & ? & ? & ? & ? & ? & ? & ? & Hs & ?). intros Hi Hj.
    pose proof (cdiv_bound n t i ltac:(lia) Hi). pose proof (cdiv_bound m u j ltac:(lia) Hj). nia.
  Qed.
  (** The selected part *)
  Definition part_of (T : atensor) : atensor :=
    AT (a_type T) (a_dev T) (cdiv n t :: cdiv m u :: sd)
       (tab (cdiv n t :: cdiv m u :: sd) (fun x => match x with i :: j :: x => at_ T (b + t * i :: c + u * j :: x) | _ => VU end)).
  Lemma part_at T i j x : in_box (cdiv n t :: cdiv m u :: sd) (i :: j :: x) -> at_ (part_of T) (i :: j :: x) = at_ T (b + t * i :: c + u * j :: x).
  Proof using. intros Hx. unfold part_of. by rewrite at_tab. Qed.
  Lemma part_fits sz : fits sz (d1 :: d2 :: sd) -> fits sz (cdiv n t :: cdiv m u :: sd).
  Proof using H. intros Hf. rewrite <-part_dims. eapply slice_dims_fits; [apply part_legal|done]. Qed.
  Lemma part_valid T : valid T -> a_dims T = d1 :: d2 :: sd -> valid (part_of T).
  Proof using H. intros V Hd. apply tab_valid. apply part_fits. rewrite <-Hd. by apply valid_fits. Qed.
  Lemma part_makes ex T : a_dims T = d1 :: d2 :: sd -> gives1 ex (part b n t c m u sd) T (part_of T).
  Proof using H.
    intros Hd p o E s W HE HK _ HT. pose proof (C22_slice p T (b :: c :: replicate (length sd) 0) (n :: m :: sd) (t :: u :: replicate (length sd) 1)
      o E s W HE HK HT) as K. rewrite part_dims in K. unfold part, part_of.
    rewrite (tab_ext _ _ (fun x => match x with i :: j :: x => at_ T (b + t * i :: c + u * j :: x) | _ => VU end)) in K.
    - apply K; [by rewrite Hd|rewrite Hd; apply part_legal|]. destruct H as (_ & _ & _ & _ & _ & _ & _ & _ & _ & _ & _ & Hp).
      by rewrite !prodZ_cons.
    - intros x Hx. destruct x as [|i [|j x]]; [by inversion Hx|inversion Hx as [|? ? ? ? _ H2]; by inversion H2|].
      rewrite part_src; [done|]. apply Forall2_length in Hx. cbn in Hx. lia.
    - pose proof (part_fits 0%nat) as Hf. rewrite <-part_dims. eapply Forall_impl; [by eapply slice_dims_pos, part_legal|]. cbn. lia.
  Qed.
  Lemma part_init T : init T -> valid T -> a_dims T = d1 :: d2 :: sd -> init (part_of T).
  Proof using H.
    intros I V Hd. unfold init, part_of, tab. cbn [a_vals a_type]. apply Forall_fmap, Forall_forall. intros k _. unfold compose.
    assert (Forall (fun d => 0 < d) (cdiv n t :: cdiv m u :: sd)) as Hp by (rewrite <-part_dims; eapply slice_dims_pos, part_legal).
    pose proof (unravel_in_box _ (Z.of_nat k) Hp) as Hx. destruct (unravel _ (Z.of_nat k)) as [|i [|j x]];
      [by inversion Hx|inversion Hx as [|? ? ? ? _ H2]; by inversion H2|].
    inversion Hx as [|? ? ? ? Hi Hx']; subst. inversion Hx' as [|? ? ? ? Hj Hx'']; subst. destruct (part_in i j Hi Hj).
    assert (in_box (a_dims T) (b + t * i :: c + u * j :: x)) as Hb by (rewrite Hd; constructor; [lia|]; constructor; [lia|exact Hx'']).
    pose proof (ravel_bound _ _ Hb) as Hr. pose proof (valid_len _ V). unfold at_.
    destruct (lookup_lt_is_Some_2 (a_vals T) (Z.to_nat (ravel (a_dims T) (b + t * i :: c + u * j :: x))) ltac:(lia)) as [v Hv].
    rewrite Hv. cbn. by eapply Forall_lookup_1.
  Qed.
End part.
Lemma omap_ext_in {A B} (f g : A -> option B) (l : list A) : (forall x, x ∈ l -> f x = g x) -> omap f l = omap g l.
Proof.
  intros H. induction l as [|a l IH]; [done|]. cbn. rewrite (H a) by (by left). rewrite IH; [done|]. intros x Hx. apply H. by right.
Qed.
Lemma part_window b n t c m u sd T ks ss ps ls i j x : drop 2 (a_dims T) = sd ->
  0 <= i < cdiv n t -> 0 <= j < cdiv m u ->
  window (part_of b n t c m u sd T) ks ss ps ls i j x = window T ks ss ps ls (b + t * i) (c + u * j) x.
Proof.
  intros Hd Hi Hj. unfold window. rewrite Hd. cbn [part_of a_dims drop]. apply omap_ext_in. intros w _. cbv zeta.
  destruct (decide _) as [Hb|Hb]; [|done]. rewrite part_at; [done|]. constructor; [done|]. by constructor.
Qed.
Lemma outs_le os k : Forall (fun d => 0 < d) os -> 0 < k -> k * prodZ os <= INT_MAX -> Forall (fun d => 0 < d <= INT_MAX) os.
Proof.
  intros H. revert k. induction H as [|d os Hd H IH]; intros k Hk Hp; constructor.
  - rewrite prodZ_cons in Hp. pose proof (prodZ_pos _ H). split; [done|]. assert (1 <= k * prodZ os) by nia.
    assert (d * 1 <= d * (k * prodZ os)) by nia. lia.
  - apply (IH (k * d)); [nia|]. rewrite prodZ_cons in Hp. nia.
Qed.
Lemma cdiv_pos n t : 0 < n -> 1 <= t -> 0 < cdiv n t.
Proof. intros Hn Ht. unfold cdiv. pose proof (Z.div_mod (- n) t ltac:(lia)). pose proof (Z.mod_pos_bound (- n) t ltac:(lia)). nia. Qed.
Lemma part_out b n t c m u d1 d2 e1 e2 sd os : part_ok b n t c m u d1 d2 sd -> Forall (fun d => 0 < d) os ->
  b + n <= e1 -> c + m <= e2 -> cdiv n t * (cdiv m u * prodZ os) <= INT_MAX -> part_ok b n t c m u e1 e2 os.
Proof.
  intros (? & ? & ? & ? & ? & ? & ? & ? & ? & ? & Hs & ?) Ho Hb1 Hb2 Hp. pose proof (cdiv_pos n t). pose proof (cdiv_pos m u).
  split_and!; try lia. apply (outs_le os (cdiv n t * cdiv m u)); [done|nia|lia].
Qed.

Lemma pool_part mo ex p T nb nc sd ks ss ps ls o E s b n t c m u : mo <> POther ->
  wf s -> alloc_all E -> hooks_ok E -> holds (heap s) p T -> init T ->
  a_dims T = nb :: nc :: sd -> (1 <= length sd <= 3)%nat -> win_ok sd ks ss ps ls ->
  prodZ ks <= INT64_MAX -> prodZ (win_outs sd ks ss ps ls) <= INT_MAX ->
  (Z.to_nat (prodZ ks) <= e_fuel E)%nat -> (Z.to_nat (prodZ (win_outs sd ks ss ps ls)) <= e_fuel E)%nat ->
  fits (tsz (a_type T)) (nb :: nc :: win_outs sd ks ss ps ls) ->
  (exists X, makes (aitisa_pooling (HPtr p) mo ks ss ps ls o) E s X) ->
  part_ok b n t c m u nb nc sd -> cdiv n t * (cdiv m u * prodZ (win_outs sd ks ss ps ls)) <= INT_MAX ->
  exists B C D, makes (aitisa_pooling (HPtr p) mo ks ss ps ls o) E s B /\
    gives1 ex (part b n t c m u sd) T C /\ gives1 ex (part b n t c m u (win_outs sd ks ss ps ls)) B D /\
    forall p' o' E' s', wf s' -> alloc_all E' -> hooks_ok E' -> holds (heap s') p' C ->
      (Z.to_nat (prodZ ks) <= e_fuel E')%nat -> (Z.to_nat (prodZ (win_outs sd ks ss ps ls)) <= e_fuel E')%nat ->
      makes (aitisa_pooling (HPtr p') mo ks ss ps ls o') E' s' D.
Proof.
  intros Hmo W HE HH HT I Hd Hr Hok Hks Hos F1 F2 Hfit [X MX] HP Hpo.
  assert (exists B, a_type B = a_type T /\ a_dev B = a_dev T /\ a_dims B = nb :: nc :: win_outs sd ks ss ps ls /\ valid B /\
    (forall b c x, in_box (a_dims B) (b :: c :: x) ->
       pool_value mo (a_type T) (prodZ ks) (window T ks ss ps ls b c x) = Some (at_ B (b :: c :: x))) /\
    makes (aitisa_pooling (HPtr p) mo ks ss ps ls o) E s B) as (B & TB & VB & DB & VaB & EB & MB).
  { destruct mo; [| |done].
    - destruct (C41_exact p T nb nc sd ks ss ps ls o E s W HE HH HT I Hd Hr Hok Hks Hos F1 F2 Hfit) as [K1 K2]. apply K1.
      intros i j x Hx Hn. destruct MX as (? & ? & MX & _). rewrite K2 in MX by eauto. done.
    - destruct (C42_exact p T nb nc sd ks ss ps ls o E s W HE HH HT I Hd Hr Hok Hks Hos F1 F2 Hfit) as [K1 K2]. apply K1.
      intros i j x Hx Hn. destruct MX as (? & ? & MX & _). rewrite K2 in MX by eauto. done. }
  pose proof (win_outs_pos _ _ _ _ _ Hok) as Hpos.
  assert (part_ok b n t c m u nb nc (win_outs sd ks ss ps ls)) as HP'.
  { eapply part_out; [exact HP|done| | |done]; destruct HP as (? & ? & ? & ? & ? & ? & ? & ? & _); lia. }
  exists B, (part_of b n t c m u sd T), (part_of b n t c m u (win_outs sd ks ss ps ls) B). split_and!; [done| | |].
  - by eapply part_makes.
  - by eapply part_makes.
  - intros p' o' E' s' W' HE' HH' HC F1' F2'.
    eapply (pooling_rule mo p' _ _ (cdiv n t) (cdiv m u) sd); try done.
    + by eapply part_valid.
    + intros i j x Hx. change (a_dims (part_of b n t c m u (win_outs sd ks ss ps ls) B)) with (cdiv n t :: cdiv m u :: win_outs sd ks ss ps ls) in Hx.
      rewrite part_at by done. inversion Hx as [|? ? ? ? Hi Hx']; subst. inversion Hx' as [|? ? ? ? Hj Hx'']; subst.
      rewrite part_window by (done || by rewrite Hd). destruct (part_in _ _ _ _ _ _ _ _ _ HP i j Hi Hj).
      change (a_type (part_of b n t c m u sd T)) with (a_type T). apply EB. rewrite DB. constructor; [done|]. by constructor.
Qed.

Lemma bind_ext_in {A B} (f g : A -> list B) (l : list A) : (forall x, x ∈ l -> f x = g x) -> l ≫= f = l ≫= g.
Proof.
  intros H. induction l as [|a l IH]; [done|]. cbn. rewrite (H a) by (by left). f_equal. apply IH. intros x Hx. apply H. by right.
Qed.
Lemma conv_part ex p pf T F nb nc oc fc sd ks ss ps ls g o E s b n t f m u :
  wf s -> alloc_all E -> hooks_ok E -> holds (heap s) p T -> holds (heap s) pf F ->
  a_type T = F32 -> a_type F = F32 ->
  a_dims T = nb :: nc :: sd -> a_dims F = oc :: fc :: ks -> nc <= fc -> 0 < nc ->
  (length sd <= 3)%nat -> win_ok sd ks ss ps ls ->
  fits (tsz F32) (nb :: oc :: win_outs sd ks ss ps ls) -> init T -> init F ->
  part_ok b n t 0 nc 1 nb nc sd -> part_ok f m u 0 fc 1 oc fc ks ->
  cdiv n t * (cdiv m u * prodZ (win_outs sd ks ss ps ls)) <= INT_MAX ->
  exists B C G D, makes_saying (conv_status E) (aitisa_conv (HPtr p) (HPtr pf) ss ps ls g o) E s B /\
    gives1 ex (part b n t 0 nc 1 sd) T C /\ gives1 ex (part f m u 0 fc 1 ks) F G /\
    gives1 ex (part b n t f m u (win_outs sd ks ss ps ls)) B D /\
    forall p' pf' g' o' E' s', wf s' -> alloc_all E' -> hooks_ok E' -> holds (heap s') p' C -> holds (heap s') pf' G ->
      makes_saying (conv_status E') (aitisa_conv (HPtr p') (HPtr pf') ss ps ls g' o') E' s' D.
Proof.
  intros W HE HH HT HF TT TF DT DF Hnf Hnc Hr Hok Hfit IT IF HP HQ Hpo.
  destruct (C44_defined p pf T F nb nc oc fc sd ks ss ps ls g o E s W HE HH HT HF TT TF DT DF Hnf Hnc Hr Hok Hfit IT IF)
    as (B & TB & VB & DB & VaB & _ & EB & MB).
  pose proof (win_outs_pos _ _ _ _ _ Hok) as Hpos.
  assert (part_ok b n t f m u nb oc (win_outs sd ks ss ps ls)) as HR.
  { destruct HP as (? & ? & ? & ? & ? & _), HQ as (? & ? & ? & ? & ? & _). pose proof (cdiv_pos n t). pose proof (cdiv_pos m u).
    split_and!; try lia. apply (outs_le _ (cdiv n t * cdiv m u)); [done|nia|lia]. }
  exists B, (part_of b n t 0 nc 1 sd T), (part_of f m u 0 fc 1 ks F), (part_of b n t f m u (win_outs sd ks ss ps ls) B).
  split_and!; [done|by eapply part_makes|by eapply part_makes|by eapply part_makes|].
  intros p' pf' g' o' E' s' W' HE' HH' HC HG.
  eapply (C44_convolution p' pf' _ _ (cdiv n t) nc (cdiv m u) fc sd ks); try done.
  - cbn [part_of a_dims]. by rewrite cdiv_1.
  - cbn [part_of a_dims]. by rewrite cdiv_1.
  - by eapply part_valid.
  - intros i j x Hx. change (a_dims (part_of b n t f m u (win_outs sd ks ss ps ls) B)) with (cdiv n t :: cdiv m u :: win_outs sd ks ss ps ls) in Hx.
    rewrite part_at by done. inversion Hx as [|? ? ? ? Hi Hx']; subst. inversion Hx' as [|? ? ? ? Hj Hx'']; subst.
    destruct (part_in _ _ _ _ _ _ _ _ _ HR i j Hi Hj) as [Hi' Hj'].
    rewrite <-(EB (b + t * i) (f + u * j) x) by (rewrite DB; constructor; [done|]; by constructor). f_equal.
    unfold conv_terms. apply bind_ext_in. intros ic Hic. apply elem_of_seqZ in Hic. unfold conv_chan.
    rewrite DT, DF. cbn [part_of a_dims drop]. apply omap_ext_in. intros w Hw. cbv zeta. destruct (decide _) as [Hb|Hb]; [|done].
    assert (in_box ks w) as Hw'.
    { unfold coords in Hw. apply elem_of_list_fmap in Hw as (k & -> & _). apply unravel_in_box. by eapply part_pos. }
    rewrite part_at by (rewrite cdiv_1; constructor; [done|]; constructor; [lia|done]).
    rewrite part_at by (rewrite cdiv_1; constructor; [done|]; constructor; [lia|done]).
    by rewrite !Z.mul_1_l, !Z.add_0_l.
Qed.

(** Rows of the first factor and columns of the second *)
Lemma mm_part ex p1 p2 T1 T2 r k l o E s b n t c m u :
  wf s -> alloc_all E -> holds (heap s) p1 T1 -> holds (heap s) p2 T2 ->
  a_type T2 = a_type T1 -> dev_type (a_dev T1) = 0 -> dev_type (a_dev T2) = 0 ->
  a_dims T1 = [r; k] -> a_dims T2 = [k; l] -> fits (tsz (a_type T1)) [r; l] ->
  product_ok (a_type T1) r k l (fun i q => at_ T1 [i; q]) (fun q j => at_ T2 [q; j]) ->
  part_ok b n t 0 k 1 r k [] -> part_ok 0 k 1 c m u k l [] ->
  exists B C G D, makes (aitisa_matmul (HPtr p1) (HPtr p2) o) E s B /\
    gives1 ex (part b n t 0 k 1 []) T1 C /\ gives1 ex (part 0 k 1 c m u []) T2 G /\ gives1 ex (part b n t c m u []) B D /\
    gives2 (fun p q o => aitisa_matmul p q o) C G D.
Proof.
  intros W HE H1 H2 HTy D1 D2 E1 E2 Hfit HO HP HQ.
  destruct (mm_every p1 p2 T1 T2 o E s W HE H1 H2 HTy D1 D2 r k l E1 E2 Hfit) as [K1 K2].
  destruct (K1 HO) as (B & MB & TB & VB & DB & EB). destruct HO as (O1 & O2 & O3 & _).
  assert (cdiv n t * (cdiv m u * prodZ []) <= INT_MAX /\ part_ok b n t c m u r l []) as [Hpo HR].
  { destruct HP as (? & ? & ? & ? & ? & _), HQ as (? & ? & ? & ? & ? & ? & ? & ? & ? & ? & _).
    assert (cdiv n t <= r /\ cdiv m u <= l /\ 0 < cdiv n t /\ 0 < cdiv m u) as (? & ? & ? & ?).
    { pose proof (cdiv_pos n t). pose proof (cdiv_pos m u). pose proof (cdiv_bound n t (cdiv n t - 1)).
      pose proof (cdiv_bound m u (cdiv m u - 1)). nia. }
    assert (cdiv n t * (cdiv m u * prodZ []) <= INT_MAX) by (change (prodZ []) with 1; nia).
    split; [done|]. split_and!; try lia. constructor. }
  exists B, (part_of b n t 0 k 1 [] T1), (part_of 0 k 1 c m u [] T2), (part_of b n t c m u [] B).
  split_and!; [done|by eapply part_makes|by eapply part_makes|by eapply part_makes|].
  intros p' q' o' E' s' W' HE' HH' HC HG.
  assert (valid B) as VaB by (by destruct MB as (? & ? & ? & MB & ?)).
  eapply (makes_enough E' HE').
  eapply (matmul_mm_rule p' q' _ _ (part_of b n t c m u [] B)) with (m := cdiv n t) (k := k) (n := cdiv m u); try done.
  - by eapply part_valid.
  - cbn [part_of a_dims]. by rewrite cdiv_1.
  - cbn [part_of a_dims]. by rewrite cdiv_1.
  - change (prodZ []) with 1 in Hpo. destruct HP as (? & ? & ? & ? & ? & _), HQ as (? & ? & ? & ? & ? & ? & ? & ? & ? & ? & _).
    pose proof (cdiv_pos n t). pose proof (cdiv_pos m u). nia.
  - destruct HP as (? & ? & ? & ? & ? & ? & ? & ? & ? & _). lia.
  - change (prodZ []) with 1 in Hpo. destruct HP as (? & ? & ? & ? & ? & _), HQ as (? & ? & ? & ? & ? & ? & ? & ? & ? & ? & _).
    pose proof (cdiv_pos n t). pose proof (cdiv_pos m u). nia.
  - intros i j Hi Hj. destruct (part_in _ _ _ _ _ _ _ _ _ HR i j Hi Hj) as [Hi' Hj'].
    rewrite part_at by (constructor; [done|]; by constructor).
    rewrite <-(EB (b + t * i) (c + u * j) Hi' Hj'). apply inner_ext. intros q Hq. split.
    + rewrite part_at by (rewrite cdiv_1; constructor; [done|]; by constructor). by rewrite Z.mul_1_l.
    + rewrite part_at by (rewrite cdiv_1; constructor; [done|]; by constructor). by rewrite Z.mul_1_l.
Qed.
