(** * ProofConv4: convolutions that stop *)
From stdpp Require Import gmap list.
From Coq Require Import ZArith Lia Floats.SpecFloat.
From Coq Require Import ZifyBool ZifyNat.
From Verif Require Import Base Mem Spec SpecNN SpecConv ModelCore ModelBasic ModelMath ModelNN Logic
  ProofCore ProofCore2 ProofCore3 ProofIndex ProofLayout ProofKernel ProofKernel2 ProofBasic ProofBasic2 ProofSlice
  ProofMatmul ProofMatmul3 ProofCast ProofNN ProofWindow ProofPool ProofPool2 ProofPool3 ProofConvWin ProofConv ProofConv2 ProofConv3.
Open Scope Z_scope.

Lemma sfold_uniform (g : nat -> unit -> unit + halt) z n : forall i,
  (forall k, (i <= k < i + n)%nat -> g k tt = inl tt \/ g k tt = inr z) ->
  sfold g i n tt = inl tt \/ sfold g i n tt = inr z.
Proof.
  induction n as [|n IH]; intros i H; [by left|]. cbn.
  destruct (H i ltac:(lia)) as [->| ->]; [|by right]. apply IH. intros k Hk. apply H. lia.
Qed.

(** [aitisa_conv] stops where [aitisa_conv_float] stops *)
Lemma conv_float_stops p pf T ss ps ls g o E s z :
  holds (heap s) p T -> a_type T = F32 ->
  stops (aitisa_conv_float (HPtr p) (HPtr pf) ss ps ls o E s) z ->
  stops (aitisa_conv (HPtr p) (HPtr pf) ss ps ls g o E s) z.
Proof.
  intros HT Ht Hz. destruct HT as (_ & bA & tgA & exA & Hv & _).
  unfold aitisa_conv. erewrite bind_done by (by eapply tensor_dtype_ok). rewrite Ht.
  change (d_code (dtype_of F32) =? code_of F32) with true. cbv iota. by apply stops_bind.
Qed.

Section uniform.
Context {p pf : nat} {T F : atensor} {nb nc oc fc : Z} {sd ks ss ps ls : list Z} {E : env} {s : st}.
Context {bF : nat} {ld : floads} {blk : block}.
Let os := cv_outs sd ks ss ps ls.
Context (Hwf : wf s) (HE : alloc_all E) (HH : hooks_ok E) (HT : holds (heap s) p T) (HvF : valid F)
  (HwF : view (heap s) pf (dtype_of (a_type F)) (a_dev F) (a_dims F) (rowmajor (length (a_dims F))) bF)
  (HxF : heap s !! bF = Some blk)
  (Hld : forall x s, heap s !! bF = Some blk -> in_box (oc :: fc :: ks) x ->
    run (ld x) (loadi (HPtr bF) F32 (ravel (oc :: fc :: ks) x)) E s (fun v r s' => r = v /\ s' = s))
  (HtT : a_type T = F32) (HdT : a_dims T = nb :: nc :: sd) (HdF : a_dims F = oc :: fc :: ks)
  (Hfc : 0 < fc) (Hnc0 : 0 < nc)
  (Hrank : (length sd <= 3)%nat) (Hok : cv_ok sd ks ss ps ls)
  (Hfit : fits (tsz F32) (nb :: oc :: os)).
Let el b c x := elem_out T fc ks ld sd ss ps ls b c x nc.

Lemma conv_uniform g o z b c x :
  in_box (nb :: oc :: os) (b :: c :: x) -> (forall w, el b c x <> inl w) ->
  (forall b c x, in_box (nb :: oc :: os) (b :: c :: x) -> (exists w, el b c x = inl w) \/ el b c x = inr z) ->
  stops (aitisa_conv (HPtr p) (HPtr pf) ss ps ls g o E s) z.
Proof using Hwf HE HH HT HvF HwF HxF Hld HtT HdT HdF Hfc Hnc0 Hrank Hok Hfit.
  intros Hbx Hno Hall.
  apply (conv_float_stops p pf T); [done|done|].
  pose proof (cv_outs_pos _ _ _ _ _ Hok) as Hop. fold os in Hop.
  assert (prodZ ks <= INT64_MAX) as Hks.
  { pose proof HvF as [HfF _]. rewrite HdF in HfF. destruct HfF as (_ & _ & HfF).
    pose proof (prodZ_max_drop (oc :: fc :: ks) 2) as Hd. change (drop 2 (oc :: fc :: ks)) with ks in Hd.
    rewrite (prodZ_max_pos_eq ks (cv_ks_pos _ _ _ _ _ Hok)) in Hd.
    pose proof (prodZ_max_pos (oc :: fc :: ks)). pose proof (tsz_pos (a_type F)). nia. }
  set (V := fun y => Some (match el (default 0 (y !! 0%nat)) (default 0 (y !! 1%nat)) (drop 2 y) with inl w => w | inr _ => VU end)).
  destruct (tab_choose F32 (a_dev T) (nb :: oc :: os) V Hfit) as (T3 & Hv & Ht & Hdv & Hds & H3).
  { intros y _. unfold V. eauto. }
  pose proof (conv_float_run p pf T F T3 nb nc oc fc sd ks ss ps ls o bF E s ld blk Hwf HE HH HT HvF HwF HxF Hld
    HtT HdT HdF Hfc Hnc0 Hrank Hok Hks Ht Hdv Hds Hv) as Hrun.
  assert (forall b c x w, in_box (a_dims T3) (b :: c :: x) ->
    elem_out T fc ks ld sd ss ps ls b c x nc = inl w -> w = at_ T3 (b :: c :: x)) as Hval.
  { intros b' c' x' w Hb' Hw. rewrite Hds in Hb'. specialize (H3 _ Hb').
    assert (Some (match elem_out T fc ks ld sd ss ps ls b' c' x' nc with inl w => w | inr _ => VU end)
      = Some (at_ T3 (b' :: c' :: x'))) as H3' by exact H3.
    rewrite Hw in H3'. by injection H3'. }
  specialize (Hrun Hval).
  inversion Hbx as [|? ? ? ? Hb0 Hy]; subst. inversion Hy as [|? ? ? ? Hc0 Hz]; subst.
  assert (forall b c j, 0 <= b < nb -> 0 <= c < oc -> 0 <= j < prodZ os ->
    still (el b c (unravel os j)) = inl tt \/ still (el b c (unravel os j)) = inr z) as Hst.
  { intros b1 c1 j Hb1 Hc1 Hj. destruct (Hall b1 c1 (unravel os j)) as [[w Hw]|Hw].
    - constructor; [done|]. constructor; [done|]. by apply unravel_in_box.
    - rewrite Hw. by left.
    - rewrite Hw. by right. }
  match type of Hrun with run ?y _ _ _ _ => assert (y = inr z) as Hout end.
  2:{ rewrite Hout in Hrun. exact Hrun. }
  assert (forall b c, 0 <= b < nb -> 0 <= c < oc ->
    row_out (T := T) (sd := sd) (ks := ks) (ss := ss) (ps := ps) (ls := ls) (nc := nc) (fc := fc) (ld := ld) b c = inl tt \/
    row_out (T := T) (sd := sd) (ks := ks) (ss := ss) (ps := ps) (ls := ls) (nc := nc) (fc := fc) (ld := ld) b c = inr z) as Hrow.
  { intros b1 c1 Hb1 Hc1. apply sfold_uniform. intros k Hk. apply Hst; [done|done|]. fold os in Hk. lia. }
  assert (forall b, 0 <= b < nb ->
    image_out (T := T) (sd := sd) (ks := ks) (ss := ss) (ps := ps) (ls := ls) (nc := nc) (oc := oc) (fc := fc) (ld := ld) b = inl tt \/
    image_out (T := T) (sd := sd) (ks := ks) (ss := ss) (ps := ps) (ls := ls) (nc := nc) (oc := oc) (fc := fc) (ld := ld) b = inr z) as Himg.
  { intros b1 Hb1. apply sfold_uniform. intros k Hk. apply Hrow; lia. }
  assert (conv_out (T := T) (sd := sd) (ks := ks) (ss := ss) (ps := ps) (ls := ls) (nb := nb) (nc := nc) (oc := oc) (fc := fc) (ld := ld) = inl tt \/
    conv_out (T := T) (sd := sd) (ks := ks) (ss := ss) (ps := ps) (ls := ls) (nb := nb) (nc := nc) (oc := oc) (fc := fc) (ld := ld) = inr z) as [Hc|Hc];
    [|exfalso|done].
  { apply sfold_uniform. intros k Hk. apply Himg; lia. }
  pose proof (sfold_inl_all _ _ _ _ Hc (Z.to_nat b) ltac:(lia)) as H1. cbv beta in H1. rewrite Z2Nat.id in H1 by lia.
  pose proof (sfold_inl_all _ _ _ _ H1 (Z.to_nat c) ltac:(lia)) as H2. cbv beta in H2. rewrite Z2Nat.id in H2 by lia.
  pose proof (ravel_bound _ _ Hz) as Hr.
  pose proof (sfold_inl_all _ _ _ _ H2 (Z.to_nat (ravel os x)) ltac:(fold os; lia)) as H4. cbv beta in H4. rewrite Z2Nat.id in H4 by lia.
  unfold elem_at in H4. fold os in H4. rewrite unravel_ravel in H4 by done.
  fold (el b c x) in H4. destruct (el b c x) as [w|z'] eqn:He; [by eapply Hno|done].
Qed.
End uniform.

(** ** Filters of floats *)
Definition fl_ld (F : atensor) : floads := fun x => inl (at_ F x).

Section values.
Context {T F : atensor} {sd ks ss ps ls : list Z} {nb nc oc fc : Z} (Hok : cv_ok sd ks ss ps ls).
Context (HdT : a_dims T = nb :: nc :: sd) (HdF : a_dims F = oc :: fc :: ks).
Context (b c : Z) (o : list Z).

Let term (ic : Z) (w : list Z) : option (val * val) :=
  let x := win_coord ss ps ls o w in
  if decide (in_box sd x) then Some (at_ T (b :: ic :: x), at_ F (c :: ic :: w)) else None.
Lemma chan_out_inside ic acc : ic < fc ->
  chan_out T fc ks (fl_ld F) sd ss ps ls b c o ic acc
  = match mac_all F32 acc (conv_chan T F ss ps ls b c ic o) with Some a => inl a | None => inr (HUB UB_uninit) end.
Proof using Hok HdT HdF.
  intros Hic. unfold chan_out, conv_chan. rewrite HdT, HdF.
  change (drop 2 (nb :: nc :: sd)) with sd. change (drop 2 (oc :: fc :: ks)) with ks.
  change (omap _ (coords ks)) with (omap (term ic) (coords ks)).
  rewrite <-coords_length.
  assert (forall l i acc, (forall k w, l !! k = Some w -> w = unravel ks (Z.of_nat (i + k))) ->
    sfold (fun k acc => chan_step T fc (fl_ld F) sd ss ps ls b c o ic (unravel ks (Z.of_nat k)) acc) i (length l) acc
    = match mac_all F32 acc (omap (term ic) l) with Some a => inl a | None => inr (HUB UB_uninit) end) as Hgen.
  2:{ apply Hgen. intros k w Hk. pose proof (lookup_lt_Some _ _ _ Hk) as Hlt. rewrite coords_length in Hlt.
      rewrite coords_lookup in Hk by done. by injection Hk. }
  intros l. induction l as [|w l IH]; intros i a Hl; [done|].
  cbn [length sfold]. pose proof (Hl 0%nat w eq_refl) as Hw. rewrite Nat.add_0_r in Hw. rewrite <-Hw.
  cbn [omap list_omap]. unfold chan_step, term at 1. cbv zeta.
  assert (forall k w', l !! k = Some w' -> w' = unravel ks (Z.of_nat (S i + k))) as Hl'.
  { intros k w' Hk. rewrite (Hl (S k) w' Hk). do 2 f_equal. lia. }
  destruct (decide (in_box sd (win_coord ss ps ls o w))) as [Hb|Hb]; [|by apply IH].
  rewrite decide_True by done. unfold fl_ld at 1.
  unfold mac_all. cbn [foldl mbind option_bind].
  destruct (mac_val F32 a _ _) as [a'|]; [by apply (IH (S i) a')|]. by rewrite mac_all_none.
Qed.

(** no element of the window lies in the input *)
Definition hollow : Prop := forall w, in_box ks w -> ~ in_box sd (win_coord ss ps ls o w).
Lemma chan_out_hollow ld ic acc : hollow -> chan_out T fc ks ld sd ss ps ls b c o ic acc = inl acc.
Proof using Hok.
  clear term. intros Hh. unfold chan_out.
  assert (forall n i, (i + n <= Z.to_nat (prodZ ks))%nat ->
    sfold (fun k acc => chan_step T fc ld sd ss ps ls b c o ic (unravel ks (Z.of_nat k)) acc) i n acc = inl acc) as Hgen.
  2:{ apply Hgen. lia. }
  intros n. induction n as [|n IH]; intros i Hi; [done|]. cbn [sfold]. unfold chan_step at 1. cbv zeta.
  rewrite decide_False; [apply IH; lia|]. apply Hh. apply unravel_in_box. by eapply cv_ks_pos.
Qed.
(** the first element of the window in the input decides *)
Lemma chan_out_solid ld ic acc z : ~ hollow ->
  (forall w, in_box ks w -> in_box sd (win_coord ss ps ls o w) -> chan_step T fc ld sd ss ps ls b c o ic w acc = inr z) ->
  chan_out T fc ks ld sd ss ps ls b c o ic acc = inr z.
Proof using Hok.
  clear term. intros Hh Hz. unfold chan_out. pose proof (cv_ks_pos _ _ _ _ _ Hok) as Hkp.
  assert (forall n i, (i + n = Z.to_nat (prodZ ks))%nat ->
    ~ (forall k, (i <= k < i + n)%nat -> ~ in_box sd (win_coord ss ps ls o (unravel ks (Z.of_nat k)))) ->
    sfold (fun k acc => chan_step T fc ld sd ss ps ls b c o ic (unravel ks (Z.of_nat k)) acc) i n acc = inr z) as Hgen.
  2:{ apply Hgen; [lia|]. intros H. apply Hh. intros w Hw. pose proof (ravel_bound _ _ Hw) as Hr.
      specialize (H (Z.to_nat (ravel ks w)) ltac:(lia)). rewrite Z2Nat.id, unravel_ravel in H by (done || lia). done. }
  intros n. induction n as [|n IH]; intros i Hi Hn.
  { exfalso. apply Hn. intros k Hk. lia. }
  cbn [sfold]. assert (in_box ks (unravel ks (Z.of_nat i))) as Hw by (by apply unravel_in_box).
  destruct (decide (in_box sd (win_coord ss ps ls o (unravel ks (Z.of_nat i))))) as [Hb|Hb].
  - by rewrite Hz.
  - unfold chan_step at 1. cbv zeta. rewrite decide_False by done. apply IH; [lia|].
    intros H. apply Hn. intros k Hk. destruct (decide (k = i)) as [->|Hne]; [done|]. apply H. lia.
Qed.
Lemma elem_out_le m : m <= fc -> 0 <= m ->
  elem_out T fc ks (fl_ld F) sd ss ps ls b c o m
  = match mac_all F32 (zero_val F32) (conv_terms T F ss ps ls m b c o) with Some a => inl a | None => inr (HUB UB_uninit) end.
Proof using Hok HdT HdF.
  intros Hle H0. unfold elem_out, conv_terms.
  assert (forall n i acc, Z.of_nat (i + n) <= fc ->
    sfold (fun k acc => chan_out T fc ks (fl_ld F) sd ss ps ls b c o (Z.of_nat k) acc) i n acc
    = match mac_all F32 acc (seqZ (Z.of_nat i) (Z.of_nat n) ≫= fun ic => conv_chan T F ss ps ls b c ic o) with
      Some a => inl a | None => inr (HUB UB_uninit) end) as Hgen.
  2:{ specialize (Hgen (Z.to_nat m) 0%nat (zero_val F32)). rewrite Z2Nat.id in Hgen by lia. apply Hgen. lia. }
  intros n. induction n as [|n IH]; intros i acc Hi; [done|]. cbn [sfold].
  rewrite chan_out_inside by lia. rewrite seqZ_cons by lia. cbn [mbind list_bind].
  rewrite mac_all_app. destruct (mac_all F32 acc (conv_chan T F ss ps ls b c (Z.of_nat i) o)) as [a|]; [|done].
  cbn [mbind option_bind]. rewrite IH by lia.
  replace (Z.succ (Z.of_nat i)) with (Z.of_nat (S i)) by lia.
  replace (Z.pred (Z.of_nat (S n))) with (Z.of_nat n) by lia. done.
Qed.
Lemma hollow_dec : hollow \/ exists w, in_box ks w /\ in_box sd (win_coord ss ps ls o w).
Proof using Hok.
  clear term. pose proof (cv_ks_pos _ _ _ _ _ Hok) as Hkp.
  assert (forall l : list (list Z), (forall v, v ∈ l -> in_box ks v) ->
    (forall v, v ∈ l -> ~ in_box sd (win_coord ss ps ls o v)) \/
    exists v, v ∈ l /\ in_box sd (win_coord ss ps ls o v)) as Hdec.
  { intros l. induction l as [|v l IH]; intros Hl; [left; intros v Hv; by apply elem_of_nil in Hv|].
    destruct (decide (in_box sd (win_coord ss ps ls o v))) as [Hi|Hi]; [right; exists v; split; [left|done]|].
    destruct IH as [IH|(v' & Hv' & IH)].
    - intros v' Hv'. apply Hl. by right.
    - left. intros v' Hv'. apply elem_of_cons in Hv' as [->|Hv']; [done|by apply IH].
    - right. exists v'. split; [by right|done]. }
  assert (forall v, v ∈ coords ks -> in_box ks v) as Hin.
  { intros v Hv. unfold coords in Hv. apply elem_of_list_fmap in Hv as (k & -> & _). by apply unravel_in_box. }
  destruct (Hdec (coords ks) Hin) as [Hh|(v & Hv & Hh)]; [left|right; exists v; auto].
  intros v Hv. apply Hh. pose proof (ravel_bound _ _ Hv) as Hr.
  apply (elem_of_list_lookup_2 _ (Z.to_nat (ravel ks v))). rewrite coords_lookup by lia.
  by rewrite Z2Nat.id, unravel_ravel by (done || lia).
Qed.
End values.

Lemma sfold_app {V} (g : nat -> V -> V + halt) m n : forall i v,
  sfold g i (m + n) v = match sfold g i m v with inl v => sfold g (i + m) n v | inr z => inr z end.
Proof.
  induction m as [|m IH]; intros i v; [by rewrite Nat.add_0_r|]. cbn [Nat.add sfold].
  destruct (g i v) as [v'|z]; [|done]. rewrite IH. by replace (S i + m)%nat with (i + S m)%nat by lia.
Qed.

(** the first [m] channels, of which both tensors have so many *)
Lemma conv_terms_vals (P Q : val -> Prop) T F nb nc oc fc sd ks ss ps ls b c o m :
  valid T -> valid F -> a_dims T = nb :: nc :: sd -> a_dims F = oc :: fc :: ks -> m <= nc -> m <= fc ->
  Forall (fun d => 0 < d) ks ->
  0 <= b < nb -> 0 <= c < oc -> Forall P (a_vals T) -> Forall Q (a_vals F) ->
  Forall (fun p => P p.1 /\ Q p.2) (conv_terms T F ss ps ls m b c o).
Proof.
  intros HT HF HdT HdF Hm1 Hm2 Hks Hb Hc HP HQ. apply Forall_forall. intros [x y] Hxy.
  unfold conv_terms in Hxy. apply elem_of_list_bind in Hxy as (ic & Hxy & Hic).
  apply elem_of_seqZ in Hic.
  unfold conv_chan in Hxy. apply elem_of_list_omap in Hxy as (w & Hw & Hxy). cbv zeta in Hxy.
  rewrite HdT in Hxy. change (drop 2 (nb :: nc :: sd)) with sd in Hxy.
  rewrite HdF in Hw. change (drop 2 (oc :: fc :: ks)) with ks in Hw.
  destruct (decide _) as [Hx|]; [|done]. injection Hxy as <- <-. cbn [fst snd].
  rewrite Forall_forall in HP, HQ. split; [apply HP|apply HQ]; (apply at_elem; [done|]).
  - rewrite HdT. constructor; [done|]. constructor; [lia|done].
  - rewrite HdF. constructor; [done|]. constructor; [lia|].
    unfold coords in Hw. apply elem_of_list_fmap in Hw as (k & -> & _). by apply unravel_in_box.
Qed.

Lemma fl_ld_ok {F bF tgF exF oc fc ks} {E : env} : valid F -> a_type F = F32 -> a_dims F = oc :: fc :: ks ->
  forall x s, heap s !! bF = Some (Blk tgF (CData (cells F32 (a_vals F) ++ exF))) -> in_box (oc :: fc :: ks) x ->
    run (fl_ld F x) (loadi (HPtr bF) F32 (ravel (oc :: fc :: ks) x)) E s (fun v r s' => r = v /\ s' = s).
Proof.
  intros HF HtF HdF x s Hx Hb. unfold fl_ld. cbn [run].
  pose proof (ravel_bound _ _ Hb) as Hr. pose proof (valid_len _ HF) as Hlen. rewrite HdF in Hlen.
  destruct (lookup_lt_is_Some_2 (a_vals F) (Z.to_nat (ravel (oc :: fc :: ks) x))) as [v Hv]; [lia|].
  unfold at_. rewrite HdF, Hv. unfold default, id.
  eapply wp_intro; [|done].
  replace (ravel (oc :: fc :: ks) x) with (Z.of_nat (Z.to_nat (ravel (oc :: fc :: ks) x))) by lia.
  by eapply loadi_cells.
Qed.

(** A float read from a buffer of another type, of elements at least as wide *)
Lemma loadi_other t vs {E s b tg ex} k : t <> F32 -> (4 <= tsz t)%nat -> Forall (fun v => v <> VU) vs ->
  heap s !! b = Some (Blk tg (CData (cells t vs ++ ex))) -> 0 <= k < Z.of_nat (length vs) ->
  loadi (HPtr b) F32 k E s = UB UB_type.
Proof.
  intros Ht Hsz Hvs Hb Hk. unfold loadi, load. erewrite bind_done by (by eapply get_bytes_ok).
  change (tsz F32) with 4%nat.
  assert (k * 4 + 4 <= Z.of_nat (length (cells t vs))) as Hlen by (rewrite cells_length; nia).
  unfold check, bind. rewrite app_length.
  replace ((0 <=? k * Z.of_nat 4) && (k * Z.of_nat 4 + Z.of_nat 4 <=? Z.of_nat (length (cells t vs) + length ex))) with true by lia.
  assert (Forall (fun m => exists v j, v <> VU /\ m = MF t v j) (cells t vs)) as Hc.
  { unfold cells. clear -Hvs. induction Hvs as [|v vs Hv _ IH]; [constructor|]. cbn [mbind list_bind].
    apply Forall_app. split; [|exact IH]. apply Forall_forall. intros m Hm.
    destruct v; try done; unfold encode in Hm; apply elem_of_list_fmap in Hm as (j & -> & _); eauto. }
  destruct (lookup_lt_is_Some_2 (cells t vs) (Z.to_nat (k * Z.of_nat 4))) as [m Hm]; [lia|].
  rewrite Forall_forall in Hc.
  destruct (Hc m) as (v & j & Hv & ->); [by eapply elem_of_list_lookup_2|].
  erewrite drop_S by (rewrite lookup_app_l by lia; exact Hm).
  cbn [take]. unfold decode. rewrite bool_decide_eq_false_2; [done|].
  destruct v; try done; unfold encode; change (tsz F32) with 4%nat; cbn; congruence.
Qed.

Section stop.
Context {p pf : nat} {T F : atensor} {nb nc oc fc : Z} {sd ks ss ps ls : list Z} {g : Z} {o : hval} {E : env} {s : st}.
Let os := cv_outs sd ks ss ps ls.
Context (Hwf : wf s) (HE : alloc_all E) (HH : hooks_ok E) (HT : holds (heap s) p T) (HF : holds (heap s) pf F)
  (HtT : a_type T = F32) (HdT : a_dims T = nb :: nc :: sd) (HdF : a_dims F = oc :: fc :: ks)
  (Hnc0 : 0 < nc) (Hfc : 0 < fc) (Hrank : (length sd <= 3)%nat) (Hok : cv_ok sd ks ss ps ls)
  (Hfit : fits (tsz F32) (nb :: oc :: os)).

Lemma conv_uninit : a_type F = F32 -> nc <= fc ->
  forall b c x, in_box (nb :: oc :: os) (b :: c :: x) ->
  mac_all F32 (zero_val F32) (conv_terms T F ss ps ls nc b c x) = None ->
  aitisa_conv (HPtr p) (HPtr pf) ss ps ls g o E s = UB UB_uninit.
Proof using Hwf HE HH HT HF HtT HdT HdF Hnc0 Hfc Hrank Hok Hfit.
  intros HtF Hle b c x Hb Hn. pose proof (holds_valid _ _ _ HF) as HvF.
  destruct HF as (_ & bF & tgF & exF & HwF & HxF). rewrite HtF in HxF.
  change (stops (aitisa_conv (HPtr p) (HPtr pf) ss ps ls g o E s) (HUB UB_uninit)).
  eapply (conv_uniform (ld := fl_ld F) (F := F) Hwf HE HH HT HvF HwF HxF
    (fl_ld_ok HvF HtF HdF) HtT HdT HdF Hfc Hnc0 Hrank Hok Hfit g o _ b c x); [exact Hb| |].
  - intros w. rewrite (elem_out_le Hok HdT HdF) by lia. by rewrite Hn.
  - intros b' c' x' _. rewrite (elem_out_le Hok HdT HdF) by lia.
    destruct (mac_all F32 (zero_val F32) (conv_terms T F ss ps ls nc b' c' x')) as [w|]; [left; by exists w|by right].
Qed.

Lemma elem_hollow ld b c x n acc : hollow (sd := sd) (ks := ks) (ss := ss) (ps := ps) (ls := ls) x ->
  forall i, sfold (fun k acc => chan_out T fc ks ld sd ss ps ls b c x (Z.of_nat k) acc) i n acc = inl acc.
Proof using Hok.
  clear - Hok. intros Hh. induction n as [|n IH]; intros i; [done|]. cbn [sfold].
  rewrite (chan_out_hollow Hok) by done. apply IH.
Qed.

Lemma conv_groups : a_type F = F32 -> fc < nc -> init T -> init F -> 0 < nb -> 0 < oc ->
  forall x w, in_box os x -> in_box ks w -> in_box sd (win_coord ss ps ls x w) ->
  aitisa_conv (HPtr p) (HPtr pf) ss ps ls g o E s = Abort.
Proof using Hwf HE HH HT HF HtT HdT HdF Hnc0 Hfc Hrank Hok Hfit.
  intros HtF Hlt HiT HiF Hnb Hoc x w Hx Hw Hin. pose proof (holds_valid _ _ _ HF) as HvF.
  pose proof (holds_valid _ _ _ HT) as HvT. unfold init in HiT, HiF. rewrite HtT in HiT. rewrite HtF in HiF.
  destruct HF as (_ & bF & tgF & exF & HwF & HxF). rewrite HtF in HxF.
  pose proof (cv_ks_pos _ _ _ _ _ Hok) as Hkp.
  assert (forall b c x, 0 <= b < nb -> 0 <= c < oc ->
    (hollow (sd := sd) (ks := ks) (ss := ss) (ps := ps) (ls := ls) x -> exists w, elem_out T fc ks (fl_ld F) sd ss ps ls b c x nc = inl w) /\
    (~ hollow (sd := sd) (ks := ks) (ss := ss) (ps := ps) (ls := ls) x -> elem_out T fc ks (fl_ld F) sd ss ps ls b c x nc = inr HAbort)) as Hel.
  { intros b c y Hb Hc. split; intros Hh.
    - eexists. by apply elem_hollow.
    - unfold elem_out. replace (Z.to_nat nc) with (Z.to_nat fc + S (Z.to_nat (nc - fc - 1)))%nat by lia.
      rewrite sfold_app.
      assert (exists v, mac_all F32 (zero_val F32) (conv_terms T F ss ps ls fc b c y) = Some v /\ val_ok F32 v) as (v & Hv & _).
      { apply mac_all_ok; [unfold mac_total; set_solver|apply zero_val_ok|].
        eapply conv_terms_vals; try done; lia. }
      pose proof (elem_out_le Hok HdT HdF b c y fc ltac:(lia) ltac:(lia)) as Hfirst. rewrite Hv in Hfirst.
      unfold elem_out in Hfirst. rewrite Hfirst.
      cbn [sfold]. rewrite (chan_out_solid Hok _ _ _ _ _ _ HAbort Hh); [done|].
      intros w' Hw' Hin'. unfold chan_step. cbv zeta. rewrite decide_True by done. rewrite decide_False by lia. done. }
  change (stops (aitisa_conv (HPtr p) (HPtr pf) ss ps ls g o E s) HAbort).
  eapply (conv_uniform (ld := fl_ld F) (F := F) Hwf HE HH HT HvF HwF HxF
    (fl_ld_ok HvF HtF HdF) HtT HdT HdF Hfc Hnc0 Hrank Hok Hfit g o _ 0 0 x).
  - constructor; [lia|]. constructor; [lia|done].
  - intros w'. rewrite (proj2 (Hel 0 0 x ltac:(lia) ltac:(lia))); [done|]. intros Hh. by apply (Hh w Hw).
  - intros b c y Hb. inversion Hb as [|? ? ? ? Hb0 Hy]; subst. inversion Hy as [|? ? ? ? Hc0 Hz]; subst.
    destruct (Hel b c y Hb0 Hc0) as [H1 H2].
    destruct (hollow_dec Hok y) as [Hh|(v & Hv & Hh)]; [left; by apply H1|right; apply H2].
    intros Hh'. by apply (Hh' v).
Qed.
Lemma conv_filter_other : a_type F <> F32 -> (4 <= tsz (a_type F))%nat -> Forall (fun v => v <> VU) (a_vals F) ->
  0 < nb -> 0 < oc ->
  forall x w, in_box os x -> in_box ks w -> in_box sd (win_coord ss ps ls x w) ->
  aitisa_conv (HPtr p) (HPtr pf) ss ps ls g o E s = UB UB_type.
Proof using Hwf HE HH HT HF HtT HdT HdF Hnc0 Hfc Hrank Hok Hfit.
  intros HtF Hsz HiF Hnb Hoc x w Hx Hw Hin. pose proof (holds_valid _ _ _ HF) as HvF.
  destruct HF as (_ & bF & tgF & exF & HwF & HxF).
  assert (forall x s, heap s !! bF = Some (Blk tgF (CData (cells (a_type F) (a_vals F) ++ exF))) ->
    in_box (oc :: fc :: ks) x ->
    run (inr (HUB UB_type)) (loadi (HPtr bF) F32 (ravel (oc :: fc :: ks) x)) E s (fun (v : val) r s' => r = v /\ s' = s)) as Hld.
  { intros y s' Hs' Hy. cbn [run stops]. pose proof (valid_len _ HvF) as Hlen. rewrite HdF in Hlen.
    eapply (loadi_other (a_type F) (a_vals F)); [done|done|done|exact Hs'|].
    pose proof (ravel_bound _ _ Hy) as Hr. lia. }
  assert (forall b c x, 0 <= b < nb -> 0 <= c < oc ->
    (hollow (sd := sd) (ks := ks) (ss := ss) (ps := ps) (ls := ls) x -> exists w, elem_out T fc ks (fun _ => inr (HUB UB_type)) sd ss ps ls b c x nc = inl w) /\
    (~ hollow (sd := sd) (ks := ks) (ss := ss) (ps := ps) (ls := ls) x -> elem_out T fc ks (fun _ => inr (HUB UB_type)) sd ss ps ls b c x nc = inr (HUB UB_type))) as Hel.
  { intros b c y Hb Hc. split; intros Hh.
    - eexists. by apply elem_hollow.
    - unfold elem_out. replace (Z.to_nat nc) with (S (Z.to_nat (nc - 1)))%nat by lia.
      cbn [sfold]. rewrite (chan_out_solid Hok _ _ _ _ _ _ (HUB UB_type) Hh); [done|].
      intros w' Hw' Hin'. unfold chan_step. cbv zeta. rewrite decide_True by done. rewrite decide_True by lia. done. }
  change (stops (aitisa_conv (HPtr p) (HPtr pf) ss ps ls g o E s) (HUB UB_type)).
  eapply (conv_uniform (ld := fun _ => inr (HUB UB_type)) (F := F) Hwf HE HH HT HvF HwF HxF
    Hld HtT HdT HdF Hfc Hnc0 Hrank Hok Hfit g o _ 0 0 x).
  - constructor; [lia|]. constructor; [lia|done].
  - intros w'. rewrite (proj2 (Hel 0 0 x ltac:(lia) ltac:(lia))); [done|]. intros Hh. by apply (Hh w Hw).
  - intros b c y Hb. inversion Hb as [|? ? ? ? Hb0 Hy]; subst. inversion Hy as [|? ? ? ? Hc0 Hz]; subst.
    destruct (Hel b c y Hb0 Hc0) as [H1 H2].
    destruct (hollow_dec Hok y) as [Hh|(v & Hv & Hh)]; [left; by apply H1|right; apply H2].
    intros Hh'. by apply (Hh' v).
Qed.
End stop.

(** Every outcome of a convolution of initialised or partly initialised floats *)
Lemma conv_exact p pf T F nb nc oc fc sd ks ss ps ls g o E s :
  wf s -> alloc_all E -> hooks_ok E -> holds (heap s) p T -> holds (heap s) pf F ->
  a_type T = F32 -> a_type F = F32 ->
  a_dims T = nb :: nc :: sd -> a_dims F = oc :: fc :: ks -> nc <= fc -> 0 < nc ->
  (length sd <= 3)%nat -> cv_ok sd ks ss ps ls ->
  fits (tsz F32) (nb :: oc :: cv_outs sd ks ss ps ls) ->
  ((forall b c x, in_box (nb :: oc :: cv_outs sd ks ss ps ls) (b :: c :: x) ->
      mac_all F32 (zero_val F32) (conv_terms T F ss ps ls nc b c x) <> None) ->
   exists T3, a_type T3 = F32 /\ a_dev T3 = a_dev T /\ a_dims T3 = nb :: oc :: cv_outs sd ks ss ps ls /\ valid T3 /\
     (forall b c x, in_box (a_dims T3) (b :: c :: x) ->
        mac_all F32 (zero_val F32) (conv_terms T F ss ps ls nc b c x) = Some (at_ T3 (b :: c :: x))) /\
     makes_saying (conv_status E) (aitisa_conv (HPtr p) (HPtr pf) ss ps ls g o) E s T3) /\
  ((exists b c x, in_box (nb :: oc :: cv_outs sd ks ss ps ls) (b :: c :: x) /\
      mac_all F32 (zero_val F32) (conv_terms T F ss ps ls nc b c x) = None) ->
   aitisa_conv (HPtr p) (HPtr pf) ss ps ls g o E s = UB UB_uninit).
Proof.
  intros Hwf HE HH HT HF HtT HtF HdT HdF Hle Hnc Hrank Hok Hfit. split.
  - intros Hall.
    destruct (tab_choose F32 (a_dev T) (nb :: oc :: cv_outs sd ks ss ps ls)
      (fun x => mac_all F32 (zero_val F32)
        (conv_terms T F ss ps ls nc (default 0 (x !! 0%nat)) (default 0 (x !! 1%nat)) (drop 2 x))) Hfit)
      as (T3 & Hv & Ht & Hdv & Hds & H3).
    { intros x Hx. inversion Hx as [|? b ? y Hb Hy]; subst. inversion Hy as [|? c ? z Hc Hz]; subst.
      cbn. specialize (Hall b c z Hx). destruct (mac_all F32 _ _); [eauto|done]. }
    assert (forall b c x, in_box (a_dims T3) (b :: c :: x) ->
       mac_all F32 (zero_val F32) (conv_terms T F ss ps ls nc b c x) = Some (at_ T3 (b :: c :: x))) as Hval.
    { intros b c x Hx. rewrite Hds in Hx. exact (H3 _ Hx). }
    exists T3. split_and!; [done..|]. by eapply conv_rule.
  - intros (b & c & x & Hb & Hn). eapply (conv_uninit Hwf HE HH HT HF HtT HdT HdF Hnc); try done; lia.
Qed.
