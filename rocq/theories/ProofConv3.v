(** * ProofConv3: the outcome of src/nn/conv.c, whatever the filter *)
From stdpp Require Import gmap list.
From Coq Require Import ZArith Lia Floats.SpecFloat.
From Coq Require Import ZifyBool ZifyNat.
From Verif Require Import Base Mem Spec SpecNN SpecConv ModelCore ModelBasic ModelMath ModelNN Logic
  ProofCore ProofCore2 ProofCore3 ProofIndex ProofLayout ProofKernel ProofKernel2 ProofBasic ProofBasic2 ProofSlice
  ProofFrame ProofMatmul ProofDot4 ProofSoftmax ProofFloat5 ProofWindow ProofPool ProofPool2 ProofSqueeze ProofBatch ProofConvWin ProofConv.
Open Scope Z_scope.

Ltac Zify.zify_post_hook ::= Z.div_mod_to_equations.

(** ** Computations that stop *)
Inductive halt := HUB (u : ub) | HAbort.
Definition stops {A} (r : res A) (z : halt) : Prop :=
  match z with HUB u => r = UB u | HAbort => r = Abort end.
(** [inl]: ends with [Q]; [inr z]: stops with [z] *)
Definition run {X A} (x : X + halt) (m : M A) (E : env) (s : st) (Q : X -> A -> st -> Prop) : Prop :=
  match x with inl v => wp m E s (Q v) | inr z => stops (m E s) z end.

Lemma stops_bind {A B} (m : M A) (k : A -> M B) E s z : stops (m E s) z -> stops (bind m k E s) z.
Proof. destruct z; cbn; [apply bind_UB|apply bind_abort]. Qed.
Lemma run_step {X A B} (x : X + halt) (m : M A) (k : A -> M B) E s a s' Q :
  m E s = Done a s' -> run x (k a) E s' Q -> run x (bind m k) E s Q.
Proof.
  intros H. destruct x as [v|[u|]]; cbn.
  - by eapply wp_step.
  - intros Hk. by erewrite bind_done by exact H.
  - intros Hk. by erewrite bind_done by exact H.
Qed.
Lemma run_stop {X A} (z : halt) (m : M A) E s (Q : X -> A -> st -> Prop) : stops (m E s) z -> run (inr z) m E s Q.
Proof. done. Qed.
Lemma run_bind {X Y A B} (x : X + halt) (y : Y + halt) (m : M A) (k : A -> M B) E s Q R :
  run x m E s R ->
  (forall v, x = inl v -> forall a s', R v a s' -> run y (k a) E s' Q) ->
  (forall z, x = inr z -> y = inr z) ->
  run y (bind m k) E s Q.
Proof.
  intros H Hl Hr. destruct x as [v|z]; cbn in H.
  - apply wp_elim in H as (a & s' & Heq & HR). eapply run_step; [exact Heq|]. by eapply Hl.
  - rewrite (Hr z eq_refl). cbn. by apply stops_bind.
Qed.
Lemma run_scr0 {E : env} {base : gmap nat block} {s : st} {X B} (x : X + halt) L n (k : hval -> M B) Q :
  alloc_all E -> 0 <= n <= PTRDIFF_MAX -> wf s -> frame (e_alloc E) L base (heap s) ->
  (forall b s', wf s' -> frame (e_alloc E) (b :: L) base (heap s') -> rpos s' = rpos s ->
     (ctr s <= ctr s')%nat -> heap s ⊆ heap s' -> run x (k (HPtr b)) E s' Q) ->
  run x (bind (scratch n) k) E s Q.
Proof.
  intros HA Hn Hwf HF Hk. eapply run_step; [by apply scratch_all|]. apply Hk.
  - by apply wf_alloc.
  - cbn. apply frame_alloc; [done| |done]. by apply wf_fresh.
  - done.
  - cbn. lia.
  - by apply st_alloc_sub.
Qed.

Fixpoint sfold {V} (g : nat -> V -> V + halt) (i n : nat) (v : V) : V + halt :=
  match n with
  | O => inl v
  | S n => match g i v with inl v => sfold g (S i) n v | inr z => inr z end
  end.
Lemma iter_run {S V} (I : nat -> S -> V -> st -> Prop) (g : nat -> V -> V + halt) E i0 (body : Z -> S -> M S) N :
  (forall k x v s, (k < N)%nat -> I k x v s ->
     run (g k v) (body (i0 + Z.of_nat k) x) E s (fun v' x' s' => I (Datatypes.S k) x' v' s')) ->
  forall n k x v s, (k + n = N)%nat -> I k x v s ->
  run (sfold g k n v) (iter n (i0 + Z.of_nat k) body x) E s (fun v' x' s' => I N x' v' s').
Proof.
  intros Hb n. induction n as [|n IH]; intros k x v s Hn HI.
  { cbn. rewrite Nat.add_0_r in Hn. by subst k. }
  cbn [sfold iter]. specialize (Hb k x v s ltac:(lia) HI).
  destruct (g k v) as [v'|z]; cbn [run] in Hb.
  - apply wp_elim in Hb as (x' & s' & Heq & HI').
    eapply run_step; [exact Heq|]. replace (i0 + Z.of_nat k + 1) with (i0 + Z.of_nat (Datatypes.S k)) by lia.
    apply IH; [lia|done].
  - cbn. by apply stops_bind.
Qed.
Lemma for64_run {S V} (I : nat -> S -> V -> st -> Prop) (g : nat -> V -> V + halt) E hi (body : Z -> S -> M S) x v s n :
  Z.to_nat hi = n -> I O x v s ->
  (forall k x v s, (k < n)%nat -> I k x v s ->
     run (g k v) (body (Z.of_nat k) x) E s (fun v' x' s' => I (Datatypes.S k) x' v' s')) ->
  run (sfold g 0 n v) (for64 0 hi body x) E s (fun v' x' s' => I n x' v' s').
Proof.
  intros <- H0 Hb. unfold for64. rewrite Z.sub_0_r.
  exact (iter_run I g E 0 body (Z.to_nat hi) Hb (Z.to_nat hi) 0%nat x v s eq_refl H0).
Qed.

(** ** The first index that stops *)
Lemma sfold_all (g : nat -> unit -> unit + halt) n : forall i,
  (forall k, (i <= k < i + n)%nat -> g k tt = inl tt) -> sfold g i n tt = inl tt.
Proof.
  induction n as [|n IH]; intros i H; [done|]. cbn. rewrite (H i) by lia. apply IH. intros k Hk. apply H. lia.
Qed.
Lemma sfold_first (g : nat -> unit -> unit + halt) n j z : forall i,
  (i <= j < i + n)%nat -> (forall k, (i <= k < j)%nat -> g k tt = inl tt) -> g j tt = inr z ->
  sfold g i n tt = inr z.
Proof.
  induction n as [|n IH]; intros i Hj H Hz; [lia|]. cbn.
  destruct (decide (i = j)) as [->|Hne]; [by rewrite Hz|].
  rewrite (H i) by lia. apply IH; [lia| |done]. intros k Hk. apply H. lia.
Qed.
Lemma sfold_inl_all (g : nat -> unit -> unit + halt) n : forall i u,
  sfold g i n tt = inl u -> forall k, (i <= k < i + n)%nat -> g k tt = inl tt.
Proof.
  induction n as [|n IH]; intros i u H k Hk; [lia|]. cbn in H.
  destruct (g i tt) as [[]|z] eqn:Hg; [|done].
  destruct (decide (i = k)) as [->|Hne]; [done|]. apply (IH (S i) u H). lia.
Qed.

(** ** One filter element, one channel, one output element *)
(** what [loadi] finds for an element of the filter *)
Definition floads := list Z -> val + halt.
Section outcome.
Context (T : atensor) (fc : Z) (ks : list Z) (ld : floads) (sd ss ps ls : list Z) (b c : Z) (o : list Z).
Definition chan_step (ic : Z) (w : list Z) (acc : val) : val + halt :=
  let x := win_coord ss ps ls o w in
  if decide (in_box sd x) then
    if decide (ic < fc) then
      match ld (c :: ic :: w) with
      | inl f => match mac_val F32 acc (at_ T (b :: ic :: x)) f with Some a => inl a | None => inr (HUB UB_uninit) end
      | inr z => inr z
      end
    else inr HAbort
  else inl acc.
Definition chan_out (ic : Z) (acc : val) : val + halt :=
  sfold (fun k acc => chan_step ic (unravel ks (Z.of_nat k)) acc) 0 (Z.to_nat (prodZ ks)) acc.
Definition elem_out (nc : Z) : val + halt :=
  sfold (fun k acc => chan_out (Z.of_nat k) acc) 0 (Z.to_nat nc) (zero_val F32).
End outcome.

Section element.
Context {T F : atensor} {sd ks ss ps ls : list Z} {nb nc oc fc : Z} (Hok : cv_ok sd ks ss ps ls).
Let os := cv_outs sd ks ss ps ls.
Let n := length sd.
Context (HT : valid T) (HF : valid F) (HdT : a_dims T = nb :: nc :: sd) (HdF : a_dims F = oc :: fc :: ks)
  (HtT : a_type T = F32) (Hfc : 0 < fc).
Context {pi bA tgA pf bF : nat} {exA : list mv} {blk : block} {E : env} {ld : floads}.
Context (Hld : forall x s, heap s !! bF = Some blk -> in_box (oc :: fc :: ks) x ->
  run (ld x) (loadi (HPtr bF) F32 (ravel (oc :: fc :: ks) x)) E s (fun v r s' => r = v /\ s' = s)).
Definition seen (h : gmap nat block) : Prop :=
  view h pi (dtype_of F32) (a_dev T) (nb :: nc :: sd) (rowmajor (length (nb :: nc :: sd))) bA /\
  h !! bA = Some (Blk tgA (CData (cells F32 (a_vals T) ++ exA))) /\
  view h pf (dtype_of (a_type F)) (a_dev F) (oc :: fc :: ks) (rowmajor (length (oc :: fc :: ks))) bF /\
  h !! bF = Some blk.
Lemma seen_mono h h' : h ⊆ h' -> seen h -> seen h'.
Proof using Type.
  intros Hs (H1 & H2 & H3 & H4). unfold seen.
  split_and!; [by eapply view_mono|by eapply lookup_weaken|by eapply view_mono|by eapply lookup_weaken].
Qed.

Lemma conv_channel_run b c ic o acc s :
  seen (heap s) -> 0 <= b < nb -> 0 <= c < oc -> 0 <= ic < nc -> in_box os o ->
  run (chan_out T fc ks ld sd ss ps ls b c o ic acc)
    (conv_channel (HPtr pi) (HPtr pf) (HPtr bA) (HPtr bF) (Z.of_nat n + 2) (Z.of_nat n) (nb :: nc :: sd) ls
    (b :: ic :: heads ps ss o) c ic (prodZ ks) acc) E s (fun v r s' => r = v /\ s' = s).
Proof using Hok HT HF HdT HdF HtT Hfc Hld.
  intros (HvT & HxT & HvF & HxF) Hb Hc Hic Ho.
  destruct (cv_ok_length _ _ _ _ _ Hok) as (L1 & L2 & L3 & L4).
  pose proof (cv_ks_pos _ _ _ _ _ Hok) as Hkp. pose proof (prodZ_pos _ Hkp) as Hkpos.
  pose proof HF as [HfF _]. rewrite HdF in HfF.
  unfold conv_channel.
  assert (Z.to_nat (Z.of_nat n + 2) = S (S n)) as -> by lia. cbn [replicate].
  eapply run_bind.
  - apply (for64_run (fun k (x : list Z * list Z * val) v s' => s' = s /\ length x.1.1 = S (S n) /\
        (exists t0 t1 tl, x.1.2 = t0 :: t1 :: tl /\ length tl = n) /\ x.2 = v)
        (fun k acc => chan_step T fc ld sd ss ps ls b c o ic (unravel ks (Z.of_nat k)) acc)
        E (prodZ ks) _ _ acc s _ eq_refl).
    + cbn [fst snd]. split_and!; [done|cbn; by rewrite replicate_length| |done].
      exists 0, 0, (replicate n 0). by rewrite replicate_length.
    + intros k [[fil tmp] a] v s' Hk (-> & Lf & (t0 & t1 & tl & Etmp & Ltl) & Ha). cbn [fst snd] in *. subst tmp a.
      set (w := unravel ks (Z.of_nat k)).
      assert (in_box ks w) as Hw by (apply unravel_in_box; first [done|lia]).
      pose proof (in_box_length _ _ Hw) as Lw.
      eapply run_step.
      { eapply linidx_to_coords_ok; [exact HvF|apply tsz_pos|exact HfF| |].
        - rewrite !prodZ_cons. assert (0 < oc * fc) by nia. rewrite Z.mul_assoc. nia.
        - cbn [length]. unfold n in *. lia. }
      rewrite unravel2 by lia. fold w.
      eapply run_step; [apply aset0|]. eapply run_step; [apply aset1|].
      destruct (conv_position_ok Hok nb nc b ic c ic o w t0 t1 tl E s Ho Hw Ltl) as (tl' & Ltl' & Hin & Hpos).
      eapply run_step; [exact Hpos|]. cbv beta match. unfold chan_step. cbv zeta.
      destruct (decide (in_box sd (win_coord ss ps ls o w))) as [Hbx|Hbx].
      * rewrite bool_decide_eq_true_2 by done. rewrite (Hin Hbx) in *.
        assert (in_box (a_dims T) (b :: ic :: win_coord ss ps ls o w)) as HbT.
        { rewrite HdT. constructor; [done|]. constructor; done. }
        destruct (load_at T pi bA tgA exA _ E s HT ltac:(rewrite HtT, HdT; exact HvT)
          ltac:(rewrite HtT; exact HxT) HbT) as [Ho1 Hl1].
        replace (Z.of_nat (length (a_dims T))) with (Z.of_nat n + 2) in Ho1 by (rewrite HdT; cbn [length]; unfold n; lia).
        eapply run_step; [exact Ho1|].
        replace (Z.of_nat n + 2) with (Z.of_nat (length (c :: ic :: w))) by (cbn [length]; unfold n in *; lia).
        destruct (decide (ic < fc)) as [Hif|Hif].
        2:{ apply run_stop, stops_bind. unfold stops.
            eapply coords_to_offset_abort; [exact HvF|].
            intros Hb'. apply Forall2_cons_1 in Hb' as [_ Hb']. apply Forall2_cons_1 in Hb' as [Hb' _]. lia. }
        assert (in_box (oc :: fc :: ks) (c :: ic :: w)) as HbF by (constructor; [done|]; constructor; [lia|done]).
        eapply run_step.
        { eapply coords_to_offset_ok; [exact HvF|apply tsz_pos|exact HfF|apply rowmajor_layout|done]. }
        rewrite offset_rowmajor by (cbn [length]; unfold n in *; lia).
        rewrite HtT in Hl1. eapply run_step; [exact Hl1|].
        specialize (Hld _ s HxF HbF).
        destruct (ld (c :: ic :: w)) as [f|z]; [|cbn in Hld |- *; by apply stops_bind].
        cbn [run] in Hld. apply wp_elim in Hld as (f' & s' & Hf & -> & ->).
        eapply run_step; [exact Hf|].
        destruct (mac_val F32 v (at_ T (b :: ic :: win_coord ss ps ls o w)) f) as [a'|] eqn:Hmac.
        -- eapply run_step; [by apply opt_ok|]. cbn [run].
           apply wp_ret. cbn [fst snd]. split_and!; [done|cbn [length]; unfold n in *; lia| |done].
           exists b, ic, (win_coord ss ps ls o w). split; [done|]. apply in_box_length in Hbx. done.
        -- done.
      * rewrite bool_decide_eq_false_2 by done. cbn [run].
        apply wp_ret. cbn [fst snd]. split_and!; [done|cbn [length]; unfold n in *; lia| |done].
        by exists b, ic, tl'.
  - intros v Hv [[fil tmp] a] s' (-> & _ & _ & Ha). cbn [fst snd] in Ha. subst a.
    unfold chan_out. rewrite Hv. done.
  - intros z Hz. exact Hz.
Qed.

Context {tag lo : nat} {base : gmap nat block} {q pd pm pst px : nat} {dev : device}.
Let odims := nb :: oc :: os.
Let W := prodZ os.
Let TN s' vs := tnew tag lo base s' q pd pm pst px (dtype_of F32) dev odims (cells F32 vs).
Context {ws : list val}.

Lemma conv_element_run b c j s :
  seen base -> fits (tsz F32) odims -> 0 < nc ->
  0 <= b < nb -> 0 <= c < oc -> 0 <= j < W ->
  let k := Z.to_nat ((b * oc + c) * W + j) in
  (k < length ws)%nat ->
  TN s (prog VU ws k) ->
  run (elem_out T fc ks ld sd ss ps ls b c (unravel os j) nc)
    (conv_element (HPtr pi) (HPtr pf) (HPtr q) (HPtr bA) (HPtr bF) (HPtr px) (Z.of_nat n + 2) (Z.of_nat n)
        (nb :: nc :: sd) ss ps ls b c j nc (prodZ ks)) E s
     (fun w _ s' => (ws !! k = Some w -> TN s' (prog VU ws (S k))) /\ rpos s' = rpos s).
Proof using Hok HT HF HdT HdF HtT Hfc Hld.
  intros Hsee Hfit Hnc0 Hb Hc Hj k Hk HTN.
  destruct (cv_ok_length _ _ _ _ _ Hok) as (L1 & L2 & L3 & L4).
  pose proof (cv_outs_length _ _ _ _ _ Hok) as Lo. fold os n in Lo.
  pose proof (prodZ_pos _ (cv_outs_pos _ _ _ _ _ Hok)) as HWp. fold os W in HWp.
  set (o := unravel os j) in *. assert (length o = n) as Lou by (unfold o; rewrite unravel_length; lia).
  assert (in_box os o) as Hbo by (apply unravel_in_box; first [done|by apply cv_outs_pos]).
  unfold conv_element.
  eapply run_step.
  { eapply linidx_to_coords_ok; [eapply tnew_view; exact HTN|apply tsz_pos|exact Hfit| |].
    - unfold odims. rewrite !prodZ_cons. fold W. assert (0 < nb * oc) by nia. rewrite Z.mul_assoc. nia.
    - rewrite replicate_length. unfold odims. cbn [length]. lia. }
  unfold odims at 1. rewrite unravel2 by (unfold W in *; lia). fold o.
  eapply run_step; [apply aset0|]. eapply run_step; [apply aset1|].
  eapply run_step; [by apply (conv_base_ok Hok)|]. fold os o.
  eapply run_step; [apply aset0|].
  eapply run_bind.
  - apply (for64_run (fun i x v s' => x = v /\ rpos s' = rpos s /\
      TN s' (if decide (i = 0)%nat then prog VU ws k else <[k := x]> (prog VU ws k)))
      (fun i acc => chan_out T fc ks ld sd ss ps ls b c o (Z.of_nat i) acc)
      E nc _ _ (zero_val F32) s _ eq_refl).
    + split_and!; [done|done|]. exact HTN.
    + intros i x v s' Hi (-> & Hr & HT').
      eapply run_step; [apply aset1|].
      eapply run_bind.
      { apply (conv_channel_run b c (Z.of_nat i) o v s'); try done; [|lia].
        eapply seen_mono; [|exact Hsee]. eapply tnew_base; exact HT'. }
      2:{ by intros z ->. }
      intros v' Ev x' s1 (-> & ->). rewrite Ev.
      assert (in_box odims (b :: c :: o)) as Hbx.
      { constructor; [done|]. constructor; done. }
      eapply run_step.
      { replace (Z.of_nat n + 2) with (Z.of_nat (length (b :: c :: o))) by (cbn [length]; lia).
        eapply coords_to_offset_ok; [eapply tnew_view; exact HT'|apply tsz_pos|done|apply rowmajor_layout|done]. }
      rewrite offset_rowmajor by (unfold odims; cbn [length]; lia).
      assert (ravel odims (b :: c :: o) = Z.of_nat k) as ->.
      { unfold odims, k. cbn [ravel]. rewrite prodZ_cons. fold W.
        unfold o. rewrite ravel_unravel; [|by apply cv_outs_pos|done].
        rewrite Z2Nat.id; [unfold W; ring|]. pose proof (lin_nonneg b oc c W). lia. }
      eapply run_step.
      { eapply tnew_storei; [exact HT'|].
        destruct (decide _); rewrite ?insert_length, prog_length; lia. }
      cbn [run]. apply wp_ret. split_and!; [done|exact Hr|].
      rewrite (decide_False (P := S i = 0%nat)) by lia.
      replace (<[k:=v']> (prog VU ws k)) with
        (<[k:=v']> (if decide (i = 0%nat) then prog VU ws k else <[k:=v]> (prog VU ws k))).
      2:{ destruct (decide _); [done|]. by rewrite list_insert_insert. }
      eapply tnew_upd; exact HT'.
  - intros v Hv x s' (-> & Hr & HT'). unfold elem_out. rewrite Hv. cbn [run]. apply wp_ret. split; [|done].
    intros Hw. rewrite decide_False in HT' by lia. by rewrite (prog_step _ _ _ _ Hw) in HT'.
  - intros z Hz. exact Hz.
Qed.
Definition elem_at (b c j : Z) : val + halt := elem_out T fc ks ld sd ss ps ls b c (unravel os j) nc.
Definition still (x : val + halt) : unit + halt := match x with inl _ => inl tt | inr z => inr z end.
Definition row_out (b c : Z) : unit + halt := sfold (fun j _ => still (elem_at b c (Z.of_nat j))) 0 (Z.to_nat W) tt.
Definition image_out (b : Z) : unit + halt := sfold (fun c _ => row_out b (Z.of_nat c)) 0 (Z.to_nat oc) tt.
Definition conv_out : unit + halt := sfold (fun b _ => image_out (Z.of_nat b)) 0 (Z.to_nat nb) tt.

Lemma conv_images_run p1 p2 p3 p4 s :
  seen base -> fits (tsz F32) odims -> 0 < nc -> 0 <= nb -> 0 <= oc ->
  is_Some (base !! p1) -> is_Some (base !! p2) -> is_Some (base !! p3) -> is_Some (base !! p4) ->
  Z.of_nat (length ws) = prodZ odims ->
  (forall b c j w, 0 <= b < nb -> 0 <= c < oc -> 0 <= j < W -> elem_at b c j = inl w ->
     ws !! Z.to_nat ((b * oc + c) * W + j) = Some w) ->
  TN s (replicate (length ws) VU) ->
  run conv_out (for64 0 nb (fun b _ =>
      for64 0 oc (fun c _ =>
        for64 0 W (fun j _ =>
          touch (HPtr p1) ;;; touch (HPtr p2) ;;; touch (HPtr p3) ;;; touch (HPtr p4) ;;;
          conv_element (HPtr pi) (HPtr pf) (HPtr q) (HPtr bA) (HPtr bF) (HPtr px) (Z.of_nat n + 2)
            (Z.of_nat n + 2 - 2) (nb :: nc :: sd)
            ss ps ls b c j nc (prodZ ks)) tt) tt) tt) E s
     (fun _ _ s' => TN s' ws /\ rpos s' = rpos s).
Proof using Hok HT HF HdT HdF HtT Hfc Hld.
  intros Hsee Hfit Hnc0 Hnb Hoc H1 H2 H3 H4 Hlen Hval HTN.
  pose proof (prodZ_pos _ (cv_outs_pos _ _ _ _ _ Hok)) as HWp. fold os W in HWp.
  assert (prodZ odims = nb * (oc * W)) as Eodims by (unfold odims; by rewrite !prodZ_cons).
  replace (Z.of_nat n + 2 - 2) with (Z.of_nat n) by lia.
  assert (forall p s', is_Some (base !! p) -> forall vs, TN s' vs -> touch (HPtr p) E s' = Done tt s') as Htouch.
  { intros p s' [x Hx] vs HT'. eapply touch_ok. eapply tnew_lookup; [exact HT'|exact Hx]. }
  assert (forall {X A} (x : X + halt) (m : M A) E s (Q R : X -> A -> st -> Prop),
    run x m E s Q -> (forall v a s', Q v a s' -> R v a s') -> run x m E s R) as Hmono.
  { intros X A [v|z] m E' s' Q R H HQ; [|done]. cbn in *. eapply wp_mono; [exact H|]. by apply HQ. }
  eapply Hmono.
  - apply (for64_run (fun b _ _ s' => TN s' (prog VU ws (Z.to_nat (Z.of_nat b * oc * W))) /\ rpos s' = rpos s)
      (fun b _ => image_out (Z.of_nat b)) E nb _ _ tt s _ eq_refl).
    { change (Z.of_nat 0) with 0. rewrite !Z.mul_0_l, prog_0. done. }
    intros b _ [] s1 Hb [HT1 Hr1].
    eapply Hmono.
    + apply (for64_run (fun c _ _ s' => TN s' (prog VU ws (Z.to_nat ((Z.of_nat b * oc + Z.of_nat c) * W))) /\ rpos s' = rpos s)
        (fun c _ => row_out (Z.of_nat b) (Z.of_nat c)) E oc _ _ tt s1 _ eq_refl).
      { rewrite Z.add_0_r. done. }
      intros c _ [] s2 Hc [HT2 Hr2].
      eapply Hmono.
      * apply (for64_run (fun j _ _ s' => TN s' (prog VU ws (Z.to_nat ((Z.of_nat b * oc + Z.of_nat c) * W + Z.of_nat j))) /\ rpos s' = rpos s)
          (fun j _ => still (elem_at (Z.of_nat b) (Z.of_nat c) (Z.of_nat j))) E W _ _ tt s2 _ eq_refl).
        { rewrite Z.add_0_r. done. }
        intros j _ [] s3 Hj [HT3 Hr3].
        eapply run_step; [by eapply Htouch|]. eapply run_step; [by eapply Htouch|].
        eapply run_step; [by eapply Htouch|]. eapply run_step; [by eapply Htouch|].
        assert (Z.to_nat ((Z.of_nat b * oc + Z.of_nat c) * W + Z.of_nat j) < length ws)%nat as Hin.
        { pose proof (cell_bound nb oc (Z.of_nat b) (Z.of_nat c) W) as (_ & HbW1 & HbW2); [lia|lia|lia|].
          assert ((Z.of_nat b * oc + Z.of_nat c) * W + W <= nb * (oc * W)) by lia.
          pose proof (lin_nonneg (Z.of_nat b) oc (Z.of_nat c) W). lia. }
        pose proof (conv_element_run (Z.of_nat b) (Z.of_nat c) (Z.of_nat j) s3 Hsee Hfit Hnc0 ltac:(lia) ltac:(lia)
          ltac:(lia) Hin HT3) as Hel.
        fold (elem_at (Z.of_nat b) (Z.of_nat c) (Z.of_nat j)) in Hel.
        destruct (elem_at (Z.of_nat b) (Z.of_nat c) (Z.of_nat j)) as [w|z] eqn:Eel; [|done].
        cbn [run still] in Hel |- *. eapply wp_mono; [exact Hel|].
        intros _ s4 [HT4 Hr4]. split; [|congruence].
        specialize (HT4 ltac:(apply Hval; [lia|lia|lia|done])).
        replace (Z.to_nat ((Z.of_nat b * oc + Z.of_nat c) * W + Z.of_nat (S j)))
          with (S (Z.to_nat ((Z.of_nat b * oc + Z.of_nat c) * W + Z.of_nat j))); [exact HT4|].
        pose proof (lin_nonneg (Z.of_nat b) oc (Z.of_nat c) W). lia.
      * intros _ _ s3 [HT3 Hr3]. split; [|congruence].
        replace ((Z.of_nat b * oc + Z.of_nat (S c)) * W) with ((Z.of_nat b * oc + Z.of_nat c) * W + Z.of_nat (Z.to_nat W))
          by (rewrite Nat2Z.inj_succ, Z2Nat.id by lia; ring). done.
    + intros _ _ s2 [HT2 Hr2]. split; [|congruence].
      replace (Z.of_nat (S b) * oc * W) with ((Z.of_nat b * oc + Z.of_nat (Z.to_nat oc)) * W)
        by (rewrite Nat2Z.inj_succ, Z2Nat.id by lia; ring). done.
  - intros _ _ s1 [HT1 Hr1]. split; [|done].
    rewrite prog_full in HT1; [done|]. rewrite Z2Nat.id by lia.
    rewrite <-Z.mul_assoc, <-Eodims. lia.
Qed.
End element.

Lemma run_mono {X A} (x : X + halt) (m : M A) E s (Q R : X -> A -> st -> Prop) :
  run x m E s Q -> (forall v a s', Q v a s' -> R v a s') -> run x m E s R.
Proof. destruct x as [v|z]; [|done]. cbn. intros H HQ. eapply wp_mono; [exact H|]. by apply HQ. Qed.

Lemma conv_float_run p pf T F T3 nb nc oc fc sd ks ss ps ls o bF E s (ld : floads) blk :
  wf s -> alloc_all E -> hooks_ok E -> holds (heap s) p T -> valid F ->
  view (heap s) pf (dtype_of (a_type F)) (a_dev F) (a_dims F) (rowmajor (length (a_dims F))) bF ->
  heap s !! bF = Some blk ->
  (forall x s, heap s !! bF = Some blk -> in_box (oc :: fc :: ks) x ->
    run (ld x) (loadi (HPtr bF) F32 (ravel (oc :: fc :: ks) x)) E s (fun v r s' => r = v /\ s' = s)) ->
  a_type T = F32 -> a_dims T = nb :: nc :: sd -> a_dims F = oc :: fc :: ks -> 0 < fc -> 0 < nc ->
  (length sd <= 3)%nat -> cv_ok sd ks ss ps ls -> prodZ ks <= INT64_MAX ->
  a_type T3 = F32 -> a_dev T3 = a_dev T -> a_dims T3 = nb :: oc :: cv_outs sd ks ss ps ls -> valid T3 ->
  (forall b c x w, in_box (a_dims T3) (b :: c :: x) ->
     elem_out T fc ks ld sd ss ps ls b c x nc = inl w -> w = at_ T3 (b :: c :: x)) ->
  run (conv_out (T := T) (sd := sd) (ks := ks) (ss := ss) (ps := ps) (ls := ls) (nb := nb) (nc := nc) (oc := oc) (fc := fc) (ld := ld))
    (aitisa_conv_float (HPtr p) (HPtr pf) ss ps ls o) E s (fun _ r s' => exists q,
    r = (e_garbage E 0, HPtr q) /\ created E s s' q T3).
Proof.
  intros Hwf HE HH HT HvF HwF HxF Hld HtT HdT HdF Hfc Hnc0 Hrank Hok Hks Ht3 Hdev3 Hdims3 HvT3 Hval.
  set (os := cv_outs sd ks ss ps ls) in *.
  pose proof (holds_valid _ _ _ HT) as HvT. pose proof HvT as [HfitT _].
  pose proof HvF as [HfitF _].
  pose proof HvT3 as [Hfit3 _]. pose proof (valid_len _ HvT3) as Hlen3.
  destruct HT as (_ & bA & tgA & exA & HwT & HxT).
  destruct T3 as [t3 dev3 dims3 ws]. cbn [a_type a_dev a_dims a_vals] in *. subst t3 dev3 dims3.
  rewrite HtT, HdT in *. rewrite HdF in *.
  pose proof (cv_outs_length _ _ _ _ _ Hok) as Lo. fold os in Lo.
  pose proof (cv_outs_pos _ _ _ _ _ Hok) as Hop. fold os in Hop.
  destruct (cv_ok_length _ _ _ _ _ Hok) as (L1 & L2 & L3 & L4).
  assert (Forall (fun d => 0 <= d) (nb :: oc :: os)) as Hnn by apply Hfit3.
  apply Forall_cons in Hnn as [Hn0 Hnn]. apply Forall_cons in Hnn as [Hn1 _].
  assert (prodZ os <= INT64_MAX) as HWmax.
  { by apply (fits_space nb oc). }
  unfold aitisa_conv_float.
  eapply run_step; [by eapply tensor_ndim_ok|].
  eapply run_step; [by eapply tensor_dims_ok|].
  eapply run_step; [by eapply tensor_dims_ok|].
  assert (Z.of_nat (length (nb :: nc :: sd)) = Z.of_nat (length sd) + 2) as -> by (cbn [length]; lia).
  set (n := Z.of_nat (length sd) + 2).
  assert (0 <= 8 * n <= PTRDIFF_MAX) as Hsz by (unfold n; llia).
  eapply run_scr0; [done|done|done|apply frame_nil|]. intros c1 s1 W1 F1 R1 C1 S1.
  eapply run_scr0; [done|done|done|exact F1|]. intros c2 s2 W2 F2 R2 C2 S2.
  eapply run_scr0; [done|done|done|exact F2|]. intros c3 s3 W3 F3 R3 C3 S3.
  eapply run_scr0; [done|done|done|exact F3|]. intros c4 s4 W4 F4 R4 C4 S4.
  eapply run_scr0; [done|done|done|exact F4|]. intros c5 s5 W5 F5 R5 C5 S5.
  eapply run_scr0; [done|done|done|exact F5|]. intros c6 s6 W6 F6 R6 C6 S6.
  eapply run_scr0; [done|done|done|exact F6|]. intros c7 s7 W7 F7 R7 C7 S7.
  eapply run_scr0; [done|done|done|exact F7|]. intros c8 s8 W8 F8 R8 C8 S8.
  eapply run_step; [eapply touch_frame0; [exact F8|]; rewrite !elem_of_cons; tauto|].
  eapply run_step; [by apply (conv_output_dims_ok Hok)|]. fold os.
  assert (heap s ⊆ heap s8) as S08 by (by eapply frame_sub).
  pose proof (view_mono _ _ _ _ _ _ _ _ S08 HwT) as HwT8.
  pose proof (view_mono _ _ _ _ _ _ _ _ S08 HwF) as HwF8.
  pose proof (lookup_weaken _ _ _ _ HxT S08) as HxT8.
  pose proof (lookup_weaken _ _ _ _ HxF S08) as HxF8.
  eapply run_step; [by eapply tensor_dtype_ok|].
  eapply run_step; [by eapply tensor_device_ok|].
  destruct (create_t_ok F32 (a_dev T) (nb :: oc :: os) HUndef E s8 W8 Hfit3 HE)
    as (s9 & q & pd & pm & pst & px & Hcr & Ht9 & R9).
  replace (Z.of_nat (length (nb :: oc :: os))) with n in Hcr by (unfold n; cbn [length]; lia).
  eapply run_step; [exact Hcr|].
  cbv beta match. rewrite bool_decide_eq_true_2 by done. cbn [negb].
  assert (forall c, c ∈ [c8; c7; c6; c5; c4; c3; c2; c1] -> touch (HPtr c) E s9 = Done tt s9) as Htouch.
  { intros c Hc. eapply touch_frame; [exact Ht9|exact F8|done]. }
  pose proof (view_mono _ _ _ _ _ _ _ _ (tnew_base _ _ Ht9) HwT8) as HwT9.
  pose proof (view_mono _ _ _ _ _ _ _ _ (tnew_base _ _ Ht9) HwF8) as HwF9.
  pose proof (tnew_view _ _ Ht9) as Hw9.
  eapply run_step; [apply Htouch; rewrite !elem_of_cons; tauto|].
  eapply run_step.
  { erewrite all_strides; [done|exact HwT9|apply (tsz_pos F32)|exact HfitT|apply rowmajor_layout|].
    unfold n. rewrite replicate_length. cbn [length]. lia. }
  eapply run_step; [apply Htouch; rewrite !elem_of_cons; tauto|].
  eapply run_step.
  { erewrite all_strides; [done|exact HwF9|apply tsz_pos|exact HfitF|apply rowmajor_layout|].
    unfold n. rewrite replicate_length. cbn [length]. lia. }
  eapply run_step; [apply Htouch; rewrite !elem_of_cons; tauto|].
  eapply run_step.
  { erewrite all_strides; [done|exact Hw9|apply (tsz_pos F32)|exact Hfit3|apply rowmajor_layout|].
    unfold n. rewrite replicate_length. cbn [length]. lia. }
  eapply run_step; [by eapply tensor_data_ok|].
  eapply run_step; [by eapply tensor_data_ok|].
  eapply run_step; [by eapply tensor_data_ok|].
  eapply run_step; [apply size_from_dim_ok; [done|done|llia|unfold n; lia]|].
  eapply run_step.
  { apply size_from_dim_ok; [by eapply cv_ks_pos|done|llia|unfold n; lia]. }
  eapply run_step; [by eapply (tensor_dim_ok HwT9 0 nb)|].
  eapply run_step; [by eapply (tensor_dim_ok HwT9 1 nc)|].
  eapply run_step; [by eapply (tensor_dim_ok Hw9 1 oc)|].
  assert (forall c, c ∈ [c8; c7; c6; c5; c4; c3; c2; c1] -> is_Some (heap s8 !! c)) as Hsome.
  { intros c Hc. destruct (frame_lookup _ _ c F8 Hc) as (y & Hy & _). eauto. }
  eapply run_bind.
  { unfold n. eapply (conv_images_run (T := T) (F := F) Hok HvT HvF HdT HdF HtT Hfc Hld (ws := ws)
      (base := heap s8) (pi := p) (pf := pf) (bA := bA) (bF := bF));
      [..|replace (length ws) with (Z.to_nat (prodZ (nb :: oc :: os))) by lia; exact Ht9]; try done.
    - apply Hsome. rewrite !elem_of_cons; tauto.
    - apply Hsome. rewrite !elem_of_cons; tauto.
    - apply Hsome. rewrite !elem_of_cons; tauto.
    - apply Hsome. rewrite !elem_of_cons; tauto.
    - fold os. intros b c j w Hb Hc Hj Hw.
      assert (in_box os (unravel os j)) as Hbo by (by apply unravel_in_box).
      assert (in_box (nb :: oc :: os) (b :: c :: unravel os j)) as Hbx by (constructor; [done|]; constructor; done).
      specialize (Hval b c (unravel os j) w Hbx Hw).
      unfold at_ in Hval. cbn [a_vals a_dims] in Hval.
      pose proof (ravel_bound _ _ Hbx) as Hrb.
      assert (ravel (nb :: oc :: os) (b :: c :: unravel os j) = (b * oc + c) * prodZ os + j) as Hr.
      { cbn [ravel]. rewrite prodZ_cons, ravel_unravel by done. ring. }
      rewrite Hr in *.
      destruct (lookup_lt_is_Some_2 ws (Z.to_nat ((b * oc + c) * prodZ os + j))) as [w' Hw']; [lia|].
      rewrite Hw' in Hval. cbn in Hval. by subst w'. }
  2:{ by intros z ->. }
  intros v Hv r s10 (Ht10 & R10). fold os in Ht10. rewrite Hv. cbn [run].
  eapply (wp_scr_free [c8; c7; c6; c5; c4; c3; c2] c1 []); [done|exact Ht10|exact F8|]. intros h11 s11 Ht11 F11 R11.
  eapply (wp_scr_free [c8; c7; c6; c5; c4; c3] c2 []); [done|exact Ht11|exact F11|]. intros h12 s12 Ht12 F12 R12.
  eapply (wp_scr_free [c8; c7; c6; c5; c4] c3 []); [done|exact Ht12|exact F12|]. intros h13 s13 Ht13 F13 R13.
  eapply (wp_scr_free [c8; c7; c6; c5] c4 []); [done|exact Ht13|exact F13|]. intros h14 s14 Ht14 F14 R14.
  eapply (wp_scr_free [c8; c7] c6 [c5]); [done|exact Ht14|exact F14|]. intros h15 s15 Ht15 F15 R15.
  eapply (wp_scr_free [c8] c7 [c5]); [done|exact Ht15|exact F15|]. intros h16 s16 Ht16 F16 R16.
  eapply (wp_scr_free [] c8 [c5]); [done|exact Ht16|exact F16|]. intros h17 s17 Ht17 F17 R17.
  eapply (wp_scr_free [] c5 []); [done|exact Ht17|exact F17|]. intros h18 s18 Ht18 F18 R18.
  apply frame_nil_inv in F18 as ->.
  eapply wp_step; [done|].
  apply wp_ret. exists q. split; [done|].
  eapply tnew_makes; [done|done| |].
  - eapply tnew_lo; [exact Ht18|lia].
  - congruence.
Qed.
