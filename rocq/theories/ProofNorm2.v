(** * ProofNorm2: src/nn/batch_norm.c, writing the output; two axes *)
From stdpp Require Import gmap list.
From Coq Require Import ZArith Lia Floats.SpecFloat.
From Coq Require Import ZifyBool ZifyNat.
From Verif Require Import Base Mem Spec SpecReal SpecNN SpecNorm ModelCore ModelBasic ModelMath ModelNN Logic
  ProofCore ProofCore2 ProofCore3 ProofIndex ProofKernel ProofKernel2 ProofBasic ProofSqueeze ProofSlice ProofFrame
  ProofMatmul ProofMath ProofCast ProofSqrt ProofDot3 ProofSoftmax ProofOwn ProofNorm.
Open Scope Z_scope.

Ltac Zify.zify_post_hook ::= Z.div_mod_to_equations.

(** ** Changing a block below the owned objects *)
Lemma pool_upd tag lo base L h b k0 k : pool tag lo base L h -> base !! b = Some k0 ->
  pool tag lo (<[b := k]> base) L (<[b := k]> h).
Proof.
  intros H Hb. induction H as [|x L n h Hx Hd Hlo Hp IH]; [constructor|].
  assert (h !! b = Some k0) as Hhb by (eapply lookup_weaken; [exact Hb|by eapply pool_sub]).
  assert (n !! b = None) as Hn by (eapply map_disjoint_Some_r; done).
  rewrite insert_union_r by done. constructor; [done| |done|done].
  by apply map_disjoint_insert_r.
Qed.
Lemma own_upd E s0 L s b k0 k : own E s0 L s -> heap s0 !! b = Some k0 ->
  own E (upd s0 b k) L (upd s b k).
Proof.
  intros (H1 & H2 & H3 & H4) Hb. split_and!; [|done|done|].
  - apply wf_upd; [done|]. exists k0. eapply lookup_weaken; [exact Hb|by eapply pool_sub].
  - cbn. by eapply pool_upd.
Qed.
Lemma own_data E s0 L s p W : own E s0 L s -> IT p W ∈ L ->
  exists data tg ex,
    view (heap s) p (dtype_of (a_type W)) (a_dev W) (a_dims W) (rowmajor (length (a_dims W))) data /\
    heap s !! data = Some (Blk tg (CData (cells (a_type W) (a_vals W) ++ ex))) /\
    heap s0 !! data = None.
Proof.
  intros (_ & _ & _ & H) Hin.
  assert (exists n, item_owns (e_alloc E) (IT p W) n /\ n ⊆ heap s /\ n ##ₘ heap s0) as (n & [HW Ho] & Hs & Hd).
  { induction H as [|y L n h Hx Hd Hlo Hp IH]; [by apply elem_of_nil in Hin|].
    apply elem_of_cons in Hin as [<-|Hin].
    - exists n. split_and!; [done|apply map_union_subseteq_l|].
      eapply map_disjoint_weaken_r; [exact Hd|by eapply pool_sub].
    - destruct (IH Hin) as (m & Hm & Hms & Hmd). exists m. split_and!; [done| |done].
      etrans; [exact Hms|]. by apply map_union_subseteq_r. }
  assert (holds n p W) as (_ & data & tg & ex & Hv & Hx) by by eapply owns_holds.
  exists data, tg, ex. split_and!.
  - by eapply view_mono.
  - by eapply lookup_weaken.
  - eapply map_disjoint_Some_l; done.
Qed.

(** ** Filling a tensor coordinate by coordinate *)
Definition good (dims : list Z) (f : list Z -> val) (P : list Z -> Prop) (vs : list val) : Prop :=
  length vs = Z.to_nat (prodZ dims) /\
  forall c, in_box dims c -> P c -> vs !! Z.to_nat (ravel dims c) = Some (f c).
Lemma good_insert dims f (P P' : list Z -> Prop) vs x :
  good dims f P vs -> in_box dims x -> (forall c, in_box dims c -> P' c -> P c \/ c = x) ->
  good dims f P' (<[Z.to_nat (ravel dims x) := f x]> vs).
Proof.
  intros [Hl H] Hx HP. split; [by rewrite insert_length|]. intros c Hc Hpc.
  pose proof (ravel_bound _ _ Hc). pose proof (ravel_bound _ _ Hx).
  destruct (decide (c = x)) as [->|Hne].
  - apply list_lookup_insert. lia.
  - rewrite list_lookup_insert_ne; [|intros Heq; apply Hne; apply (ravel_inj dims); [done|done|lia]].
    apply H; [done|]. destruct (HP c Hc Hpc); done.
Qed.
Lemma good_mono dims f (P P' : list Z -> Prop) vs :
  good dims f P vs -> (forall c, in_box dims c -> P' c -> P c) -> good dims f P' vs.
Proof. intros [Hl H] HP. split; [done|]. auto. Qed.
Lemma good_all dims f (P : list Z -> Prop) vs : Forall (fun d => 0 <= d) dims ->
  good dims f P vs -> (forall c, in_box dims c -> P c) -> vs = tab dims f.
Proof.
  intros Hd [Hl H] HP. apply list_eq. intros i.
  destruct (decide (i < Z.to_nat (prodZ dims))%nat) as [Hi|Hi].
  - rewrite tab_lookup by done.
    assert (Forall (fun d => 0 < d) dims) as Hpos.
    { apply Forall_forall. intros d Hd'. rewrite Forall_forall in Hd. specialize (Hd d Hd').
      destruct (decide (d = 0)) as [->|]; [|lia].
      assert (prodZ dims = 0); [|lia]. clear -Hd'. induction dims as [|e dims IH]; [by apply elem_of_nil in Hd'|].
      rewrite prodZ_cons. apply elem_of_cons in Hd' as [<-|Hd']; [lia|]. rewrite (IH Hd'). lia. }
    pose proof (unravel_in_box dims (Z.of_nat i) Hpos) as Hb.
    rewrite <-(H _ Hb) by by apply HP. rewrite ravel_unravel by (done || lia). by rewrite Nat2Z.id.
  - rewrite !lookup_ge_None_2; [done|rewrite tab_length; lia|lia].
Qed.

(** ** The output tensor *)
Section out.
Context {E : env} {s : st}.
(** The tensor [q] on top of the first state, then the objects [L]. *)
Definition over (q pd pm ps px : nat) t dev dims vs (L : list item) (s' : st) : Prop :=
  exists s1, tnew (e_alloc E) (ctr s) (heap s) s1 q pd pm ps px (dtype_of t) dev dims (cells t vs) /\
    rpos s1 = rpos s /\ own E s1 L s'.

Lemma over_set q pd pm ps px t dev dims vs vs' L s' : over q pd pm ps px t dev dims vs L s' ->
  over q pd pm ps px t dev dims vs' L (upd s' px (Blk (e_alloc E) (CData (cells t vs')))).
Proof using Type.
  intros (s1 & HT & Hr & HO). exists (upd s1 px (Blk (e_alloc E) (CData (cells t vs')))).
  split_and!; [by eapply tnew_upd|done|]. eapply own_upd; [done|]. by eapply tnew_px.
Qed.
Lemma over_px q pd pm ps px t dev dims vs L s' : over q pd pm ps px t dev dims vs L s' ->
  heap s' !! px = Some (Blk (e_alloc E) (CData (cells t vs))).
Proof using Type.
  intros (s1 & HT & Hr & HO). eapply lookup_weaken; [by eapply tnew_px|].
  destruct HO as (_ & _ & _ & Hp). by eapply pool_sub.
Qed.
Lemma over_view q pd pm ps px t dev dims vs L s' : over q pd pm ps px t dev dims vs L s' ->
  view (heap s') q (dtype_of t) dev dims (rowmajor (length dims)) px.
Proof using Type.
  intros (s1 & HT & Hr & HO). eapply view_mono; [|by eapply tnew_view].
  destruct HO as (_ & _ & _ & Hp). by eapply pool_sub.
Qed.
Lemma over_base q pd pm ps px t dev dims vs L s' p T : over q pd pm ps px t dev dims vs L s' ->
  holds (heap s) p T -> holds (heap s') p T.
Proof using Type.
  intros (s1 & HT & Hr & HO) H. eapply own_base; [exact HO|]. eapply holds_mono; [by eapply tnew_base|done].
Qed.
Lemma over_wf q pd pm ps px t dev dims vs L s' : over q pd pm ps px t dev dims vs L s' -> wf s'.
Proof using Type. intros (s1 & HT & Hr & HO). by eapply own_wf. Qed.
Lemma over_data q pd pm ps px t dev dims vs L s' p W : over q pd pm ps px t dev dims vs L s' -> IT p W ∈ L ->
  exists data tg ex,
    view (heap s') p (dtype_of (a_type W)) (a_dev W) (a_dims W) (rowmajor (length (a_dims W))) data /\
    heap s' !! data = Some (Blk tg (CData (cells (a_type W) (a_vals W) ++ ex))) /\ data <> px.
Proof using Type.
  intros (s1 & HT & Hr & HO) Hin. destruct (own_data _ _ _ _ _ _ HO Hin) as (d & tg & ex & H1 & H2 & H3).
  exists d, tg, ex. split_and!; [done|done|]. intros ->. pose proof (tnew_px _ _ HT). congruence.
Qed.
Lemma over_own q pd pm ps px t dev dims vs L s' : over q pd pm ps px t dev dims vs L s' ->
  exists s1, own E s1 L s' /\ forall L' s'', own E s1 L' s'' -> over q pd pm ps px t dev dims vs L' s''.
Proof using Type.
  intros (s1 & HT & Hr & HO). exists s1. split; [done|]. intros L' s'' HO'. exists s1. done.
Qed.
Lemma over_final q pd pm ps px t dev dims vs s' : wf s -> valid (AT t dev dims vs) ->
  over q pd pm ps px t dev dims vs [] s' -> created E s s' q (AT t dev dims vs).
Proof using Type.
  intros Hwf Hv (s1 & HT & Hr & (HO1 & HO2 & HO3 & HO4)). inversion HO4 as [Heq|]; subst.
  eapply tnew_makes; [done|done| |congruence]. by eapply tnew_ctr_mono.
Qed.
End out.

(** Copying an element out of an owned tensor *)
Lemma over_copy (E : env) (s' : st) px t vs src tg' ws ex' w (i j : nat) doff soff n :
  heap s' !! src = Some (Blk tg' (CData (cells t ws ++ ex'))) -> src <> px ->
  (i < length vs)%nat -> ws !! j = Some w ->
  doff = Z.of_nat i * Z.of_nat (tsz t) -> soff = Z.of_nat j * Z.of_nat (tsz t) -> n = Z.of_nat (tsz t) ->
  memcpy (HPtr px) doff (HPtr src) soff n E (upd s' px (Blk (e_alloc E) (CData (cells t vs))))
  = Done tt (upd s' px (Blk (e_alloc E) (CData (cells t (<[i := w]> vs))))).
Proof.
  intros Hs Hne Hi Hw Hd Ho Hn.
  rewrite (memcpy_cell px src E _ (e_alloc E) tg' t vs [] ws ex' w i j).
  - rewrite app_nil_r. by rewrite upd_upd.
  - cbn. by rewrite lookup_insert_ne by done.
  - cbn. rewrite lookup_insert. by rewrite app_nil_r.
  - done.
  - done.
  - done.
  - done.
  - done.
Qed.

(** ** Creating it *)
Lemma create_like_ok p T o E s : wf s -> alloc_all E -> holds (heap s) p T ->
  exists s1 q pd pm ps px,
    nn_create_like (HPtr p) o E s = Done (SUCCESS, HPtr q) s1 /\
    over (E:=E) (s:=s) q pd pm ps px (a_type T) (a_dev T) (a_dims T)
      (replicate (Z.to_nat (prodZ (a_dims T))) VU) [] s1.
Proof.
  intros Hwf HA HT. pose proof HT as (HvT & bx & tg & ex & Hv & Hx).
  destruct (create_t_ok (a_type T) (a_dev T) (a_dims T) HUndef E s Hwf) as (s1 & q & pd & pm & ps & px & Hc & Ht & Hr);
    [by apply valid_fits|done|].
  exists s1, q, pd, pm, ps, px. split.
  - unfold nn_create_like.
    erewrite bind_done by by eapply tensor_dims_ok.
    erewrite bind_done by by eapply tensor_ndim_ok.
    erewrite bind_done by by eapply tensor_dtype_ok.
    erewrite bind_done by by eapply tensor_device_ok.
    erewrite bind_done by exact Hc. done.
  - exists s1. split_and!; [done|done|]. apply own_nil. by eapply tnew_wf.
Qed.

(** ** Two axes *)
Section rows.
Context {E : env} {s : st} (HA : alloc_all E) (HE : hooks_ok E).
Context (p pS pB pM : nat) (T Sc Bi Me : atensor) (t : tcode) (dev : device) (nb ch : Z) (f : list Z -> val).
Context (HT : holds (heap s) p T) (HS : holds (heap s) pS Sc) (HB : holds (heap s) pB Bi) (HM : holds (heap s) pM Me).
Context (Tt : a_type T = t) (TS : a_type Sc = t) (TB : a_type Bi = t) (TM : a_type Me = t).
Context (Vt : a_dev T = dev) (Ct : dev_type dev = 0) (CS : dev_type (a_dev Sc) = 0) (CB : dev_type (a_dev Bi) = 0)
  (CM : dev_type (a_dev Me) = 0).
Context (Dt : a_dims T = [nb; ch]) (DS : a_dims Sc = [ch]) (DB : a_dims Bi = [ch]) (DM : a_dims Me = [ch]).
Context (Hch : 0 < ch <= INT_MAX) (Hnb : nb <= INT_MAX).
Context (pD : nat) (De : atensor) (TD : a_type De = t) (CD : dev_type (a_dev De) = 0) (DD : a_dims De = [ch]).
Context (q pd pm ps px : nat).

Let Ov := over (E:=E) (s:=s) q pd pm ps px t dev [nb; ch].
Definition row_done (a b : Z) (x : list Z) : Prop :=
  exists a' b', x = [a'; b'] /\ 0 <= b' < ch /\ (a' < a \/ a' = a /\ b' < b).

Lemma row_ok k vs L s' : 0 <= k < nb ->
  (forall b, 0 <= b < ch ->
     bn_out t (at_ De [b]) (at_ Sc [b]) (at_ Bi [b]) (at_ Me [b]) (at_ T [k; b]) = Some (f [k; b])) ->
  Ov vs L s' -> good [nb; ch] f (row_done k 0) vs -> IT pD De ∈ L ->
  wp (bn_row (HPtr p) (HPtr pS) (HPtr pB) (HPtr pM) (HPtr pD) [k; 0] [1; ch] [1; 1] (HPtr px)
        (Z.of_nat (tsz t)) k) E s'
    (fun r s'' => r = Next [k + 1; 0] /\ exists vs', Ov vs' L s'' /\ good [nb; ch] f (row_done (k + 1) 0) vs').
Proof using All.
  intros Hk Hf HO HG HD.
  destruct (over_own _ _ _ _ _ _ _ _ _ _ _ HO) as (s1 & Ho & Hback).
  assert (holds (heap s') pD De) as HDe by by eapply own_holds.
  set (ws := (fun j => f [k; Z.of_nat j]) <$> seq 0 (Z.to_nat ch)).
  assert (length ws = Z.to_nat ch) as Lw by (unfold ws; by rewrite fmap_length, seq_length).
  assert (slice_dims [1; ch] [1; 1] = [1; ch]) as Hsd.
  { cbn [slice_dims]. replace (ch =? 0) with false by lia. rewrite !cdiv_1. done. }
  assert (prodZ [1; ch] = ch) as Hp1 by (rewrite !prodZ_cons, prodZ_nil; lia).
  assert (forall U c b, valid U -> a_dims U = [ch] -> a_vals U !! c = Some b ->
            b = at_ U [Z.of_nat c] /\ (c < Z.to_nat ch)%nat) as Hvec.
  { intros U c b HU DU Hc. pose proof (valid_len _ HU) as Hl. rewrite DU, prodZ_cons, prodZ_nil in Hl.
    pose proof (lookup_lt_Some _ _ _ Hc). rewrite (at_1 U ch _ DU), Nat2Z.id, Hc. split; [done|lia]. }
  unfold bn_row.
  eapply (chain_ok HA HE _ L s' p pM pD pS pB T Me De Sc Bi t dev [ch]
            (tab [1; ch] (fun c => at_ T (slice_src [k; 0] [1; ch] [1; 1] c))) ws);
    rewrite ?Hsd; try done; try (by eapply over_base; [exact HO|]).
  - rewrite prodZ_cons, prodZ_nil. lia.
  - by rewrite Dt.
  - rewrite Dt. cbn [slice_ok]. repeat split; llia.
  - lia.
  - repeat constructor; lia.
  - apply NoDup_singleton.
  - repeat constructor; cbn; lia.
  - rewrite Lw, tab_length. lia.
  - intros i x m d c b w Hx Hm Hd Hc Hb Hw.
    destruct (Hvec Me i m) as [-> Hi]; [by destruct HM|done|done|].
    destruct (Hvec De i d) as [-> _]; [by destruct HDe|done|done|].
    destruct (Hvec Sc i c) as [-> _]; [by destruct HS|done|done|].
    destruct (Hvec Bi i b) as [-> _]; [by destruct HB|done|done|].
    rewrite tab_lookup in Hx by lia. injection Hx as <-.
    unfold ws in Hw. rewrite list_lookup_fmap, lookup_seq_lt in Hw by lia. injection Hw as <-.
    rewrite <-(Hf (Z.of_nat i)) by lia. f_equal. f_equal. cbn [unravel].
    rewrite !prodZ_cons, prodZ_nil. cbn [slice_src]. replace (ch =? 0) with false by lia.
    cbn [Z.eqb]. f_equal; [|f_equal].
    + rewrite Z.mul_1_r, Z.div_small by lia. rewrite Z.mod_0_l by lia. lia.
    + rewrite Z.div_1_r, Z.mod_small by lia. lia.
  - intros q0 q1 s2 us Ho2.
    eapply (own_try_drop q0 _ _ [_] L); [done|exact Ho2|]. intros s3 Ho3. cbn [app] in Ho3.
    pose proof (Hback _ _ Ho3) as HO3. set (W := AT t (a_dev Sc) [ch] ws) in *.
    destruct (over_data _ _ _ _ _ _ _ _ _ _ _ q1 W HO3) as (data & tg & ex & Hv & Hx & Hne); [left|].
    eapply wp_step; [by eapply tensor_size_ok|].
    eapply wp_step; [by eapply tensor_data_ok|]. cbn [a_dims a_type a_vals W] in Hx |- *.
    rewrite !prodZ_cons, prodZ_nil, Z.mul_1_r.
    pose proof (over_px _ _ _ _ _ _ _ _ _ _ _ HO3) as Hpx.
    pose proof (tsz_range t) as Htr.
    assert (prodZ [nb; ch] = nb * ch) as HpT by (rewrite !prodZ_cons, prodZ_nil; lia).
    apply wp_bind. eapply wp_mono.
    { apply (for64_rule (fun e _ s4 => exists vs', s4 = upd s3 px (Blk (e_alloc E) (CData (cells t vs'))) /\
        good [nb; ch] f (row_done k (Z.of_nat e)) vs') _ _ _ (Z.to_nat ch)); [lia| |].
      - exists vs. split; [|done]. by rewrite upd_id.
      - intros e [] s4 He (vs' & -> & HG'). rewrite Z.add_0_l.
        assert (0 <= k * ch /\ 0 <= k * ch + Z.of_nat e < nb * ch) as [Hk0 Hke] by nia.
        pose proof (fits_bytes _ _ (valid_fits _ (holds_valid _ _ _ HT))) as Hby. rewrite Dt, HpT, Tt in Hby.
        assert (0 <= k * ch * Z.of_nat (tsz t) <= Z.of_nat (tsz t) * (nb * ch)) by nia.
        assert (k * ch <= k * ch * Z.of_nat (tsz t)) by nia.
        assert (0 <= Z.of_nat e * Z.of_nat (tsz t) <= INT_MAX * 8) by nia.
        eapply wp_step; [apply ck64_ok; llia|].
        eapply wp_step; [apply ck64_ok; llia|].
        eapply wp_step; [apply ck64_ok; llia|].
        eapply wp_intro.
        { eapply (over_copy E s3 px t vs' data tg ws ex (f [k; Z.of_nat e]) (Z.to_nat (ravel [nb; ch] [k; Z.of_nat e])) e);
            [done|done| | | |reflexivity|reflexivity].
          - destruct HG' as [-> _]. rewrite HpT. cbn [ravel]. rewrite prodZ_cons, prodZ_nil. lia.
          - unfold ws. by rewrite list_lookup_fmap, lookup_seq_lt by lia.
          - cbn [ravel]. rewrite prodZ_cons, prodZ_nil. rewrite Z2Nat.id by lia. ring. }
        exists (<[Z.to_nat (ravel [nb; ch] [k; Z.of_nat e]) := f [k; Z.of_nat e]]> vs'). split; [done|].
        eapply good_insert; [exact HG'| |].
        + apply in_box_cons. split; [lia|]. apply in_box_cons. split; [lia|constructor].
        + intros c _ (a' & b' & -> & Hb' & Hab). destruct (decide (a' = k /\ b' = Z.of_nat e)) as [[-> ->]|Hn]; [by right|].
          left. exists a', b'. split_and!; [done|lia|lia|]. lia. }
    intros [] s4 (vs' & -> & HG').
    pose proof (over_set _ _ _ _ _ _ _ _ _ vs' _ _ HO3) as HO4.
    destruct (over_own _ _ _ _ _ _ _ _ _ _ _ HO4) as (s5 & Ho5 & Hback5).
    eapply (own_try_drop q1 W _ [] L); [done|exact Ho5|]. intros s6 Ho6.
    eapply wp_step; [by apply aget_Z|].
    eapply wp_step; [apply ck32_ok; llia|].
    eapply wp_step; [apply aset_Z; cbn; lia|]. apply wp_ret. split; [done|].
    exists vs'. split; [by apply Hback5|]. eapply good_mono; [exact HG'|].
    intros c _ (a' & b' & -> & Hb' & Hab). exists a', b'. split_and!; [done|lia|lia|lia].
Qed.
End rows.

(** ** Denominators *)
Lemma of_double_ok t d e : of_double t d = Some e -> val_ok t e.
Proof.
  unfold of_double. destruct (is_float t) eqn:Ht.
  - intros [= <-]. split; [done|]. apply ProofFloat2.flt_conv_valid.
  - destruct (flt_trunc d) as [z|]; [|done]. unfold in_range. destruct (_ && _) eqn:Hr; [|done].
    intros [= <-]. split; [done|lia].
Qed.
Lemma den_lists t eps e vs ds : of_double t eps = Some e -> Forall (val_ok t) vs -> Forall2 (bn_den t eps) vs ds ->
  exists as_, Forall3 (fun x y w => bin_val t OpAdd x y = Some w) vs (replicate (length vs) e) as_ /\
    Forall (val_ok t) as_ /\ Forall (fun v => ~ negative v) as_ /\
    Forall2 (fun v w => sqrt_val t v = Some w) as_ ds.
Proof.
  intros He Hv H. induction H as [|v d vs ds Hd H IH].
  - exists []. split_and!; constructor.
  - apply Forall_cons in Hv as [Hv Hvs]. destruct (IH Hvs) as (as_ & H1 & H2 & H3 & H4).
    destruct Hd as (e' & a & x & He' & Ha & Hn & Hx & Hr). rewrite He in He'. injection He' as <-.
    exists (a :: as_). split_and!.
    + cbn. by constructor.
    + constructor; [|done]. eapply bin_val_ok; [exact Hv|exact (of_double_ok _ _ _ He)|exact Ha].
    + by constructor.
    + constructor; [|done]. unfold sqrt_val. by rewrite Hx.
Qed.
Lemma den_ok {E s0} (HA : alloc_all E) {A : Type} {Q : ctl A status -> st -> Prop}
    (k : hval -> hval -> M (ctl A status)) L s pv pe Vt Ep t dev pd eps e ds :
  own E s0 L s -> holds (heap s) pv Vt -> holds (heap s) pe Ep ->
  a_type Vt = t -> a_type Ep = t -> a_dev Vt = dev -> dev_type dev = 0 -> dev_type (a_dev Ep) = 0 ->
  a_dims Vt = pd -> a_dims Ep = pd -> prodZ pd <= INT_MAX ->
  a_vals Ep = replicate (Z.to_nat (prodZ pd)) e -> of_double t eps = Some e ->
  init Vt -> Forall2 (bn_den t eps) (a_vals Vt) ds ->
  (forall qt qd s' as_, own E s0 (IT qd (AT t dev pd ds) :: IT qt (AT t dev pd as_) :: L) s' ->
     wp (k (HPtr qt) (HPtr qd)) E s' Q) ->
  wp (try_ (aitisa_add (HPtr pv) (HPtr pe) HUndef) (fun temp =>
      try_ (aitisa_sqrt temp HUndef) (fun de => k temp de))) E s Q.
Proof.
  intros HO HV HP Tv Te Dv Cv Ce Iv Ie Hmax Hve He Hin Hden Hk.
  pose proof (valid_len_nat _ (holds_valid _ _ _ HV)) as Hl. rewrite Iv in Hl.
  destruct (den_lists t eps e (a_vals Vt) ds He) as (as_ & H1 & H2 & H3 & H4); [by rewrite <-Tv|done|].
  eapply own_try; [exact HO| |].
  { apply (binary_rule OpAdd pv pe Vt Ep as_); try done; try congruence.
    - by eapply own_wf.
    - by rewrite Tv, Hve, Hl. }
  intros qt s1 O1. rewrite Tv, Dv, Iv in O1.
  eapply own_try; [exact O1| |].
  { eapply (sqrt_vals qt (AT t dev pd as_) ds); try done.
    - by eapply own_wf.
    - eapply own_holds; [exact O1|left]. }
  intros qd s2 O2. cbn [a_type a_dev a_dims] in O2. by eapply Hk.
Qed.

(** ** The checks *)
Lemma bn_check_ok p pS pB pM pV T Sc Bi Me Va axis eps E s :
  holds (heap s) p T -> holds (heap s) pS Sc -> holds (heap s) pB Bi -> holds (heap s) pM Me ->
  holds (heap s) pV Va -> bn_ok T axis Sc Bi Me Va eps ->
  batch_norm_check (HPtr p) axis (HPtr pS) (HPtr pB) (HPtr pM) (HPtr pV) eps E s = Done SUCCESS s.
Proof.
  intros HT HS HB HM HV (Hr & Hax & TS & TB & TM & TV & (ch & Hch & DS & DB & DM & DV) & Heps).
  destruct HT as (_ & bx & tg & ex & Vt & _). destruct HS as (_ & bx1 & tg1 & ex1 & VS & _).
  destruct HB as (_ & bx2 & tg2 & ex2 & VB & _). destruct HM as (_ & bx3 & tg3 & ex3 & VM & _).
  destruct HV as (_ & bx4 & tg4 & ex4 & VV & _).
  rewrite TS, DS in VS. rewrite TB, DB in VB. rewrite TM, DM in VM. rewrite TV, DV in VV.
  unfold batch_norm_check.
  erewrite bind_done by by eapply tensor_dtype_ok.
  erewrite bind_done by by eapply tensor_ndim_ok.
  replace ((Z.of_nat (length (a_dims T)) <? 2) || (5 <? Z.of_nat (length (a_dims T)))) with false by lia.
  replace (negb (axis =? 1) && negb (axis =? Z.of_nat (length (a_dims T)) - 1)) with false by lia.
  erewrite bind_done by by eapply tensor_dtype_ok. rewrite Z.eqb_refl. cbn [negb].
  erewrite bind_done by by eapply tensor_dtype_ok. rewrite Z.eqb_refl. cbn [negb].
  erewrite bind_done by (eapply tensor_dim_ok; [exact Vt|lia|done]).
  erewrite bind_done by by eapply tensor_size_ok.
  erewrite bind_done by by eapply tensor_size_ok.
  assert (prodZ [ch] = ch) as -> by (rewrite prodZ_cons, prodZ_nil; lia).
  rewrite !Z.eqb_refl. cbn [negb orb].
  erewrite bind_done by by eapply tensor_ndim_ok.
  erewrite bind_done by by eapply tensor_ndim_ok.
  change (negb (Z.of_nat (length [ch]) =? 1)) with false. cbv match. cbn [orb].
  erewrite bind_done by by eapply tensor_dtype_ok. rewrite Z.eqb_refl. cbn [negb].
  erewrite bind_done by by eapply tensor_dtype_ok. rewrite Z.eqb_refl. cbn [negb].
  erewrite bind_done by by eapply tensor_size_ok.
  erewrite bind_done by by eapply tensor_size_ok.
  assert (prodZ [ch] = ch) as -> by (rewrite prodZ_cons, prodZ_nil; lia).
  rewrite !Z.eqb_refl. cbn [negb orb].
  erewrite bind_done by by eapply tensor_ndim_ok.
  erewrite bind_done by by eapply tensor_ndim_ok.
  change (negb (Z.of_nat (length [ch]) =? 1)) with false. cbv match. cbn [orb].
  by rewrite Heps.
Qed.

(** ** Two axes: the whole function *)
Lemma bn_2d p pS pB pM pV T Sc Bi Me Va T3 ds axis eps e nb ch o E s :
  wf s -> alloc_all E -> hooks_ok E ->
  holds (heap s) p T -> holds (heap s) pS Sc -> holds (heap s) pB Bi -> holds (heap s) pM Me ->
  holds (heap s) pV Va -> bn_ok T axis Sc Bi Me Va eps -> init Va ->
  dev_type (a_dev T) = 0 -> dev_type (a_dev Sc) = 0 -> dev_type (a_dev Bi) = 0 -> dev_type (a_dev Me) = 0 ->
  dev_type (a_dev Va) = 0 ->
  a_dims T = [nb; ch] -> 0 < ch <= INT_MAX -> nb <= INT_MAX ->
  of_double (a_type T) eps = Some e ->
  (forall b, 0 <= b < ch -> bn_den (a_type T) eps (at_ Va [b]) (ds b)) ->
  valid T3 -> a_type T3 = a_type T -> a_dev T3 = a_dev T -> a_dims T3 = a_dims T ->
  (forall a b, 0 <= a < nb -> 0 <= b < ch ->
     bn_out (a_type T) (ds b) (at_ Sc [b]) (at_ Bi [b]) (at_ Me [b]) (at_ T [a; b]) = Some (at_ T3 [a; b])) ->
  makes (aitisa_batch_norm (HPtr p) axis (HPtr pS) (HPtr pB) (HPtr pM) (HPtr pV) eps o) E s T3.
Proof.
  intros Hwf HA HE HT HS HB HM HV Hok Hin Ct CS CB CM CV Dt Hch Hnb He Hden HvT3 T3t T3v T3d Hf.
  pose proof (bn_check_ok p pS pB pM pV T Sc Bi Me Va axis eps E s HT HS HB HM HV Hok) as Hchk.
  destruct Hok as (Hr & Hax & TS & TB & TM & TV & (ch' & Hch' & DS & DB & DM & DV) & Heps).
  rewrite Dt in Hr, Hax, Hch'. cbn [length] in Hr, Hax.
  assert (axis = 1) as -> by lia. cbn in Hch'. injection Hch' as <-.
  set (t := a_type T) in *. set (dev := a_dev T) in *.
  apply (makes_or_nomem_alloc _ _ _ o); [done|]. apply Qmakes_elim. unfold aitisa_batch_norm.
  eapply wp_step; [exact Hchk|]. rewrite bool_decide_eq_true_2 by done. cbn [negb].
  destruct (create_like_ok p T o E s Hwf HA HT) as (s1 & q & pd & pm & ps & px & Hcr & HO1).
  eapply wp_step; [exact Hcr|]. cbv beta match. rewrite bool_decide_eq_true_2 by done. cbn [negb].
  assert (forall s' U pU vs L, over (E:=E) (s:=s) q pd pm ps px (a_type T) (a_dev T) (a_dims T) vs L s' ->
     holds (heap s) pU U -> holds (heap s') pU U) as Hbase by (intros; by eapply over_base).
  pose proof (Hbase _ _ _ _ _ HO1 HT) as (_ & bx & tg & ex & Vt & _).
  pose proof (Hbase _ _ _ _ _ HO1 HV) as HV1.
  pose proof HV1 as (_ & bxv & tgv & exv & Vv & _). rewrite TV, DV in Vv.
  eapply wp_step; [by eapply tensor_ndim_ok|]. rewrite Dt.
  change (Z.of_nat (length [nb; ch]) =? 2) with true. cbv match.
  destruct (over_own _ _ _ _ _ _ _ _ _ _ _ HO1) as (sb & Ho1 & Hback).
  assert (prodZ [ch] = ch) as Hpc by (rewrite prodZ_cons, prodZ_nil; lia).
  set (dl := (fun j => ds (Z.of_nat j)) <$> seq 0 (Z.to_nat ch)).
  set (De := AT t (a_dev Va) [ch] dl).
  (* denominator *)
  apply wp_bind. eapply wp_mono with (Q := fun r s' => exists qd, r = Next (HPtr qd) /\ own E sb [IT qd De] s').
  { unfold bn_denominator.
    eapply wp_step; [by eapply tensor_dtype_ok|].
    eapply wp_step; [by eapply tensor_device_ok|].
    eapply wp_step; [by eapply tensor_dims_ok|].
    eapply wp_step; [by eapply tensor_ndim_ok|].
    eapply own_try; [exact Ho1| |].
    { eapply (makes_or_nomem_alloc _ _ _ HUndef); [done|]. apply (full_rule t dev [ch] eps e); [by eapply own_wf| |lia|done].
      pose proof (valid_fits _ (holds_valid _ _ _ HV)) as Hfv. by rewrite TV, DV in Hfv. }
    intros pe s2 O2. rewrite Hpc in O2.
    eapply (den_ok HA _ _ s2 pV pe Va (AT t dev [ch] (replicate (Z.to_nat ch) e)) t (a_dev Va) [ch] eps e dl);
      try done; try congruence.
    - eapply over_base; [by eapply Hback|done].
    - eapply own_holds; [exact O2|left].
    - lia.
    - cbn [a_vals]. by rewrite Hpc.
    - apply Forall2_same_length_lookup_2.
      + pose proof (valid_len _ (holds_valid _ _ _ HV)) as Hl. rewrite DV, Hpc in Hl.
        unfold dl. rewrite fmap_length, seq_length. lia.
      + intros i x y Hx Hy. unfold dl in Hy. rewrite list_lookup_fmap in Hy.
        destruct (seq 0 (Z.to_nat ch) !! i) as [j|] eqn:Hj; [|done]. apply lookup_seq in Hj as [-> Hj].
        injection Hy as <-. cbn [Nat.add]. replace x with (at_ Va [Z.of_nat i]); [apply Hden; lia|].
        by rewrite (at_1 Va ch _ DV), Nat2Z.id, Hx.
    - intros qt qd s3 as_ O3.
      eapply (own_drop pe _ [_; _] []); [done|exact O3|]. intros s4 O4. cbn [app] in O4.
      eapply (own_drop qt _ [_] []); [done|exact O4|]. intros s5 O5. cbn [app] in O5.
      apply wp_ret. exists qd. done. }
  intros r s2 (qd & -> & O2). cbv match. pose proof (Hback _ _ O2) as HO2. rewrite Dt in HO2.
  fold t dev in HO2.
  (* rows *)
  apply wp_bind.
  apply wp_mono with (Q := fun r s' => r = SUCCESS /\ exists vs',
    over (E:=E) (s:=s) q pd pm ps px t dev [nb; ch] vs' [IT qd De] s' /\ vs' = a_vals T3).
  { unfold batch_norm_without_channel.
    pose proof (over_base _ _ _ _ _ _ _ _ _ _ _ p T HO2 HT) as (_ & bx2 & tg2 & ex2 & Vt2 & _).
    eapply wp_step; [by eapply tensor_dims_ok|]. rewrite Dt.
    eapply wp_step; [by apply aget_Z|].
    eapply own_scr; [done|llia|exact O2|]. intros b1 s3 O3.
    eapply own_scr; [done|llia|exact O3|]. intros b2 s4 O4.
    eapply own_scr; [done|llia|exact O4|]. intros b3 s5 O5. cbn [is_null orb].
    eapply wp_step; [by apply aget_Z|].
    eapply own_scr; [done|llia|exact O5|]. intros b4 s6 O6. cbn [is_null orb].
    pose proof (Hback _ _ O6) as HO6. rewrite Dt in HO6. fold t dev in HO6.
    pose proof (over_base _ _ _ _ _ _ _ _ _ _ _ p T HO6 HT) as (_ & bx6 & tg6 & ex6 & Vt6 & _).
    eapply wp_step; [by eapply tensor_dtype_ok|].
    eapply wp_step; [by eapply tensor_data_ok, over_view|].
    rewrite to_int_id by llia. cbn [d_size dtype_of].
    set (L6 := [IB b4; IB b3; IB b2; IB b1; IT qd De]) in *.
    apply wp_bind. eapply wp_mono.
    { apply (iter_ret_rule (fun k x s' => x = [Z.of_nat k; 0] /\ exists vs',
        over (E:=E) (s:=s) q pd pm ps px t dev [nb; ch] vs' L6 s' /\
        good [nb; ch] (at_ T3) (row_done ch (Z.of_nat k) 0) vs')).
      - split; [done|]. eexists. split; [exact HO6|]. split; [by rewrite replicate_length|].
        intros c Hc (a' & b' & -> & Hb' & Hab). apply in_box_cons in Hc as [Hc _]. lia.
      - intros k x s' Hk (-> & vs' & HO' & HG'). rewrite Z.add_0_l.
        eapply wp_mono.
        { eapply (row_ok HA HE p pS pB pM T Sc Bi Me t dev nb ch (at_ T3)) with (De := De);
            try done; try (do 4 apply elem_of_list_further; apply elem_of_list_here).
          - lia.
          - intros b Hb. rewrite <-(Hf (Z.of_nat k) b) by lia. f_equal.
            rewrite (at_1 De ch _ eq_refl). cbn [a_vals De]. unfold dl.
            rewrite list_lookup_fmap, lookup_seq_lt by lia. cbn. f_equal. lia. }
        intros r s'' (-> & vs'' & HO'' & HG''). exists [Z.of_nat k + 1; 0]. split; [done|].
        replace (Z.of_nat (S k)) with (Z.of_nat k + 1) by lia. split; [done|]. exists vs''. done. }
    intros r s7 (x & -> & -> & vs' & HO7 & HG). cbv match.
    destruct (over_own _ _ _ _ _ _ _ _ _ _ _ HO7) as (sb' & O7 & Hback').
    eapply (own_dealloc b1 [_; _; _] [_]); [done|exact O7|]. intros s8 O8. cbn [app] in O8.
    eapply (own_dealloc b2 [_; _] [_]); [done|exact O8|]. intros s9 O9. cbn [app] in O9.
    eapply (own_dealloc b3 [_] [_]); [done|exact O9|]. intros s10 O10. cbn [app] in O10.
    eapply (own_dealloc b4 [] [_]); [done|exact O10|]. intros s11 O11. cbn [app] in O11.
    apply wp_ret. split; [done|]. exists vs'. split; [by apply Hback'|].
    rewrite <-(tab_at T3 HvT3), T3d, Dt. eapply good_all; [|exact HG|].
    - pose proof (valid_fits _ (holds_valid _ _ _ HT)) as [Hn _]. by rewrite Dt in Hn.
    - intros c Hc. destruct c as [|a [|b [|? ?]]];
        [by inversion Hc|apply in_box_cons in Hc as [_ Hc]; by inversion Hc| |
         apply in_box_cons in Hc as [_ Hc]; apply in_box_cons in Hc as [_ Hc]; by inversion Hc].
      apply in_box_cons in Hc as [Ha Hc]. apply in_box_cons in Hc as [Hb _].
      exists a, b. split_and!; [done|lia|lia|lia]. }
  intros r s3 (-> & vs' & HO3 & ->).
  destruct (over_own _ _ _ _ _ _ _ _ _ _ _ HO3) as (sb' & O3 & Hback').
  eapply (own_drop qd De [] []); [done|exact O3|]. intros s4 O4. apply Hback' in O4.
  apply wp_ret. left. exists q. split; [done|].
  replace T3 with (AT t dev [nb; ch] (a_vals T3)) by (destruct T3; cbn in *; congruence).
  eapply over_final; [done| |done].
  replace (AT t dev [nb; ch] (a_vals T3)) with T3 by (destruct T3; cbn in *; congruence). done.
Qed.
