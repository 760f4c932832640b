(** * ProofBasic2: the properties of index utilities, broadcast, cast, full and
    reshape in the form in which they are stated in PropBasic *)
From stdpp Require Import gmap list.
From Coq Require Import ZArith Lia Floats.SpecFloat.
From Coq Require Import ZifyBool ZifyNat.
From Verif Require Import Base Mem Spec ModelCore ModelBasic Logic ProofCore ProofCore2 ProofKernel
  ProofBasic ProofIndex ProofLayout ProofBroadcast Fixture.
Open Scope Z_scope.

(** ** Linear indices *)
Section lin.
Context (E : env) (s : st) (p : nat) (dt : dtype) (dev : device) (dims order : list Z) (px sz : nat)
  (Hv : view (heap s) p dt dev dims order px) (Hsz : (0 < sz)%nat) (Hfit : fits sz dims).

Lemma linidx_roundtrip k buf : 0 <= k < prodZ dims -> length buf = length dims ->
  exists c, aitisa_linidx_to_coords (HPtr p) k buf E s = Done c s /\ in_box dims c /\
    aitisa_coords_to_linidx (HPtr p) c (Z.of_nat (length c)) E s = Done k s.
Proof using Hv Hsz Hfit.
  intros Hk Hl. pose proof (fits_dims_pos Hfit ltac:(lia)) as Hpos.
  exists (unravel dims k). split_and!.
  - by eapply linidx_to_coords_ok.
  - by apply unravel_in_box.
  - erewrite coords_to_linidx_ok; [|done|done|done|by apply unravel_in_box].
    by rewrite ravel_unravel.
Qed.

Lemma coords_roundtrip c buf : in_box dims c -> length buf = length dims ->
  exists k, aitisa_coords_to_linidx (HPtr p) c (Z.of_nat (length c)) E s = Done k s /\
    0 <= k < prodZ dims /\ k = ravel dims c /\
    aitisa_linidx_to_coords (HPtr p) k buf E s = Done c s.
Proof using Hv Hsz Hfit.
  intros Hc Hl. exists (ravel dims c). split_and!; try (by apply ravel_bound); [|done|].
  - by eapply coords_to_linidx_ok.
  - erewrite linidx_to_coords_ok; [|done|done|done|by apply ravel_bound|done].
    by rewrite unravel_ravel.
Qed.

Context (Hlay : layout (length dims) order).

Lemma offset_roundtrip k buf : 0 <= k < prodZ dims -> length buf = length dims ->
  exists c, aitisa_offset_to_coords (HPtr p) k buf E s = Done c s /\ in_box dims c /\
    aitisa_coords_to_offset (HPtr p) c (Z.of_nat (length c)) E s = Done k s.
Proof using Hv Hsz Hfit Hlay.
  intros Hk Hl. edestruct (@offset_to_coords_ok E s) as (c & H1 & H2 & H3); try done.
  exists c. split_and!; [done|done|].
  erewrite coords_to_offset_ok; try done. by rewrite H3.
Qed.

Lemma coords_offset_roundtrip c buf : in_box dims c -> length buf = length dims ->
  exists k, aitisa_coords_to_offset (HPtr p) c (Z.of_nat (length c)) E s = Done k s /\
    0 <= k < prodZ dims /\
    k = dotZ c ((fun d => stride_in dims order (Z.of_nat d)) <$> seq 0 (length dims)) /\
    aitisa_offset_to_coords (HPtr p) k buf E s = Done c s.
Proof using Hv Hsz Hfit Hlay.
  intros Hc Hl. pose proof (in_box_length _ _ Hc) as Hlc.
  eexists. split_and!; [by eapply coords_to_offset_ok| | | |].
  - by apply (offset_bound Hlay).
  - by apply (offset_bound Hlay).
  - by apply (offset_sum Hlay).
  - edestruct (@offset_to_coords_ok E s) with (k := ravel (rev (perm order dims)) (rev (perm order c)))
      (coords := buf) as (c' & H1 & H2 & H3); try done.
    { apply (offset_bound Hlay). exact Hc. }
    rewrite H1. f_equal. by eapply (offset_inj Hlay).
Qed.

Lemma all_strides buf : length buf = length dims ->
  aitisa_get_all_strides (HPtr p) buf E s
  = Done ((fun d => stride_in dims order (Z.of_nat d)) <$> seq 0 (length dims)) s.
Proof using Hv Hsz Hfit Hlay.
  intros Hl. eapply get_all_strides_ok; try done. by eapply fits_len.
Qed.

Lemma one_stride axis : 0 <= axis < Z.of_nat (length dims) ->
  aitisa_get_stride (HPtr p) axis E s = Done (stride_in dims order axis) s.
Proof using Hv Hsz Hfit Hlay. intros Ha. by eapply get_stride_ok. Qed.
End lin.

Lemma offset_is_linidx E s p T c : holds (heap s) p T -> in_box (a_dims T) c ->
  aitisa_coords_to_offset (HPtr p) c (Z.of_nat (length c)) E s
  = aitisa_coords_to_linidx (HPtr p) c (Z.of_nat (length c)) E s.
Proof.
  intros ([Hfit _] & px & tg & ex & Hv & _) Hc. pose proof (tsz_range (a_type T)).
  erewrite coords_to_offset_ok; [|done| |done|apply rowmajor_layout|done]; [|lia].
  erewrite coords_to_linidx_ok; [|done| |done|done]; [|lia].
  rewrite offset_rowmajor; [done|]. by apply in_box_length.
Qed.

Lemma conversions_abort E s p dt dev dims order px c k buf :
  view (heap s) p dt dev dims order px ->
  (~ in_box dims c ->
   aitisa_coords_to_linidx (HPtr p) c (Z.of_nat (length c)) E s = Abort /\
   aitisa_coords_to_offset (HPtr p) c (Z.of_nat (length c)) E s = Abort) /\
  (~ (0 <= k < prodZ dims) ->
   aitisa_linidx_to_coords (HPtr p) k buf E s = Abort /\
   aitisa_offset_to_coords (HPtr p) k buf E s = Abort).
Proof.
  intros Hv. split; intros H; split.
  - by eapply coords_to_linidx_abort.
  - by eapply coords_to_offset_abort.
  - by eapply linidx_to_coords_abort.
  - by eapply offset_to_coords_abort.
Qed.

(** ** Broadcast *)
Lemma craw_None_iff l k : craw l k = None <-> bcast_rev l k = None.
Proof.
  revert k. induction l as [|a l IH]; intros [|b k]; try done.
  cbn [craw bcast_rev]. unfold bok, bdim.
  destruct (Z.eqb_spec a b) as [->|Hab]; [|destruct (Z.eqb_spec a 1) as [->|];
    [|destruct (Z.eqb_spec b 1) as [->|]]]; cbn; rewrite ?orb_true_r;
    try (rewrite fmap_None, IH; by destruct (bcast_rev l k)); done.
Qed.

Lemma broadcast_status E s d1 d2 out :
  length out = Nat.max (length d1) (length d2) ->
  exists x out', aitisa_broadcast_array d1 (Z.of_nat (length d1)) d2 (Z.of_nat (length d2)) out
      (Z.of_nat (length out)) E s = Done (x, out') s /\
    (x = SUCCESS <-> bcast d1 d2 <> None) /\
    (x = DIMENSIONS_MISMATCH <-> bcast d1 d2 = None).
Proof.
  intros Hl. destruct (broadcast_craw d1 d2 out E s Hl) as [out' ->].
  pose proof (craw_None_iff (rev d1) (rev d2)) as Hn. unfold bcast.
  destruct (craw (rev d1) (rev d2)) as [r|], (bcast_rev (rev d1) (rev d2)) as [r'|];
    try naive_solver.
Qed.

Lemma broadcast_shape E s d1 d2 out r :
  Forall (fun d => 0 < d) d1 -> Forall (fun d => 0 < d) d2 ->
  length out = Nat.max (length d1) (length d2) -> bcast d1 d2 = Some r ->
  aitisa_broadcast_array d1 (Z.of_nat (length d1)) d2 (Z.of_nat (length d2)) out
      (Z.of_nat (length out)) E s = Done (SUCCESS, Some <$> r) s.
Proof.
  intros H1 H2 Hl Hr. destruct (broadcast_craw d1 d2 out E s Hl) as [out' ->].
  rewrite craw_bcast by (by apply Forall_rev). unfold bcast in Hr.
  destruct (bcast_rev (rev d1) (rev d2)); by simplify_eq.
Qed.

Lemma craw_max l k r : craw l k = Some r ->
  length r = Nat.max (length l) (length k) /\
  (forall j a b, l !! j = Some a -> k !! j = Some b -> r !! j = Some (Z.max a b)) /\
  (forall j a, l !! j = Some a -> k !! j = None -> r !! j = Some a) /\
  (forall j b, l !! j = None -> k !! j = Some b -> r !! j = Some b).
Proof.
  intros Hr. split; [by apply craw_length|].
  revert k r Hr. induction l as [|a l IH]; intros [|b k] r; cbn.
  - intros [= <-]. split_and!; naive_solver.
  - intros [= <-]. split_and!; naive_solver.
  - intros [= <-]. split_and!; naive_solver.
  - destruct (bok a b); [|done]. intros (r' & Hr' & ->)%fmap_Some.
    apply IH in Hr' as (H1 & H2 & H3). split_and!; intros [|j]; cbn; try done; try (intros; simplify_eq; done); eauto.
    intros ?? [= <-] [= <-]. unfold zmax. f_equal. destruct (Z.ltb_spec b a); lia.
Qed.

(** The result entry by entry, counted from the last axis. *)
Lemma broadcast_max E s d1 d2 out :
  length out = Nat.max (length d1) (length d2) -> bcast d1 d2 <> None ->
  exists r, aitisa_broadcast_array d1 (Z.of_nat (length d1)) d2 (Z.of_nat (length d2)) out
      (Z.of_nat (length out)) E s = Done (SUCCESS, Some <$> rev r) s /\
    length r = Nat.max (length d1) (length d2) /\
    (forall j a b, rev d1 !! j = Some a -> rev d2 !! j = Some b -> r !! j = Some (Z.max a b)) /\
    (forall j a, rev d1 !! j = Some a -> rev d2 !! j = None -> r !! j = Some a) /\
    (forall j b, rev d1 !! j = None -> rev d2 !! j = Some b -> r !! j = Some b).
Proof.
  intros Hl Hb. destruct (broadcast_craw d1 d2 out E s Hl) as [out' ->].
  pose proof (craw_None_iff (rev d1) (rev d2)) as Hn. unfold bcast in Hb.
  destruct (craw (rev d1) (rev d2)) as [r|] eqn:Hr.
  - exists r. apply craw_max in Hr. rewrite !rev_length in Hr. done.
  - destruct Hn as [Hn _]. rewrite Hn in Hb by done. done.
Qed.

Lemma broadcast_zero_wrong :
  exists d1 d2 r, bcast d1 d2 = Some r /\ prodZ r = 0 /\
    aitisa_broadcast_array d1 (Z.of_nat (length d1)) d2 (Z.of_nat (length d2)) [None; None] 2 E0 s_empty
    = Done (SUCCESS, [Some 3; Some 1]) s_empty.
Proof. exists [3; 0], [1], [3; 0]. split_and!; reflexivity. Qed.

(** ** Cast *)
Lemma cast_makes E s p T t2 o ws :
  wf s -> holds (heap s) p T -> t2 <> a_type T -> fits (tsz t2) (a_dims T) ->
  Forall2 (fun v w => cast_val (a_type T) t2 v = Some w) (a_vals T) ws ->
  makes_or_nomem (aitisa_cast (HPtr p) (dtype_of t2) o) E s o (AT t2 (a_dev T) (a_dims T) ws).
Proof. intros. eapply cast_rule; done. Qed.

(** Casting to the tensor's own type reports success without making a tensor. *)
Lemma cast_same_no_tensor : exists E s p T o,
  wf s /\ holds (heap s) p T /\
  aitisa_cast (HPtr p) (dtype_of (a_type T)) o E s = Done (SUCCESS, o) s /\ o = HUndef.
Proof.
  exists E0, (fx [T_i32]), 0%nat, T_i32, HUndef. split_and!; [apply fx_wf| | |done].
  - exact (fx_holds [T_i32] 0 T_i32 eq_refl T_i32_valid).
  - apply cast_same. exact (fx_holds [T_i32] 0 T_i32 eq_refl T_i32_valid).
Qed.

(** ** Reshape *)
Lemma reshape_back E s p T dims o :
  wf s -> holds (heap s) p T -> fits (tsz (a_type T)) dims ->
  prodZ dims = prodZ (a_dims T) -> alloc_all E ->
  exists s1 q s2 r,
    aitisa_reshape (HPtr p) dims (Z.of_nat (length dims)) o E s = Done (SUCCESS, HPtr q) s1 /\
    aitisa_reshape (HPtr q) (a_dims T) (Z.of_nat (length (a_dims T))) HNull E s1
      = Done (SUCCESS, HPtr r) s2 /\
    holds (heap s2) r T /\ holds (heap s2) p T.
Proof.
  intros Hwf Hh Hf Hp Ha.
  pose proof (reshape_rule p T dims o E s Hwf Hh Hf Hp) as H1.
  apply makes_or_nomem_alloc in H1 as (s1 & q & Hr1 & Hc1); [|done].
  pose proof (created_holds _ _ _ _ _ _ Hc1) as Hh1.
  pose proof (created_wf _ _ _ _ _ _ Hwf Hc1) as Hwf1.
  pose proof (reshape_rule q _ (a_dims T) HNull E s1 Hwf1 Hh1
    (valid_fits _ (holds_valid _ _ _ Hh)) ltac:(done)) as H2.
  apply makes_or_nomem_alloc in H2 as (s2 & r & Hr2 & Hc2); [|done].
  exists s1, q, s2, r. split_and!; [done|done| |].
  - apply created_holds in Hc2. by destruct T.
  - eapply holds_mono; [|done]. etrans; by eapply created_sub.
Qed.
