(** * PropBasic: properties of index utilities, broadcast, cast, full and reshape
    (C10-C17, C19) *)
From stdpp Require Import gmap list.
From Coq Require Import ZArith Lia Floats.SpecFloat.
From Verif Require Import Base Mem Spec ModelCore ModelBasic Logic ProofCore ProofCore2 ProofBasic
  ProofIndex ProofLayout ProofBroadcast ProofBasic2 Fixture.
Open Scope Z_scope.

(** ** C10: linear index and coordinates are inverse bijections *)
Theorem C10_index_to_coords_and_back :
  forall E s p dt dev dims order px sz,
  view (heap s) p dt dev dims order px -> (0 < sz)%nat -> fits sz dims ->
  forall k buf, 0 <= k < prodZ dims -> length buf = length dims ->
  exists c, aitisa_linidx_to_coords (HPtr p) k buf E s = Done c s /\ in_box dims c /\
    aitisa_coords_to_linidx (HPtr p) c (Z.of_nat (length c)) E s = Done k s.
Proof. exact linidx_roundtrip. Qed.
Print Assumptions C10_index_to_coords_and_back.

Theorem C10_coords_to_index_and_back :
  forall E s p dt dev dims order px sz,
  view (heap s) p dt dev dims order px -> (0 < sz)%nat -> fits sz dims ->
  forall c buf, in_box dims c -> length buf = length dims ->
  exists k, aitisa_coords_to_linidx (HPtr p) c (Z.of_nat (length c)) E s = Done k s /\
    0 <= k < prodZ dims /\ k = ravel dims c /\
    aitisa_linidx_to_coords (HPtr p) k buf E s = Done c s.
Proof. exact coords_roundtrip. Qed.
Print Assumptions C10_coords_to_index_and_back.

Example C10_ex : exists px,
  view (heap (fx [T_i32])) 0 (dtype_of I32) cpu [2; 3] (rowmajor 2) px /\
  fits (tsz I32) [2; 3] /\ in_box [2; 3] [1; 2] /\ 0 <= 5 < prodZ [2; 3].
Proof.
  destruct (fx_holds [T_i32] 0 T_i32 eq_refl T_i32_valid) as (_ & px & tg & ex & Hv & _).
  exists px. split_and!; [exact Hv|lit_fits|repeat constructor; lia|lia|reflexivity].
Qed.
Example C10_run :
  (exists r s', aitisa_linidx_to_coords (HPtr 0) 5 [9; 9] E0 (fx [T_i32]) = Done r s' /\ r = [1; 2]) /\
  (exists r s', aitisa_coords_to_linidx (HPtr 0) [1; 0] 2 E0 (fx [T_i32]) = Done r s' /\ r = 3).
Proof. split; apply run_ex; vm_compute; reflexivity. Qed.

(** ** C11: offsets, strides and coordinates agree for every layout *)
Theorem C11_offset_to_coords_and_back :
  forall E s p dt dev dims order px sz,
  view (heap s) p dt dev dims order px -> (0 < sz)%nat -> fits sz dims ->
  layout (length dims) order ->
  forall k buf, 0 <= k < prodZ dims -> length buf = length dims ->
  exists c, aitisa_offset_to_coords (HPtr p) k buf E s = Done c s /\ in_box dims c /\
    aitisa_coords_to_offset (HPtr p) c (Z.of_nat (length c)) E s = Done k s.
Proof. exact offset_roundtrip. Qed.
Print Assumptions C11_offset_to_coords_and_back.

Theorem C11_coords_to_offset_and_back :
  forall E s p dt dev dims order px sz,
  view (heap s) p dt dev dims order px -> (0 < sz)%nat -> fits sz dims ->
  layout (length dims) order ->
  forall c buf, in_box dims c -> length buf = length dims ->
  exists k, aitisa_coords_to_offset (HPtr p) c (Z.of_nat (length c)) E s = Done k s /\
    0 <= k < prodZ dims /\
    k = dotZ c ((fun d => stride_in dims order (Z.of_nat d)) <$> seq 0 (length dims)) /\
    aitisa_offset_to_coords (HPtr p) k buf E s = Done c s.
Proof. exact coords_offset_roundtrip. Qed.
Print Assumptions C11_coords_to_offset_and_back.

Theorem C11_all_strides :
  forall E s p dt dev dims order px sz,
  view (heap s) p dt dev dims order px -> (0 < sz)%nat -> fits sz dims ->
  layout (length dims) order ->
  forall buf, length buf = length dims ->
  aitisa_get_all_strides (HPtr p) buf E s
  = Done ((fun d => stride_in dims order (Z.of_nat d)) <$> seq 0 (length dims)) s.
Proof. exact all_strides. Qed.
Print Assumptions C11_all_strides.

Theorem C11_one_stride :
  forall E s p dt dev dims order px sz,
  view (heap s) p dt dev dims order px -> (0 < sz)%nat -> fits sz dims ->
  layout (length dims) order ->
  forall axis, 0 <= axis < Z.of_nat (length dims) ->
  aitisa_get_stride (HPtr p) axis E s = Done (stride_in dims order axis) s.
Proof. exact one_stride. Qed.
Print Assumptions C11_one_stride.

Theorem C11_offset_is_linear_index : forall E s p T c,
  holds (heap s) p T -> in_box (a_dims T) c ->
  aitisa_coords_to_offset (HPtr p) c (Z.of_nat (length c)) E s
  = aitisa_coords_to_linidx (HPtr p) c (Z.of_nat (length c)) E s.
Proof. exact offset_is_linidx. Qed.
Print Assumptions C11_offset_is_linear_index.

(** A column-major and a mixed layout. *)
Definition C11_state : st :=
  St (<[0%nat := Blk 0 (CTensor (TI 24 0 3 (HPtr 1) 0 (HPtr 2) (HPtr 3)))]>
      (<[1%nat := Blk 0 (CInts [2; 3; 4])]>
       (<[2%nat := Blk 0 (CInts [1; 0; 2])]>
        (<[3%nat := Blk 0 (CStorage (SI (dtype_of U8) cpu 24 (HPtr 4)))]> ∅)))) 5 0.
Example C11_ex :
  view (heap C11_state) 0 (dtype_of U8) cpu [2; 3; 4] [1; 0; 2] 4 /\
  fits (tsz U8) [2; 3; 4] /\ layout 3 [1; 0; 2] /\ in_box [2; 3; 4] [1; 2; 3].
Proof.
  split_and!.
  - exists 0%nat, 0%nat, (HPtr 1), (HPtr 2), 3%nat.
    split_and!; [reflexivity|exists 1%nat, 0%nat; by split|exists 2%nat, 0%nat; by split|reflexivity].
  - lit_fits.
  - apply perm_swap.
  - repeat constructor; lia.
Qed.
Example C11_run :
  (exists r s', aitisa_coords_to_offset (HPtr 0) [1; 2; 3] 3 E0 C11_state = Done r s' /\ r = 23) /\
  (exists r s', aitisa_coords_to_offset (HPtr 0) [1; 0; 1] 3 E0 C11_state = Done r s' /\ r = 9) /\
  (exists r s', aitisa_get_all_strides (HPtr 0) [0; 0; 0] E0 C11_state = Done r s' /\ r = [3; 1; 6]) /\
  (exists r s', aitisa_offset_to_coords (HPtr 0) 9 [0; 0; 0] E0 C11_state = Done r s' /\ r = [1; 0; 1]).
Proof. split_and!; apply run_ex; vm_compute; reflexivity. Qed.

(** ** C12: out-of-range arguments abort (assertions enabled); the in-range case
    is C10 and C11 *)
Theorem C12_out_of_range_aborts : forall E s p dt dev dims order px c k buf,
  view (heap s) p dt dev dims order px ->
  (~ in_box dims c ->
   aitisa_coords_to_linidx (HPtr p) c (Z.of_nat (length c)) E s = Abort /\
   aitisa_coords_to_offset (HPtr p) c (Z.of_nat (length c)) E s = Abort) /\
  (~ (0 <= k < prodZ dims) ->
   aitisa_linidx_to_coords (HPtr p) k buf E s = Abort /\
   aitisa_offset_to_coords (HPtr p) k buf E s = Abort).
Proof. exact conversions_abort. Qed.
Print Assumptions C12_out_of_range_aborts.

Example C12_ex : ~ in_box [2; 3] [1; 3] /\ ~ in_box [2; 3] [1] /\ ~ (0 <= 6 < prodZ [2; 3]).
Proof.
  split_and!.
  - intros H. inversion_clear H as [|???? _ H']. inversion_clear H' as [|???? H _]. lia.
  - intros H. inversion_clear H as [|???? _ H']. inversion H'.
  - vm_compute. intros [_ H]. done.
Qed.
Example C12_run :
  aitisa_coords_to_linidx (HPtr 0) [1; 3] 2 E0 (fx [T_i32]) = Abort /\
  aitisa_linidx_to_coords (HPtr 0) 6 [9; 9] E0 (fx [T_i32]) = Abort.
Proof. split; vm_compute; reflexivity. Qed.

(** ** C13: broadcasting *)
Theorem C13_success_iff : forall E s d1 d2 out,
  length out = Nat.max (length d1) (length d2) ->
  exists x out', aitisa_broadcast_array d1 (Z.of_nat (length d1)) d2 (Z.of_nat (length d2)) out
      (Z.of_nat (length out)) E s = Done (x, out') s /\
    (x = SUCCESS <-> bcast d1 d2 <> None) /\
    (x = DIMENSIONS_MISMATCH <-> bcast d1 d2 = None).
Proof. exact broadcast_status. Qed.
Print Assumptions C13_success_iff.

Theorem C13_pairwise_maximum : forall E s d1 d2 out,
  length out = Nat.max (length d1) (length d2) -> bcast d1 d2 <> None ->
  exists r, aitisa_broadcast_array d1 (Z.of_nat (length d1)) d2 (Z.of_nat (length d2)) out
      (Z.of_nat (length out)) E s = Done (SUCCESS, Some <$> rev r) s /\
    length r = Nat.max (length d1) (length d2) /\
    (forall j a b, rev d1 !! j = Some a -> rev d2 !! j = Some b -> r !! j = Some (Z.max a b)) /\
    (forall j a, rev d1 !! j = Some a -> rev d2 !! j = None -> r !! j = Some a) /\
    (forall j b, rev d1 !! j = None -> rev d2 !! j = Some b -> r !! j = Some b).
Proof. exact broadcast_max. Qed.
Print Assumptions C13_pairwise_maximum.

Theorem C13_joint_shape : forall E s d1 d2 out r,
  Forall (fun d => 0 < d) d1 -> Forall (fun d => 0 < d) d2 ->
  length out = Nat.max (length d1) (length d2) -> bcast d1 d2 = Some r ->
  aitisa_broadcast_array d1 (Z.of_nat (length d1)) d2 (Z.of_nat (length d2)) out
      (Z.of_nat (length out)) E s = Done (SUCCESS, Some <$> r) s.
Proof. exact broadcast_shape. Qed.
Print Assumptions C13_joint_shape.

Theorem C13_symmetric : forall l k, bcast l k = bcast k l.
Proof. exact bcast_comm. Qed.
Print Assumptions C13_symmetric.

Theorem C13_associative : forall l k m,
  (bcast l k ≫= fun x => bcast x m) = (bcast k m ≫= fun x => bcast l x).
Proof. exact bcast_assoc. Qed.
Print Assumptions C13_associative.

Example C13_ex :
  bcast [4; 1; 3] [2; 1] = Some [4; 2; 3] /\ bcast [4; 2; 3] [2; 2] = None /\
  Forall (fun d => 0 < d) [4; 1; 3].
Proof. split_and!; [reflexivity|reflexivity|repeat constructor]. Qed.
Example C13_run : exists r s',
  aitisa_broadcast_array [4; 1; 3] 3 [2; 1] 2 [None; None; None] 3 E0 s_empty = Done r s' /\
  r = (SUCCESS, [Some 4; Some 2; Some 3]).
Proof. apply run_ex. vm_compute. reflexivity. Qed.

(** ** C14: a 0 extent against 1 should give 0, but gives 1 *)
Theorem C14_zero_extent_refuted :
  exists d1 d2 r, bcast d1 d2 = Some r /\ prodZ r = 0 /\
    aitisa_broadcast_array d1 (Z.of_nat (length d1)) d2 (Z.of_nat (length d2)) [None; None] 2 E0 s_empty
    = Done (SUCCESS, [Some 3; Some 1]) s_empty.
Proof. exact broadcast_zero_wrong. Qed.
Print Assumptions C14_zero_extent_refuted.

(** ** C15: full *)
Theorem C15_full : forall t dev dims d v o E s,
  wf s -> fits (tsz t) dims -> prodZ dims <= INT_MAX -> of_double t d = Some v ->
  makes_or_nomem (aitisa_full (dtype_of t) dev dims (Z.of_nat (length dims)) d o) E s o
    (AT t dev dims (replicate (Z.to_nat (prodZ dims)) v)).
Proof. exact full_rule. Qed.
Print Assumptions C15_full.

Theorem C15_undefined_value : forall t dev dims d o E s,
  wf s -> fits (tsz t) dims -> alloc_all E -> of_double t d = None ->
  aitisa_full (dtype_of t) dev dims (Z.of_nat (length dims)) d o E s = UB UB_fconv.
Proof. exact full_unfit. Qed.
Print Assumptions C15_undefined_value.

Theorem C15_undefined_count : forall t dev dims d v o E s,
  wf s -> fits (tsz t) dims -> alloc_all E -> of_double t d = Some v ->
  INT_MAX < prodZ dims ->
  aitisa_full (dtype_of t) dev dims (Z.of_nat (length dims)) d o E s = UB UB_overflow.
Proof. exact full_too_big. Qed.
Print Assumptions C15_undefined_count.

(** 3.75 as a double, truncated to 3; 300 does not fit an int8. *)
Example C15_ex :
  wf (fx [T_i32]) /\ fits (tsz I32) [2; 2] /\ prodZ [2; 2] <= INT_MAX /\
  of_double I32 (S754_finite false 15 (-2)) = Some (VI 3) /\
  of_double I8 (S754_finite false 300 0) = None.
Proof. split_and!; [apply fx_wf|lit_fits|vm_compute; discriminate|reflexivity|reflexivity]. Qed.
Example C15_count_ex : fits (tsz U8) [65536; 65536] /\ INT_MAX < prodZ [65536; 65536].
Proof. split; [lit_fits|vm_compute; reflexivity]. Qed.

(** ** C16: cast *)
Theorem C16_cast : forall E s p T t2 o ws,
  wf s -> holds (heap s) p T -> t2 <> a_type T -> fits (tsz t2) (a_dims T) ->
  Forall2 (fun v w => cast_val (a_type T) t2 v = Some w) (a_vals T) ws ->
  makes_or_nomem (aitisa_cast (HPtr p) (dtype_of t2) o) E s o (AT t2 (a_dev T) (a_dims T) ws).
Proof. exact cast_makes. Qed.
Print Assumptions C16_cast.

Example C16_ex :
  holds (heap (fx [T_i32])) 0 T_i32 /\ U8 <> a_type T_i32 /\ fits (tsz U8) (a_dims T_i32) /\
  Forall2 (fun v w => cast_val (a_type T_i32) U8 v = Some w) (a_vals T_i32)
    (VI <$> [5; 249; 0; 12; 3; 255]).
Proof.
  split_and!; [exact (fx_holds [T_i32] 0 T_i32 eq_refl T_i32_valid)|done|lit_fits|].
  repeat constructor.
Qed.

(** ** C17: a successful cast does not always produce a tensor *)
Theorem C17_cast_to_own_type_refuted : exists E s p T o,
  wf s /\ holds (heap s) p T /\
  aitisa_cast (HPtr p) (dtype_of (a_type T)) o E s = Done (SUCCESS, o) s /\ o = HUndef.
Proof. exact cast_same_no_tensor. Qed.
Print Assumptions C17_cast_to_own_type_refuted.

(** It is so for every tensor. *)
Theorem C17_cast_to_own_type_never_refuted : forall p T o E s,
  holds (heap s) p T ->
  aitisa_cast (HPtr p) (dtype_of (a_type T)) o E s = Done (SUCCESS, o) s.
Proof. exact cast_same. Qed.
Print Assumptions C17_cast_to_own_type_never_refuted.

(** ** C19: reshape *)
Theorem C19_reshape : forall p T dims o E s,
  wf s -> holds (heap s) p T -> fits (tsz (a_type T)) dims ->
  prodZ dims = prodZ (a_dims T) ->
  makes_or_nomem (aitisa_reshape (HPtr p) dims (Z.of_nat (length dims)) o) E s o
    (AT (a_type T) (a_dev T) dims (a_vals T)).
Proof. exact reshape_rule. Qed.
Print Assumptions C19_reshape.

Theorem C19_mismatch : forall p T dims o E s,
  holds (heap s) p T -> prefixes_fit dims -> Z.of_nat (length dims) <= INT_MAX ->
  prodZ dims <> prodZ (a_dims T) ->
  refuses (aitisa_reshape (HPtr p) dims (Z.of_nat (length dims)) o) E s o DIMENSIONS_MISMATCH.
Proof. exact reshape_mismatch. Qed.
Print Assumptions C19_mismatch.

Theorem C19_back : forall E s p T dims o,
  wf s -> holds (heap s) p T -> fits (tsz (a_type T)) dims ->
  prodZ dims = prodZ (a_dims T) -> alloc_all E ->
  exists s1 q s2 r,
    aitisa_reshape (HPtr p) dims (Z.of_nat (length dims)) o E s = Done (SUCCESS, HPtr q) s1 /\
    aitisa_reshape (HPtr q) (a_dims T) (Z.of_nat (length (a_dims T))) HNull E s1
      = Done (SUCCESS, HPtr r) s2 /\
    holds (heap s2) r T /\ holds (heap s2) p T.
Proof. exact reshape_back. Qed.
Print Assumptions C19_back.

Example C19_ex :
  wf (fx [T_i32]) /\ holds (heap (fx [T_i32])) 0 T_i32 /\ fits (tsz I32) [3; 1; 2] /\
  prodZ [3; 1; 2] = prodZ (a_dims T_i32) /\
  prefixes_fit [-4; 2] /\ prodZ [-4; 2] <> prodZ (a_dims T_i32).
Proof.
  split_and!; [apply fx_wf|exact (fx_holds [T_i32] 0 T_i32 eq_refl T_i32_valid)|lit_fits|reflexivity| |done].
  intros [|[|k]]; cbn [take]; [| |rewrite take_nil]; split; vm_compute; discriminate.
Qed.
