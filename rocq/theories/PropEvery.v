(** * PropEvery: for every input, what broadcasting, squeeze, pooling and convolution do where they go wrong
    (C14, C21, C42, C45) *)
From stdpp Require Import gmap list.
From Coq Require Import ZArith Lia.
From Verif Require Import Base Mem Spec SpecReal SpecNN SpecSqueeze ModelCore ModelBasic ModelMath ModelNN Logic
  ProofCore ProofCore2 ProofSqueeze ProofSqueeze2 ProofEvery Fixture.
Open Scope Z_scope.

(** ** C14: the joint shape is computed exactly unless an extent below 1 meets a 1 *)
Theorem C14_exact : forall E s d1 d2 out r,
  length out = Nat.max (length d1) (length d2) -> bcast d1 d2 = Some r ->
  (aitisa_broadcast_array d1 (Z.of_nat (length d1)) d2 (Z.of_nat (length d2)) out (Z.of_nat (length out)) E s
   = Done (SUCCESS, Some <$> r) s
   <-> forall j a b, rev d1 !! j = Some a -> rev d2 !! j = Some b ->
     ~ (a < 1 /\ b = 1) /\ ~ (a = 1 /\ b < 1)).
Proof. exact broadcast_exact. Qed.
Print Assumptions C14_exact.
Example C14_exact_ex : bcast [2; 0] [2; 1] = Some [2; 0] /\
  rev [2; 0] !! 0%nat = Some 0 /\ rev [2; 1] !! 0%nat = Some 1 /\
  bcast [2; 0] [2; 0] = Some [2; 0] /\
  exists r s', aitisa_broadcast_array [2; 0] 2 [2; 0] 2 [None; None] 2 E0 s_empty = Done r s' /\
    r = (SUCCESS, [Some 2; Some 0]).
Proof. split_and!; try reflexivity. apply run_ex. vm_compute. reflexivity. Qed.

(** ** C21: every list of axes.  A negative axis is C21_negative_axis. *)
Definition axes (T : atensor) (axis : list Z) (ax : list nat) : Prop :=
  if decide (axis = []) then ax = seq 0 (length (a_dims T)) else axis = Z.of_nat <$> ax.
(** Room for this many extents is reserved. *)
Definition room (T : atensor) (ax : list nat) : Z :=
  Z.of_nat (length (a_dims T)) - Z.of_nat (unit_hits (a_dims T) ax).

Theorem C21_large_axis : forall p T axis ax o E s,
  alloc_all E -> holds (heap s) p T -> axes T axis ax ->
  Exists (fun a => (length (a_dims T) <= a)%nat) ax ->
  aitisa_squeeze (HPtr p) axis (Z.of_nat (length axis)) o E s = UB UB_oob.
Proof. exact squeeze_too_large. Qed.
Print Assumptions C21_large_axis.

(** All axes in range: the five cases are exclusive and leave none out. *)
Theorem C21_every : forall p T axis ax o E s,
  wf s -> alloc_all E -> hooks_ok E -> holds (heap s) p T -> axes T axis ax ->
  Forall (fun a => (a < length (a_dims T))%nat) ax ->
  let call := aitisa_squeeze (HPtr p) axis (Z.of_nat (length axis)) o in
  let left := Z.of_nat (length (squeeze_rest (a_dims T) ax)) in
  (room T ax < 0 -> 8 * Z.of_nat (length axis) <= PTRDIFF_MAX ->
     exists s', call E s = Done (ALLOC_FAILED, o) s' /\
       heap s' = <[ctr s := Blk (e_alloc E) (CRaw (8 * Z.of_nat (length (a_dims T))))]> (heap s)) /\
  (0 <= room T ax < left -> call E s = UB UB_oob) /\
  (0 <= room T ax -> left < room T ax -> call E s = UB UB_uninit) /\
  (room T ax = left -> 0 ∈ a_dims T ->
     exists s', call E s = Done (DIMENSIONS_MISMATCH, o) s' /\ heap s' = heap s) /\
  (room T ax = left -> 0 ∉ a_dims T ->
     makes call E s
       (AT (a_type T) (a_dev T) (squeeze_dims (fun i => bool_decide (i ∈ ax)) (a_dims T)) (a_vals T))).
Proof.
  exact (fun p T axis ax o E s Hw HA HE HT Hax Hin =>
    conj (squeeze_no_room p T axis ax o E s HA HT Hax Hin)
   (conj (fun H => squeeze_overflow p T axis ax o E s HA HT Hax Hin (proj1 H) (proj2 H))
   (conj (squeeze_underflow p T axis ax o E s HA HT Hax Hin)
   (conj (fun He => squeeze_mismatch p T axis ax o E s Hw HA HE HT Hax Hin (squeeze_room_nonneg _ _ _ He) He)
         (fun He => squeeze_makes p T axis ax o E s Hw HA HE HT Hax Hin (squeeze_room_nonneg _ _ _ He) He))))).
Qed.
Print Assumptions C21_every.

(** Distinct axes: defined exactly if no extent is zero. *)
Theorem C21_zero_extent : forall p T axis ax o E s,
  alloc_all E -> holds (heap s) p T -> axes T axis ax -> NoDup ax ->
  Forall (fun a => (a < length (a_dims T))%nat) ax -> 0 ∈ a_dims T ->
  aitisa_squeeze (HPtr p) axis (Z.of_nat (length axis)) o E s = UB UB_uninit.
Proof. exact squeeze_zero_always. Qed.
Print Assumptions C21_zero_extent.
(** A unit extent named twice, no extent zero: never a result. *)
Theorem C21_repeated_axis : forall p T axis ax o E s,
  alloc_all E -> holds (heap s) p T -> axes T axis ax ->
  Forall (fun a => (a < length (a_dims T))%nat) ax -> 0 ∉ a_dims T ->
  (exists i j a, i <> j /\ ax !! i = Some a /\ ax !! j = Some a /\ a_dims T !! a = Some 1) ->
  8 * Z.of_nat (length axis) <= PTRDIFF_MAX ->
  aitisa_squeeze (HPtr p) axis (Z.of_nat (length axis)) o E s = UB UB_oob \/
  (room T ax < 0 /\ exists s', aitisa_squeeze (HPtr p) axis (Z.of_nat (length axis)) o E s = Done (ALLOC_FAILED, o) s' /\
     heap s' = <[ctr s := Blk (e_alloc E) (CRaw (8 * Z.of_nat (length (a_dims T))))]> (heap s)).
Proof. exact squeeze_repeated_always. Qed.
Print Assumptions C21_repeated_axis.
Example C21_every_ex : axes T_u8 [0; 1; 0] [0; 1; 0]%nat /\ axes T_u8 [1; 1] [1; 1]%nat /\
  room T_u8 [0; 1; 0]%nat = 2 /\ squeeze_rest (a_dims T_u8) [0; 1; 0]%nat = [3; 2] /\
  room T_u8 [1; 1]%nat = 1 /\ squeeze_rest (a_dims T_u8) [1; 1]%nat = [3; 2] /\
  room T_u8 [1; 1; 1; 1]%nat = -1 /\
  Exists (fun a => (length (a_dims T_u8) <= a)%nat) [3%nat].
Proof. split_and!; try reflexivity. left. cbn. lia. Qed.
Example C21_every_run :
  (exists r s', aitisa_squeeze (HPtr 0) [0; 1; 0] 3 HNull E0 (fx [T_u8]) = Done r s' /\
     peek E0 s' r = Some (SUCCESS, [3; 2], VI <$> [1; 2; 3; 4; 5; 255])) /\
  aitisa_squeeze (HPtr 0) [1; 1] 2 HNull E0 (fx [T_u8]) = UB UB_oob /\
  aitisa_squeeze (HPtr 0) [3] 1 HNull E0 (fx [T_u8]) = UB UB_oob.
Proof.
  split_and!.
  - apply run_ex. vm_compute. reflexivity.
  - vm_compute. reflexivity.
  - vm_compute. reflexivity.
Qed.
(** Empty extents: undefined, and refused only if units are named too often. *)
Definition T_hollow : atensor := AT U8 cpu [0; 1] [].
Example C21_zero_run :
  0 ∈ a_dims T_hollow /\ room T_hollow [1; 1]%nat = 0 /\ squeeze_rest (a_dims T_hollow) [1; 1]%nat = [] /\
  aitisa_squeeze (HPtr 0) [1] 1 HNull E0 (fx [T_hollow]) = UB UB_uninit /\
  exists r s', aitisa_squeeze (HPtr 0) [1; 1] 2 HNull E0 (fx [T_hollow]) = Done r s' /\ r = (DIMENSIONS_MISMATCH, HNull).
Proof.
  split_and!; [left|reflexivity|reflexivity|vm_compute; reflexivity|].
  eexists _, _. split; [vm_compute; reflexivity|reflexivity].
Qed.

(** ** C42: an unknown mode, every input: success, and not one element written *)
Theorem C42_mode_always_refuted : forall p T nb nc sd ks ss ps ls o E s,
  wf s -> alloc_all E -> hooks_ok E -> holds (heap s) p T -> init T ->
  a_dims T = nb :: nc :: sd -> (1 <= length sd <= 3)%nat -> win_ok sd ks ss ps ls ->
  prodZ ks <= INT64_MAX -> prodZ (win_outs sd ks ss ps ls) <= INT_MAX ->
  (Z.to_nat (prodZ ks) <= e_fuel E)%nat -> (Z.to_nat (prodZ (win_outs sd ks ss ps ls)) <= e_fuel E)%nat ->
  fits (tsz (a_type T)) (nb :: nc :: win_outs sd ks ss ps ls) ->
  makes (aitisa_pooling (HPtr p) POther ks ss ps ls o) E s
    (AT (a_type T) (a_dev T) (nb :: nc :: win_outs sd ks ss ps ls)
       (replicate (Z.to_nat (prodZ (nb :: nc :: win_outs sd ks ss ps ls))) VU)).
Proof. exact pooling_other. Qed.
Print Assumptions C42_mode_always_refuted.
Definition T_line : atensor := AT I32 cpu [1; 1; 3] (VI <$> [4; -5; 6]).
Example C42_mode_ex : init T_line /\ win_ok [3] [2] [1] [0] [1] /\ win_outs [3] [2] [1] [0] [1] = [2] /\
  exists r s', aitisa_pooling (HPtr 0) POther [2] [1] [0] [1] HNull E0 (fx [T_line]) = Done r s' /\
    peek E0 s' r = Some (SUCCESS, [1; 1; 2], [VU; VU]).
Proof.
  split_and!.
  - repeat constructor; vm_compute; first [reflexivity|discriminate].
  - repeat constructor; vm_compute; first [reflexivity|discriminate].
  - reflexivity.
  - apply run_ex. vm_compute. reflexivity.
Qed.

(** ** C45: no input channels, every input: not one element written *)
Theorem C45_no_channels_always_refuted : forall p pf T F nb oc fc sd ks ss ps ls g o E s,
  wf s -> alloc_all E -> hooks_ok E -> holds (heap s) p T -> holds (heap s) pf F ->
  a_type T = F32 -> a_type F = F32 ->
  a_dims T = nb :: 0 :: sd -> a_dims F = oc :: fc :: ks ->
  (length sd <= 3)%nat -> win_ok sd ks ss ps ls ->
  fits (tsz F32) (nb :: oc :: win_outs sd ks ss ps ls) ->
  makes_saying (conv_status E) (aitisa_conv (HPtr p) (HPtr pf) ss ps ls g o) E s
    (AT F32 (a_dev T) (nb :: oc :: win_outs sd ks ss ps ls)
       (replicate (Z.to_nat (prodZ (nb :: oc :: win_outs sd ks ss ps ls))) VU)).
Proof. exact conv_zero_channels. Qed.
Print Assumptions C45_no_channels_always_refuted.
Definition T_nochan : atensor := AT F32 cpu [1; 0; 2; 2] [].
Definition T_filter0 : atensor := AT F32 cpu [1; 0; 2; 1] [].
Example C45_no_channels_ex : win_ok [2; 2] [2; 1] [1; 1] [0; 0] [1; 1] /\
  win_outs [2; 2] [2; 1] [1; 1] [0; 0] [1; 1] = [1; 2] /\
  exists r s', aitisa_conv2d (HPtr 0) (HPtr 5) [1; 1] [0; 0] [1; 1] 1 HNull E0 (fx [T_nochan; T_filter0]) = Done r s' /\
    peek E0 s' r = Some (e_garbage E0 0, [1; 1; 1; 2], [VU; VU]).
Proof.
  split_and!.
  - repeat constructor; vm_compute; first [reflexivity|discriminate].
  - reflexivity.
  - apply run_ex. vm_compute. reflexivity.
Qed.
