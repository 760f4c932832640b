(** * PropPoint: convolutions whose filters have one element per channel (C78) *)
From stdpp Require Import gmap list.
From Coq Require Import ZArith Lia Floats.SpecFloat.
From Verif Require Import Base Mem Spec SpecReal SpecNN SpecUnit SpecRing ModelCore ModelMath ModelNN Logic ProofCore ProofCore2
  ProofPoint PropUnit Fixture.
Open Scope Z_scope.

(** With filters of one element per channel, unit strides and dilations and no padding, every output channel is,
    point by point, the inner product of the input channels with the filter. *)
Theorem C78_pointwise : forall p pf T F nb nc oc fc sd g o E s,
  wf s -> alloc_all E -> hooks_ok E -> holds (heap s) p T -> holds (heap s) pf F -> a_type T = F32 -> a_type F = F32 ->
  let n := length sd in
  a_dims T = nb :: nc :: sd -> a_dims F = oc :: fc :: ones n -> nc <= fc -> 0 < nc -> (n <= 3)%nat -> Forall (fun d => 1 <= d <= 2 ^ 51) sd ->
  fits (tsz F32) (nb :: oc :: sd) -> init T -> init F ->
  exists T3, a_type T3 = F32 /\ a_dev T3 = a_dev T /\ a_dims T3 = nb :: oc :: sd /\ valid T3 /\ init T3 /\
  (forall b c x, in_box (nb :: oc :: sd) (b :: c :: x) ->
     inner F32 nc (fun i => at_ T (b :: i :: x)) (fun i => at_ F (c :: i :: zeros n)) = Some (at_ T3 (b :: c :: x))) /\
  makes_saying (conv_status E) (aitisa_conv (HPtr p) (HPtr pf) (ones n) (zeros n) (ones n) g o) E s T3.
Proof. exact pointwise_total. Qed.
Print Assumptions C78_pointwise.

(** When these filters form a unit matrix the convolution copies every finite tensor, except that -0 becomes +0. *)
Theorem C78_unit : forall p pf T F nb nc sd g o E s,
  wf s -> alloc_all E -> hooks_ok E -> holds (heap s) p T -> holds (heap s) pf F -> a_type T = F32 -> a_type F = F32 ->
  let n := length sd in
  a_dims T = nb :: nc :: sd -> a_dims F = nc :: nc :: ones n -> 0 < nc -> (n <= 3)%nat -> Forall (fun d => 1 <= d <= 2 ^ 51) sd ->
  Forall finite_elem (a_vals T) -> init T ->
  (forall c i, 0 <= c < nc -> 0 <= i < nc -> at_ F (c :: i :: zeros n) = VF (flt_of_Z F32 (if c =? i then 1 else 0))) ->
  makes_saying (conv_status E) (aitisa_conv (HPtr p) (HPtr pf) (ones n) (zeros n) (ones n) g o) E s
    (AT F32 (a_dev T) (a_dims T) (unsign_zero <$> a_vals T)).
Proof. exact unit_conv. Qed.
Print Assumptions C78_unit.

(** When the filters are as large as the image (any strides, no padding, no dilation) the convolution is a fully
    connected layer: bit by bit the product of the matrix of flattened samples with the transposed matrix of
    flattened filters, as [aitisa_matmul] computes it in any memory. *)
Theorem C78_fully_connected : forall p pf T F nb nc oc sd ss G g o E s,
  wf s -> alloc_all E -> hooks_ok E -> holds (heap s) p T -> holds (heap s) pf F -> a_type T = F32 -> a_type F = F32 ->
  let n := length sd in let K := nc * prodZ sd in
  a_dims T = nb :: nc :: sd -> a_dims F = oc :: nc :: sd -> 0 < nc -> (n <= 3)%nat -> win_ok sd sd ss (zeros n) (ones n) ->
  fits (tsz F32) (nb :: oc :: ones n) -> init T -> init F ->
  dev_type (a_dev T) = 0 -> nb <= INT_MAX -> K <= INT_MAX -> oc <= INT_MAX -> nb * oc <= INT_MAX ->
  valid G -> a_type G = F32 -> dev_type (a_dev G) = 0 -> a_dims G = [K; oc] ->
  (forall q c, 0 <= q < K -> 0 <= c < oc -> at_ G [q; c] = at_ (AT F32 (a_dev F) [oc; K] (a_vals F)) [c; q]) ->
  exists vs,
    makes_saying (conv_status E) (aitisa_conv (HPtr p) (HPtr pf) ss (zeros n) (ones n) g o) E s
      (AT F32 (a_dev T) (nb :: oc :: ones n) vs) /\
    gives aitisa_matmul (AT F32 (a_dev T) [nb; K] (a_vals T)) G (AT F32 (a_dev T) [nb; oc] vs).
Proof. exact conv_full. Qed.
Print Assumptions C78_fully_connected.

(** ** Cases *)
Definition Q_img : atensor := AT F32 cpu [2; 2; 3] [fl 1; fl 2; fl 3; fl 10; VF (S754_zero true); fl (-4); fl 0; fl 5; fl 6; fl 7; fl 8; fl 9].
Definition Q_fil : atensor := AT F32 cpu [3; 2; 1] [fl 1; fl 1; fl 2; fl (-1); fl 0; fl 3].
Definition Q_unit : atensor := AT F32 cpu [2; 2; 1] [fl 1; fl 0; fl 0; fl 1].
Lemma Q_img_valid : valid Q_img. Proof. lit_valid. Qed.
Lemma Q_fil_valid : valid Q_fil. Proof. lit_valid. Qed.
Lemma Q_unit_valid : valid Q_unit. Proof. lit_valid. Qed.
Example C78_pointwise_ex : holds (heap (fx [Q_img; Q_fil])) 0 Q_img /\ holds (heap (fx [Q_img; Q_fil])) 5 Q_fil /\
  a_dims Q_img = 2 :: 2 :: [3] /\ a_dims Q_fil = 3 :: 2 :: ones 1 /\ fits (tsz F32) [2; 3; 3] /\ init Q_img /\ init Q_fil.
Proof.
  split_and!; [exact (fx_holds [Q_img; Q_fil] 0 Q_img eq_refl Q_img_valid)|exact (fx_holds [Q_img; Q_fil] 1 Q_fil eq_refl Q_fil_valid)|done|done|lit_fits| |];
  repeat constructor; vm_compute; reflexivity.
Qed.
Example C78_pointwise_run :
  exists r s, aitisa_conv (HPtr 0) (HPtr 5) [1] [0] [1] 1 HUndef E0 (fx [Q_img; Q_fil]) = Done r s /\
    peek E0 s r = Some (INTERNAL_ERROR, [2; 3; 3],
      fl <$> [11; 2; -1; -8; 4; 10; 30; 0; -12; 7; 13; 15; -7; 2; 3; 21; 24; 27]).
Proof. apply run_ex; vm_compute; reflexivity. Qed.
Example C78_unit_ex : holds (heap (fx [Q_img; Q_unit])) 5 Q_unit /\ Forall finite_elem (a_vals Q_img) /\
  (forall c i, 0 <= c < 2 -> 0 <= i < 2 -> at_ Q_unit (c :: i :: zeros 1) = VF (flt_of_Z F32 (if c =? i then 1 else 0))).
Proof.
  split_and!; [exact (fx_holds [Q_img; Q_unit] 1 Q_unit eq_refl Q_unit_valid)|repeat constructor|].
  intros c i Hc Hi. assert (i = 0 \/ i = 1) as [-> | ->] by lia; assert (c = 0 \/ c = 1) as [-> | ->] by lia; reflexivity.
Qed.
Example C78_unit_run :
  exists r s, aitisa_conv (HPtr 0) (HPtr 5) [1] [0] [1] 1 HUndef E0 (fx [Q_img; Q_unit]) = Done r s /\
    peek E0 s r = Some (INTERNAL_ERROR, [2; 2; 3], fl <$> [1; 2; 3; 10; 0; -4; 0; 5; 6; 7; 8; 9]).
Proof. apply run_ex; vm_compute; reflexivity. Qed.
(** Infinities are not copied: infinity times a zero of the unit matrix is NaN and spoils the other channel. *)
Definition Q_inf : atensor := AT F32 cpu [1; 2; 1] [VF (S754_infinity false); fl 3].
Example C78_unit_infinite_differs :
  exists r s, aitisa_conv (HPtr 0) (HPtr 5) [1] [0] [1] 1 HUndef E0 (fx [Q_inf; Q_unit]) = Done r s /\
    peek E0 s r = Some (INTERNAL_ERROR, [1; 2; 1], [VF (S754_infinity false); VF S754_nan]).
Proof. apply run_ex; vm_compute; reflexivity. Qed.
Definition Q_pts : atensor := AT F32 cpu [2; 2; 2] (fl <$> [1; 2; 3; 10; -4; 5; 0; 7]).
Definition Q_ker : atensor := AT F32 cpu [3; 2; 2] (fl <$> [1; 1; 1; 1; 2; -1; 0; 3; 0; 0; -5; 4]).
Definition Q_mat : atensor := AT F32 cpu [2; 4] (fl <$> [1; 2; 3; 10; -4; 5; 0; 7]).
Definition Q_tr : atensor := AT F32 cpu [4; 3] (fl <$> [1; 2; 0; 1; -1; 0; 1; 0; -5; 1; 3; 4]).
Example C78_fully_connected_ex : valid Q_pts /\ valid Q_ker /\ valid Q_tr /\ init Q_pts /\ init Q_ker /\ fits (tsz F32) [2; 3; 1] /\
  win_ok [2] [2] [3] (zeros 1) (ones 1) /\
  (forall q c, 0 <= q < 4 -> 0 <= c < 3 -> at_ Q_tr [q; c] = at_ (AT F32 cpu [3; 4] (a_vals Q_ker)) [c; q]).
Proof.
  split_and!; [lit_valid..|repeat constructor; vm_compute; reflexivity|repeat constructor; vm_compute; reflexivity|lit_fits|cbn; unfold win_ok1; lims; lia|].
  intros q c Hq Hc. assert (q = 0 \/ q = 1 \/ q = 2 \/ q = 3) as [-> | [-> | [-> | ->]]] by lia;
    assert (c = 0 \/ c = 1 \/ c = 2) as [-> | [-> | ->]] by lia; reflexivity.
Qed.
Example C78_fully_connected_run :
  (exists r s, aitisa_conv (HPtr 0) (HPtr 5) [3] [0] [1] 1 HUndef E0 (fx [Q_pts; Q_ker]) = Done r s /\
    peek E0 s r = Some (INTERNAL_ERROR, [2; 3; 1], fl <$> [16; 30; 25; 8; 8; 28])) /\
  (exists r s, aitisa_matmul (HPtr 0) (HPtr 5) HUndef E0 (fx [Q_mat; Q_tr]) = Done r s /\
    peek E0 s r = Some (SUCCESS, [2; 3], fl <$> [16; 30; 25; 8; 8; 28])).
Proof. split; apply run_ex; vm_compute; reflexivity. Qed.
