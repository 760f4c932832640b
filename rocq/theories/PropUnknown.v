(** * PropUnknown: tensors of an unsupported type (C52)

    In the theorems about refusals nothing is assumed about the buffer of the
    operand (it may even be gone): as an access to it could only be undefined
    behaviour, the conclusion says that no element is accessed. *)
From stdpp Require Import gmap list.
From Coq Require Import ZArith Lia Floats.SpecFloat.
From Verif Require Import Base Mem Spec SpecReal SpecNN SpecUnknown ModelCore ModelBasic ModelMath ModelNN Logic ProofCore
  ProofUnknown ProofUnknown2 ProofUnknown3 ProofUnknown4 Fixture.
Open Scope Z_scope.

Theorem C52_elementwise : forall p dt dev dims order px o E s,
  wf s -> view (heap s) p dt dev dims order px -> sized dt dims -> unknown dt ->
  unsupported (aitisa_sqrt (HPtr p) o) E s o /\ unsupported (aitisa_relu (HPtr p) o) E s o /\
  unsupported (aitisa_sigmoid (HPtr p) o) E s o /\ unsupported (aitisa_tanh (HPtr p) o) E s o.
Proof. exact (fun p dt dev dims order px o E s H1 H2 H3 H4 =>
  conj (sqrt_unknown p dt dev dims order px o E s H1 H2 H3 H4)
  (conj (relu_unknown p dt dev dims order px o E s H1 H2 H3 H4)
  (conj (sigmoid_unknown p dt dev dims order px o E s H1 H2 H3 H4)
        (tanh_unknown p dt dev dims order px o E s H1 H2 H3 H4)))). Qed.
Print Assumptions C52_elementwise.

Theorem C52_cast : forall p dt dt' dev dims order px o E s,
  wf s -> view (heap s) p dt dev dims order px -> sized dt' dims ->
  unknown dt \/ unknown dt' -> d_code dt <> d_code dt' ->
  unsupported (aitisa_cast (HPtr p) dt' o) E s o.
Proof. exact cast_unknown. Qed.
Print Assumptions C52_cast.

Theorem C52_softmax : forall p dt dev dims order px a o E s,
  wf s -> view (heap s) p dt dev dims order px -> sized dt dims -> unknown dt -> alloc_all E ->
  unsupported (aitisa_softmax (HPtr p) (-1) o) E s o /\
  ((a < length dims)%nat -> Forall (fun d => 0 < d) dims ->
   unsupported (aitisa_softmax (HPtr p) (Z.of_nat a) o) E s o).
Proof. exact (fun p dt dev dims order px a o E s H1 H2 H3 H4 H5 =>
  conj (softmax_all_unknown p dt dev dims order px o E s H1 H2 H3 H4 H5)
       (softmax_axis_unknown p dt dev dims order px a o E s H1 H2 H3 H4 H5)). Qed.
Print Assumptions C52_softmax.

Theorem C52_slice : forall p dt dev dims order px bs ss ts o E s,
  wf s -> alloc_all E -> hooks_ok E -> view (heap s) p dt dev dims order px -> sized dt dims -> unknown dt ->
  dims <> [] -> slice_ok dims bs ss ts ->
  unsupported (aitisa_slice (HPtr p) bs ss ts o) E s o.
Proof. exact slice_unknown. Qed.
Print Assumptions C52_slice.
Theorem C52_duplicate : forall p dt dev dims order px o E s,
  wf s -> alloc_all E -> hooks_ok E -> view (heap s) p dt dev dims order px -> sized dt dims -> unknown dt ->
  dims <> [] -> Forall (fun d => 0 < d <= INT_MAX) dims ->
  unsupported (aitisa_duplicate (HPtr p) o) E s o.
Proof. exact duplicate_unknown. Qed.
Print Assumptions C52_duplicate.
Theorem C52_dropout : forall p dt dev dims order px rate o E s,
  wf s -> alloc_all E -> hooks_ok E -> view (heap s) p dt dev dims order px -> sized dt dims -> unknown dt ->
  dims <> [] -> Forall (fun d => 0 < d <= INT_MAX) dims -> rate_ok rate ->
  unsupported (aitisa_dropout (HPtr p) rate o) E s o.
Proof. exact dropout_unknown. Qed.
Print Assumptions C52_dropout.

Theorem C52_conv : forall p dt dev dims order px f ss ps ls g o E s,
  wf s -> view (heap s) p dt dev dims order px -> unknown dt ->
  (length dims = 4%nat -> unsupported (aitisa_conv2d (HPtr p) f ss ps ls g o) E s o) /\
  (length dims = 5%nat -> unsupported (aitisa_conv3d (HPtr p) f ss ps ls g o) E s o).
Proof. exact conv_unknown. Qed.
Print Assumptions C52_conv.
Theorem C52_pooling : forall m p dt dev nb nc sd px ks ss ps ls o E s,
  wf s -> alloc_all E -> view (heap s) p dt dev (nb :: nc :: sd) (rowmajor (2 + length sd)) px ->
  sized dt (nb :: nc :: sd) -> unknown dt ->
  (1 <= length sd <= 3)%nat -> win_ok sd ks ss ps ls ->
  0 < nb -> 0 < nc -> sized dt (nb :: nc :: win_outs sd ks ss ps ls) ->
  prodZ ks <= INT64_MAX -> (Z.to_nat (prodZ ks) <= e_fuel E)%nat ->
  unsupported (aitisa_pooling (HPtr p) m ks ss ps ls o) E s o.
Proof. exact pooling_unknown. Qed.
Print Assumptions C52_pooling.

(** The product with a scalar *)
Theorem C52_dot_scalar : forall p1 p2 dt1 dt2 dev1 dev2 dims1 dims2 order1 order2 px1 px2 o E s,
  view (heap s) p1 dt1 dev1 dims1 order1 px1 -> view (heap s) p2 dt2 dev2 dims2 order2 px2 ->
  dims1 = [] \/ dims2 = [] -> unknown dt1 ->
  aitisa_dot (HPtr p1) (HPtr p2) o E s = Done (NOT_SUPPORTED, o) s.
Proof. exact dot_scalar_unknown. Qed.
Print Assumptions C52_dot_scalar.

(** The property fails for the operations that index a table of functions with
    the code (at every unknown code and every representable shape), ... *)
Theorem C52_full_refuted : forall dt dev dims d o E s,
  wf s -> sized dt dims -> alloc_all E -> unknown dt ->
  aitisa_full dt dev dims (Z.of_nat (length dims)) d o E s = UB UB_oob.
Proof. exact full_unknown. Qed.
Print Assumptions C52_full_refuted.
Theorem C52_arithmetic_refuted : forall op p1 p2 dt1 dt2 dev1 dev2 dims order1 order2 px1 px2 o E s,
  wf s -> alloc_all E ->
  view (heap s) p1 dt1 dev1 dims order1 px1 -> view (heap s) p2 dt2 dev2 dims order2 px2 ->
  dev_type dev1 = 0 -> dev_type dev2 = 0 -> sized dt1 dims -> unknown dt1 -> d_code dt2 = d_code dt1 ->
  0 < prodZ dims ->
  aitisa_binary_op op (HPtr p1) (HPtr p2) o E s = UB UB_oob.
Proof. exact binary_unknown. Qed.
Print Assumptions C52_arithmetic_refuted.
Theorem C52_matmul_refuted : forall p1 p2 dt dt2 dev dev2 n order1 order2 px1 px2 o E s,
  wf s -> alloc_all E -> view (heap s) p1 dt dev [n] order1 px1 -> view (heap s) p2 dt2 dev2 [n] order2 px2 ->
  dev_type dev = 0 -> dev_type dev2 = 0 -> sized dt [1] -> unknown dt ->
  aitisa_matmul (HPtr p1) (HPtr p2) o E s = UB UB_oob.
Proof. exact matmul_unknown. Qed.
Print Assumptions C52_matmul_refuted.
Theorem C52_matmul_matrix_refuted : forall p1 p2 dt dt2 dev dev2 m k n order1 order2 px1 px2 o E s,
  wf s -> alloc_all E -> view (heap s) p1 dt dev [m; k] order1 px1 -> view (heap s) p2 dt2 dev2 [k; n] order2 px2 ->
  dev_type dev = 0 -> dev_type dev2 = 0 -> sized dt [m; n] -> unknown dt ->
  aitisa_matmul (HPtr p1) (HPtr p2) o E s = UB UB_oob.
Proof. exact matmul_mm_unknown. Qed.
Print Assumptions C52_matmul_matrix_refuted.
Theorem C52_dot_refuted : forall p1 p2 dt dt2 dev dev2 dims1 dims2 out order1 order2 px1 px2 o E s,
  wf s -> alloc_all E -> view (heap s) p1 dt dev dims1 order1 px1 -> view (heap s) p2 dt2 dev2 dims2 order2 px2 ->
  dev_type dev = 0 -> dev_type dev2 = 0 -> unknown dt -> d_code dt2 = d_code dt ->
  ((exists n, dims1 = [n] /\ dims2 = [n] /\ out = [1]) \/
   (exists m k n, dims1 = [m; k] /\ dims2 = [k; n] /\ out = [m; n])) -> sized dt out ->
  aitisa_dot (HPtr p1) (HPtr p2) o E s = UB UB_oob.
Proof. exact dot_unknown. Qed.
Print Assumptions C52_dot_refuted.
(** Batch normalisation, at every rank it accepts. *)
Theorem C52_batch_norm_refuted : forall p pS pB pM pV dt dtS dtB dtM dtV dev devS devB devM devV dims ch
    oT oS oB oM oV px pxS pxB pxM pxV axis eps o E s,
  wf s -> alloc_all E ->
  view (heap s) p dt dev dims oT px -> view (heap s) pS dtS devS [ch] oS pxS -> view (heap s) pB dtB devB [ch] oB pxB ->
  view (heap s) pM dtM devM [ch] oM pxM -> view (heap s) pV dtV devV [ch] oV pxV ->
  (2 <= length dims <= 5)%nat -> axis = 1 \/ axis = Z.of_nat (length dims) - 1 -> dims !! Z.to_nat axis = Some ch ->
  d_code dtS = d_code dt -> d_code dtB = d_code dt -> d_code dtM = d_code dt -> d_code dtV = d_code dt ->
  SFltb eps fzero = false -> unknown dt -> sized dt dims ->
  aitisa_batch_norm (HPtr p) axis (HPtr pS) (HPtr pB) (HPtr pM) (HPtr pV) eps o E s = UB UB_oob.
Proof. exact batch_norm_unknown. Qed.
Print Assumptions C52_batch_norm_refuted.
(** ... for a cast to the tensor's own type, which reports success, and for
    reshape, which copies the bytes of any type. *)
Theorem C52_cast_same_refuted : forall p dt dt' dev dims order px o E s,
  view (heap s) p dt dev dims order px -> d_code dt = d_code dt' ->
  aitisa_cast (HPtr p) dt' o E s = Done (SUCCESS, o) s.
Proof. exact cast_same. Qed.
Print Assumptions C52_cast_same_refuted.
Theorem C52_reshape_refuted : forall p dt dev dims0 order px tg bs dims o E s,
  wf s -> alloc_all E -> view (heap s) p dt dev dims0 order px ->
  heap s !! px = Some (Blk tg (CData bs)) -> d_size dt * prodZ dims0 <= Z.of_nat (length bs) ->
  sized dt dims -> prodZ dims = prodZ dims0 ->
  exists q px' tg' s', aitisa_reshape (HPtr p) dims (Z.of_nat (length dims)) o E s = Done (SUCCESS, HPtr q) s' /\
    view (heap s') q dt dev dims (rowmajor (length dims)) px' /\
    heap s' !! px' = Some (Blk tg' (CData (take (Z.to_nat (d_size dt * prodZ dims)) bs))).
Proof. exact reshape_any. Qed.
Print Assumptions C52_reshape_refuted.

(** A tensor of type code 42 (two bytes per element) and shape [1, 2, 2, 3]
    whose buffer has been freed. *)
Definition u_dt : dtype := DT 42 2.
Definition u_s : st := St (delete 4%nat (tensor_map 0 0 1 2 3 4 u_dt cpu [1; 2; 2; 3] [])) 5 0.
Example C52_ex : wf u_s /\ unknown u_dt /\ sized u_dt [1; 2; 2; 3] /\ heap u_s !! 4%nat = None /\
  view (heap u_s) 0 u_dt cpu [1; 2; 2; 3] (rowmajor 4) 4 /\ alloc_all E0 /\ hooks_ok E0 /\
  slice_ok [1; 2; 2; 3] [0; 0; 1; 0] [1; 2; 1; 3] [1; 1; 1; 2] /\
  win_ok [2; 3] [2; 2] [1; 1] [0; 0] [1; 1] /\
  sized u_dt (1 :: 2 :: win_outs [2; 3] [2; 2] [1; 1] [0; 0] [1; 1]).
Proof.
  split_and!; try done.
  - intros b [x Hx]. unfold u_s in Hx. cbn [heap] in Hx. apply lookup_delete_Some in Hx as [Hb Hx].
    assert (is_Some (tensor_map 0 0 1 2 3 4 u_dt cpu [1; 2; 2; 3] [] !! b)) as H by eauto.
    apply tensor_map_dom in H. cbn. lia.
  - unfold unknown. cbn. lia.
  - split; [cbn; lia|lit_fits].
  - exists 0%nat, 0%nat, (HPtr 1), (HPtr 2), 3%nat. unfold ints_at. split_and!; try reflexivity; repeat (eexists; try split); reflexivity.
  - change (win_outs _ _ _ _ _) with [1; 2]. split; [cbn; lia|lit_fits].
Qed.
Example C52_ex_run :
  got (aitisa_relu (HPtr 0) HNull E0 u_s) = Some (NOT_SUPPORTED, HPtr 5) /\
  got (aitisa_pooling (HPtr 0) PMax [2; 2] [1; 1] [0; 0] [1; 1] HNull E0 u_s) = Some (NOT_SUPPORTED, HNull) /\
  aitisa_add (HPtr 0) (HPtr 0) HNull E0 u_s = UB UB_oob.
Proof. vm_compute. done. Qed.

(** A scalar, a vector, a matrix and two volumes of that type, without their buffers *)
Fixpoint u_slots (k : nat) (ds : list (list Z)) : gmap nat block :=
  match ds with
  | [] => ∅
  | d :: ds => header_map 0 (5 * k) (5 * k + 1) (5 * k + 2) (5 * k + 3) (5 * k + 4) u_dt cpu d ∪ u_slots (S k) ds
  end.
Definition u_s2 : st := St (u_slots 0 [[]; [2]; [2; 3]; [3; 2]; [1; 2; 3]]) 25 0.
Example C52_ex2 : wf u_s2 /\ unknown u_dt /\ alloc_all E0 /\
  view (heap u_s2) 0 u_dt cpu [] (rowmajor 0) 4 /\ view (heap u_s2) 5 u_dt cpu [2] (rowmajor 1) 9 /\
  view (heap u_s2) 10 u_dt cpu [2; 3] (rowmajor 2) 14 /\ view (heap u_s2) 15 u_dt cpu [3; 2] (rowmajor 2) 19 /\
  view (heap u_s2) 20 u_dt cpu [1; 2; 3] (rowmajor 3) 24 /\
  sized u_dt [1] /\ sized u_dt [2; 2] /\ sized u_dt [3; 2] /\ sized u_dt [1; 2; 3].
Proof.
  split_and!; try done.
  - intros b Hb. unfold u_s2 in *. cbn [heap ctr u_slots] in *. rewrite !lookup_union_is_Some in Hb.
    destruct Hb as [Hb|[Hb|[Hb|[Hb|[Hb|[? Hb]]]]]]; [..|done]; unfold header_map in Hb;
      repeat (rewrite lookup_insert_is_Some in Hb; destruct Hb as [Hb|[_ Hb]]; [lia|]); destruct Hb; done.
  - unfold unknown. cbn. lia.
  - exists 0%nat, 0%nat, HNull, HNull, 3%nat. unfold ints_at. split_and!; try reflexivity; repeat (eexists; try split); reflexivity.
  - exists 0%nat, 0%nat, (HPtr 6), (HPtr 7), 8%nat. unfold ints_at. split_and!; try reflexivity; repeat (eexists; try split); reflexivity.
  - exists 0%nat, 0%nat, (HPtr 11), (HPtr 12), 13%nat. unfold ints_at. split_and!; try reflexivity; repeat (eexists; try split); reflexivity.
  - exists 0%nat, 0%nat, (HPtr 16), (HPtr 17), 18%nat. unfold ints_at. split_and!; try reflexivity; repeat (eexists; try split); reflexivity.
  - exists 0%nat, 0%nat, (HPtr 21), (HPtr 22), 23%nat. unfold ints_at. split_and!; try reflexivity; repeat (eexists; try split); reflexivity.
  - split; [cbn; lia|lit_fits].
  - split; [cbn; lia|lit_fits].
  - split; [cbn; lia|lit_fits].
  - split; [cbn; lia|lit_fits].
Qed.
Example C52_ex2_run :
  got (aitisa_dot (HPtr 0) (HPtr 5) HNull E0 u_s2) = Some (NOT_SUPPORTED, HNull) /\
  aitisa_dot (HPtr 5) (HPtr 5) HNull E0 u_s2 = UB UB_oob /\
  aitisa_dot (HPtr 10) (HPtr 15) HNull E0 u_s2 = UB UB_oob /\
  aitisa_batch_norm (HPtr 15) 1 (HPtr 5) (HPtr 5) (HPtr 5) (HPtr 5) fzero HNull E0 u_s2 = UB UB_oob /\
  aitisa_batch_norm (HPtr 20) 1 (HPtr 5) (HPtr 5) (HPtr 5) (HPtr 5) fzero HNull E0 u_s2 = UB UB_oob.
Proof. vm_compute. done. Qed.
