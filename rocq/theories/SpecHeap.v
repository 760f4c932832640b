(** * SpecHeap: statements about memory that hold for every operation of the
    library, whatever its arguments *)
From stdpp Require Import gmap list.
From Coq Require Import ZArith Floats.SpecFloat.
From Verif Require Import Base Mem Spec ModelCore ModelBasic ModelMath ModelNN.
Open Scope Z_scope.

(** The operations that hand out a tensor, with all their arguments ([o] is the
    previous content of *output). *)
Inductive oper :=
| OCreate (dt : dtype) (dev : device) (dims : list Z) (ndim : Z) (data : hval) (len : Z)
| OFull (dt : dtype) (dev : device) (dims : list Z) (ndim : Z) (v : spec_float)
| OCast (t : hval) (dt : dtype)
| OReshape (t : hval) (dims : list Z) (ndim : Z)
| OSqueeze (t : hval) (axis : list Z) (n : Z)
| OSlice (t : hval) (begin size step : list Z)
| ODuplicate (t : hval)
| OBinary (op : binop) (t1 t2 : hval)
| OSqrt (t : hval)
| OMatmul (t1 t2 : hval)
| ODot (t1 t2 : hval)
| ORelu (t : hval)
| OSigmoid (t : hval)
| OTanh (t : hval)
| OSoftmax (t : hval) (axis : Z)
| ODropout (t : hval) (rate : spec_float)
| OPooling (t : hval) (mode : pmode) (ksize stride padding dilation : list Z)
| OConv (t filter : hval) (stride padding dilation : list Z) (groups : Z)
| OConv2d (t filter : hval) (stride padding dilation : list Z) (groups : Z)
| OConv3d (t filter : hval) (stride padding dilation : list Z) (groups : Z)
| OBatchNorm (t : hval) (axis : Z) (scale bias mean variance : hval) (epsilon : spec_float).

Definition run_op (x : oper) (o : hval) : M (status * hval) :=
  match x with
  | OCreate dt dev dims ndim data len => aitisa_create dt dev dims ndim data len o
  | OFull dt dev dims ndim v => aitisa_full dt dev dims ndim v o
  | OCast t dt => aitisa_cast t dt o
  | OReshape t dims ndim => aitisa_reshape t dims ndim o
  | OSqueeze t axis n => aitisa_squeeze t axis n o
  | OSlice t b z st => aitisa_slice t b z st o
  | ODuplicate t => aitisa_duplicate t o
  | OBinary op t1 t2 => aitisa_binary_op op t1 t2 o
  | OSqrt t => aitisa_sqrt t o
  | OMatmul t1 t2 => aitisa_matmul t1 t2 o
  | ODot t1 t2 => aitisa_dot t1 t2 o
  | ORelu t => aitisa_relu t o
  | OSigmoid t => aitisa_sigmoid t o
  | OTanh t => aitisa_tanh t o
  | OSoftmax t axis => aitisa_softmax t axis o
  | ODropout t rate => aitisa_dropout t rate o
  | OPooling t m k s p d => aitisa_pooling t m k s p d o
  | OConv t f s p d g => aitisa_conv t f s p d g o
  | OConv2d t f s p d g => aitisa_conv2d t f s p d g o
  | OConv3d t f s p d g => aitisa_conv3d t f s p d g o
  | OBatchNorm t axis sc bi me va ep => aitisa_batch_norm t axis sc bi me va ep o
  end.

(** The functions that only answer questions. *)
Inductive query :=
| QStride (t : hval) (d : Z)
| QStrides (t : hval) (strides : list Z)
| QCoordsToLinidx (t : hval) (coords : list Z) (len : Z)
| QLinidxToCoords (t : hval) (linidx : Z) (coords : list Z)
| QCoordsToOffset (t : hval) (coords : list Z) (len : Z)
| QOffsetToCoords (t : hval) (offset : Z) (coords : list Z)
| QResolve (t : hval).

Definition run_query (q : query) : M unit :=
  match q with
  | QStride t d => let* _ := aitisa_get_stride t d in ret tt
  | QStrides t l => let* _ := aitisa_get_all_strides t l in ret tt
  | QCoordsToLinidx t l n => let* _ := aitisa_coords_to_linidx t l n in ret tt
  | QLinidxToCoords t i l => let* _ := aitisa_linidx_to_coords t i l in ret tt
  | QCoordsToOffset t l n => let* _ := aitisa_coords_to_offset t l n in ret tt
  | QOffsetToCoords t i l => let* _ := aitisa_offset_to_coords t i l in ret tt
  | QResolve t => let* _ := aitisa_resolve t in ret tt
  end.

(** Blocks a tensor header leads to. *)
Definition ptr_id (p : hval) : list nat := match p with HPtr b => [b] | _ => [] end.
Definition parts (h : gmap nat block) (p : nat) : list nat :=
  p :: match b_content <$> h !! p with
       | Some (CTensor i) =>
           ptr_id (t_dims i) ++ ptr_id (t_min2maj i) ++
           match t_storage i with
           | HPtr ps => ps :: match b_content <$> h !! ps with
                              | Some (CStorage x) => ptr_id (s_data x)
                              | _ => []
                              end
           | _ => []
           end
       | _ => []
       end.

(** From [s] to [s'] the new memory is exactly the distinct blocks of the tensor
    [p] other than the caller's [buf], all from the installed allocator.
    Destroying [p] takes them (and [buf]) away again. *)
Definition one_tensor (E : env) (s s' : st) (p : nat) (buf : list nat) : Prop :=
  heap s ⊆ heap s' /\
  (exists own, parts (heap s') p ≡ₚ own ++ buf /\ NoDup own /\
     (forall b, heap s !! b = None -> is_Some (heap s' !! b) <-> b ∈ own) /\
     (forall b, b ∈ own -> heap s !! b = None /\ b_tag <$> heap s' !! b = Some (e_alloc E))) /\
  (hooks_ok E -> (forall b, b ∈ buf -> b_tag <$> heap s !! b = Some (e_alloc E)) ->
   exists s'', aitisa_destroy (HPtr p) E s' = Done (SUCCESS, HNull) s'' /\
     forall b, heap s'' !! b = if decide (b ∈ buf) then None else heap s !! b).

(** The blocks a caller hands over: the buffer given to aitisa_create. *)
Definition handed (x : oper) : list nat :=
  match x with OCreate _ _ _ _ data _ => ptr_id data | _ => [] end.
Definition sane (x : oper) : Prop :=
  match x with OCreate _ _ _ _ data _ => data <> HUndef | _ => True end.
(** A cast to the type the tensor already has. *)
Definition self_cast (x : oper) (E : env) (s : st) : Prop :=
  exists t dt d, x = OCast t dt /\ tensor_dtype t E s = Done d s /\ d_code d = d_code dt.
