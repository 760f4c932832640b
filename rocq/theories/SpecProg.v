(** * SpecProg: programs over tensor variables, and what they should do

    A program is a list of API calls on named variables.  [exec] runs it in the
    model; [astep] says, without mentioning handles, memory or the model
    functions, what each call does to the values of the variables. *)
From stdpp Require Import gmap list.
From Coq Require Import ZArith Reals Floats.SpecFloat.
From Verif Require Import Base Mem Spec SpecReal SpecNN SpecNorm SpecHeap ModelCore ModelBasic ModelMath ModelNN.
Open Scope Z_scope.

(** ** Programs *)
Inductive call :=
| KCreate (t : tcode) (dev : device) (dims : list Z)
| KFull (t : tcode) (dev : device) (dims : list Z) (d : spec_float)
| KCast (x : nat) (t : tcode)
| KReshape (x : nat) (dims : list Z)
| KSqueeze (x : nat) (axis : list Z)
| KSlice (x : nat) (begin size step : list Z)
| KDuplicate (x : nat)
| KBinary (op : binop) (x y : nat)
| KSqrt (x : nat)
| KMatmul (x y : nat)
| KDot (x y : nat)
| KRelu (x : nat)
| KSigmoid (x : nat)
| KTanh (x : nat)
| KSoftmax (x : nat) (axis : Z)
| KDropout (x : nat) (rate : spec_float)
| KPooling (x : nat) (mode : pmode) (ks ss ps ls : list Z)
| KConv (x f : nat) (ss ps ls : list Z) (groups : Z)
| KConv2d (x f : nat) (ss ps ls : list Z) (groups : Z)
| KConv3d (x f : nat) (ss ps ls : list Z) (groups : Z)
| KBatchNorm (x : nat) (axis : Z) (scale bias mean variance : nat) (eps : spec_float).

Inductive cmd :=
| Call (x : nat) (c : call)                      (* c(..., &x) *)
| SetItem (x : nat) (i : nat) (t : tcode) (v : val) (* aitisa_tensor_set_item(x, i, &v) *)
| Destroy (x : nat).                             (* aitisa_destroy(&x) *)

(** ** Running them *)
Definition inst (h : nat -> hval) (c : call) : oper :=
  match c with
  | KCreate t dev dims => OCreate (dtype_of t) dev dims (Z.of_nat (length dims)) HNull 0
  | KFull t dev dims d => OFull (dtype_of t) dev dims (Z.of_nat (length dims)) d
  | KCast x t => OCast (h x) (dtype_of t)
  | KReshape x dims => OReshape (h x) dims (Z.of_nat (length dims))
  | KSqueeze x axis => OSqueeze (h x) axis (Z.of_nat (length axis))
  | KSlice x b z st => OSlice (h x) b z st
  | KDuplicate x => ODuplicate (h x)
  | KBinary op x y => OBinary op (h x) (h y)
  | KSqrt x => OSqrt (h x)
  | KMatmul x y => OMatmul (h x) (h y)
  | KDot x y => ODot (h x) (h y)
  | KRelu x => ORelu (h x)
  | KSigmoid x => OSigmoid (h x)
  | KTanh x => OTanh (h x)
  | KSoftmax x axis => OSoftmax (h x) axis
  | KDropout x rate => ODropout (h x) rate
  | KPooling x m ks ss ps ls => OPooling (h x) m ks ss ps ls
  | KConv x f ss ps ls g => OConv (h x) (h f) ss ps ls g
  | KConv2d x f ss ps ls g => OConv2d (h x) (h f) ss ps ls g
  | KConv3d x f ss ps ls g => OConv3d (h x) (h f) ss ps ls g
  | KBatchNorm x axis a b c d eps => OBatchNorm (h x) axis (h a) (h b) (h c) (h d) eps
  end.

Definition assign (h : nat -> hval) (x : nat) (v : hval) : nat -> hval :=
  fun y => if decide (y = x) then v else h y.

Definition exec (c : cmd) (h : nat -> hval) : M (status * (nat -> hval)) :=
  match c with
  | Call x k => let* (st, v) := run_op (inst h k) (h x) in ret (st, assign h x v)
  | SetItem x i t v => let* _ := aitisa_tensor_set_item (h x) (Z.of_nat i) (encode t v) in ret (SUCCESS, h)
  | Destroy x => let* (st, v) := aitisa_destroy (h x) in ret (st, assign h x v)
  end.
Fixpoint exec_all (cs : list cmd) (h : nat -> hval) : M (list status * (nat -> hval)) :=
  match cs with
  | [] => ret ([], h)
  | c :: cs => let* (st, h) := exec c h in
               let* (sts, h) := exec_all cs h in ret (st :: sts, h)
  end.

(** ** What they should do *)

(** The values of the variables that hold a tensor. *)
Notation vars := (gmap nat atensor) (only parsing).

(** The tensor a matrix product makes. *)
Inductive product (T1 T2 T3 : atensor) : Prop :=
| prod_vv k : a_dims T1 = [k] -> a_dims T2 = [k] -> a_dims T3 = [1] -> k <= INT_MAX ->
    inner (a_type T1) k (fun q => at_ T1 [q]) (fun q => at_ T2 [q]) = Some (at_ T3 [0]) -> product T1 T2 T3
| prod_mv m k : a_dims T1 = [m; k] -> a_dims T2 = [k] -> a_dims T3 = [m] -> k <= INT_MAX ->
    (forall i, 0 <= i < m ->
       inner (a_type T1) k (fun q => at_ T1 [i; q]) (fun q => at_ T2 [q]) = Some (at_ T3 [i])) -> product T1 T2 T3
| prod_vm k n : a_dims T1 = [k] -> a_dims T2 = [k; n] -> a_dims T3 = [n] -> k <= INT_MAX ->
    (forall j, 0 <= j < n ->
       inner (a_type T1) k (fun q => at_ T1 [q]) (fun q => at_ T2 [q; j]) = Some (at_ T3 [j])) -> product T1 T2 T3
| prod_mm m k n : a_dims T1 = [m; k] -> a_dims T2 = [k; n] -> a_dims T3 = [m; n] ->
    m <= INT_MAX -> k <= INT_MAX -> n <= INT_MAX ->
    (forall i j, 0 <= i < m -> 0 <= j < n ->
       inner (a_type T1) k (fun q => at_ T1 [i; q]) (fun q => at_ T2 [q; j]) = Some (at_ T3 [i; j])) -> product T1 T2 T3.
Definition ints_pos (l : list Z) : Prop := Forall (fun d => 0 < d <= INT_MAX) l.
Inductive batch_product (T1 T2 T3 : atensor) : Prop :=
| prod_tt b1 b2 bd m k n : bd <> [] -> a_dims T1 = b1 ++ [m; k] -> a_dims T2 = b2 ++ [k; n] ->
    bcast b1 b2 = Some bd -> a_dims T3 = bd ++ [m; n] ->
    (forall c i j, in_box bd c -> 0 <= i < m -> 0 <= j < n ->
       inner (a_type T1) k (fun q => at_ T1 (bproj b1 c ++ [i; q])) (fun q => at_ T2 (bproj b2 c ++ [q; j]))
       = Some (at_ T3 (c ++ [i; j]))) -> batch_product T1 T2 T3
| prod_tv b1 m k : b1 <> [] -> a_dims T1 = b1 ++ [m; k] -> a_dims T2 = [k] -> a_dims T3 = b1 ++ [m] ->
    (forall c i, in_box b1 c -> 0 <= i < m ->
       inner (a_type T1) k (fun q => at_ T1 (c ++ [i; q])) (fun q => at_ T2 [q]) = Some (at_ T3 (c ++ [i]))) ->
    batch_product T1 T2 T3
| prod_vt b2 k n : b2 <> [] -> a_dims T1 = [k] -> a_dims T2 = b2 ++ [k; n] -> a_dims T3 = b2 ++ [n] ->
    (forall c j, in_box b2 c -> 0 <= j < n ->
       inner (a_type T1) k (fun q => at_ T1 [q]) (fun q => at_ T2 (c ++ [q; j])) = Some (at_ T3 (c ++ [j]))) ->
    batch_product T1 T2 T3.

(** Two operands of the same type, both on the CPU. *)
Definition pair_ok (T1 T2 : atensor) : Prop :=
  a_type T2 = a_type T1 /\ dev_type (a_dev T1) = 0 /\ dev_type (a_dev T2) = 0.
(** A result with the type and device of [T]. *)
Definition like (T T3 : atensor) : Prop := valid T3 /\ a_type T3 = a_type T /\ a_dev T3 = a_dev T.

(** [gives E A r c T k]: with the variables [A], after [r] random numbers, the
    call [c] makes the tensor [T] and draws [k] more. *)
Inductive gives (E : env) (A : vars) (r : nat) : call -> atensor -> nat -> Prop :=
| g_create t dev dims : fits (tsz t) dims ->
    gives E A r (KCreate t dev dims) (AT t dev dims (replicate (Z.to_nat (prodZ dims)) VU)) 0
| g_full t dev dims d v : fits (tsz t) dims -> prodZ dims <= INT_MAX -> of_double t d = Some v ->
    gives E A r (KFull t dev dims d) (AT t dev dims (replicate (Z.to_nat (prodZ dims)) v)) 0
| g_cast x T t ws : A !! x = Some T -> t <> a_type T -> fits (tsz t) (a_dims T) ->
    Forall2 (fun v w => cast_val (a_type T) t v = Some w) (a_vals T) ws ->
    gives E A r (KCast x t) (AT t (a_dev T) (a_dims T) ws) 0
| g_reshape x T dims : A !! x = Some T -> fits (tsz (a_type T)) dims -> prodZ dims = prodZ (a_dims T) ->
    gives E A r (KReshape x dims) (AT (a_type T) (a_dev T) dims (a_vals T)) 0
| g_squeeze_all x T : A !! x = Some T -> Forall (fun d => d <> 0) (a_dims T) ->
    gives E A r (KSqueeze x []) (AT (a_type T) (a_dev T) (filter (fun d => d <> 1) (a_dims T)) (a_vals T)) 0
| g_squeeze x T axis : A !! x = Some T -> Forall (fun d => d <> 0) (a_dims T) ->
    axis <> [] -> NoDup axis -> Forall (fun a => 0 <= a < Z.of_nat (length (a_dims T))) axis ->
    gives E A r (KSqueeze x axis) (AT (a_type T) (a_dev T)
      (squeeze_dims (fun i => bool_decide (Z.of_nat i ∈ axis)) (a_dims T)) (a_vals T)) 0
| g_slice x T bs ss ts : A !! x = Some T -> a_dims T <> [] -> slice_ok (a_dims T) bs ss ts ->
    prodZ (slice_dims ss ts) <= INT_MAX ->
    gives E A r (KSlice x bs ss ts) (AT (a_type T) (a_dev T) (slice_dims ss ts)
      (tab (slice_dims ss ts) (fun c => at_ T (slice_src bs ss ts c)))) 0
| g_duplicate x T : A !! x = Some T -> a_dims T <> [] -> ints_pos (a_dims T) -> prodZ (a_dims T) <= INT_MAX ->
    gives E A r (KDuplicate x) T 0
| g_binary op x y T1 T2 ws : A !! x = Some T1 -> A !! y = Some T2 -> pair_ok T1 T2 -> a_dims T2 = a_dims T1 ->
    prodZ (a_dims T1) <= INT_MAX -> init T1 -> init T2 ->
    Forall2 (op_defined (a_type T1) op) (a_vals T1) (a_vals T2) ->
    Forall3 (fun u v w => bin_spec (a_type T1) op u v (Some w)) (a_vals T1) (a_vals T2) ws ->
    gives E A r (KBinary op x y) (AT (a_type T1) (a_dev T1) (a_dims T1) ws) 0
| g_sqrt x T ws : A !! x = Some T -> init T -> Forall (fun v => ~ negative v) (a_vals T) ->
    Forall2 (fun v w => sqrt_spec (a_type T) v (Some w)) (a_vals T) ws ->
    gives E A r (KSqrt x) (AT (a_type T) (a_dev T) (a_dims T) ws) 0
| g_matmul x y T1 T2 T3 : A !! x = Some T1 -> A !! y = Some T2 -> pair_ok T1 T2 -> like T1 T3 ->
    prodZ (a_dims T3) <= INT_MAX -> product T1 T2 T3 -> gives E A r (KMatmul x y) T3 0
| g_matmul_batch x y T1 T2 T3 : A !! x = Some T1 -> A !! y = Some T2 -> pair_ok T1 T2 -> like T1 T3 ->
    prodZ (a_dims T3) <= INT_MAX -> ints_pos (a_dims T1) -> ints_pos (a_dims T2) ->
    batch_product T1 T2 T3 -> gives E A r (KMatmul x y) T3 0
| g_dot_vv x y T1 T2 k w : A !! x = Some T1 -> A !! y = Some T2 -> pair_ok T1 T2 ->
    a_dims T1 = [k] -> a_dims T2 = [k] -> k <= INT_MAX ->
    inner (a_type T1) k (fun q => at_ T1 [q]) (fun q => at_ T2 [q]) = Some w ->
    gives E A r (KDot x y) (AT (a_type T1) (a_dev T1) [1] [w]) 0
| g_dot_mm x y T1 T2 T3 : A !! x = Some T1 -> A !! y = Some T2 -> pair_ok T1 T2 -> like T1 T3 ->
    length (a_dims T1) = 2%nat -> length (a_dims T2) = 2%nat ->
    prodZ (a_dims T3) <= INT_MAX -> product T1 T2 T3 -> gives E A r (KDot x y) T3 0
| g_dot_tv x y T1 T2 T3 b k : A !! x = Some T1 -> A !! y = Some T2 -> pair_ok T1 T2 -> like T1 T3 ->
    ints_pos (a_dims T1) -> prodZ (a_dims T3) * Z.of_nat (tsz (a_type T3)) <= INT_MAX ->
    b <> [] -> a_dims T1 = b ++ [k] -> a_dims T2 = [k] -> a_dims T3 = b ->
    (forall c, in_box b c ->
       inner (a_type T1) k (fun q => at_ T1 (c ++ [q])) (fun q => at_ T2 [q]) = Some (at_ T3 c)) ->
    gives E A r (KDot x y) T3 0
| g_dot_tt x y T1 T2 T3 b1 b2 k n : A !! x = Some T1 -> A !! y = Some T2 -> pair_ok T1 T2 -> like T1 T3 ->
    ints_pos (a_dims T1) -> ints_pos (a_dims T2) -> prodZ b1 <= INT_MAX -> prodZ b2 * n <= INT_MAX ->
    (2 <= length b1)%nat -> (1 <= length b2)%nat ->
    a_dims T1 = b1 ++ [k] -> a_dims T2 = b2 ++ [k; n] -> a_dims T3 = b1 ++ b2 ++ [n] ->
    (forall c e j, in_box b1 c -> in_box b2 e -> 0 <= j < n ->
       inner (a_type T1) k (fun q => at_ T1 (c ++ [q])) (fun q => at_ T2 (e ++ [q; j]))
       = Some (at_ T3 (c ++ e ++ [j]))) ->
    gives E A r (KDot x y) T3 0
| g_dot_left x y T1 T2 v ws : A !! x = Some T1 -> A !! y = Some T2 -> pair_ok T1 T2 -> init T1 -> init T2 ->
    a_dims T1 = [] -> a_vals T1 = [v] -> prodZ (a_dims T2) <= INT_MAX ->
    (forall z, v = VI z -> Z.abs z <= 2 ^ 53) -> Forall (op_defined (a_type T1) OpMul v) (a_vals T2) ->
    Forall2 (fun u w => bin_spec (a_type T1) OpMul v u (Some w)) (a_vals T2) ws ->
    gives E A r (KDot x y) (AT (a_type T1) (a_dev T1) (a_dims T2) ws) 0
| g_dot_right x y T1 T2 v ws : A !! x = Some T1 -> A !! y = Some T2 -> pair_ok T1 T2 -> init T1 -> init T2 ->
    a_dims T2 = [] -> a_vals T2 = [v] -> a_dims T1 <> [] -> prodZ (a_dims T1) <= INT_MAX ->
    (forall z, v = VI z -> Z.abs z <= 2 ^ 53) -> Forall (op_defined (a_type T1) OpMul v) (a_vals T1) ->
    Forall2 (fun u w => bin_spec (a_type T1) OpMul v u (Some w)) (a_vals T1) ws ->
    gives E A r (KDot x y) (AT (a_type T1) (a_dev T1) (a_dims T1) ws) 0
| g_relu x T ws : A !! x = Some T -> init T -> Forall2 (relu_spec (a_type T)) (a_vals T) ws ->
    gives E A r (KRelu x) (AT (a_type T) (a_dev T) (a_dims T) ws) 0
| g_sigmoid x T ws : A !! x = Some T -> init T -> is_float (a_type T) = true ->
    Forall2 (sigmoid_spec (e_exp E) (a_type T)) (a_vals T) ws ->
    gives E A r (KSigmoid x) (AT (a_type T) (a_dev T) (a_dims T) ws) 0
| g_tanh x T ws : A !! x = Some T -> init T -> is_float (a_type T) = true ->
    Forall2 (tanh_spec (e_exp E) (a_type T)) (a_vals T) ws ->
    gives E A r (KTanh x) (AT (a_type T) (a_dev T) (a_dims T) ws) 0
| g_softmax_all x T ws : A !! x = Some T -> softmax_lane (e_exp E) (a_type T) (a_vals T) = Some ws ->
    gives E A r (KSoftmax x (-1)) (AT (a_type T) (a_dev T) (a_dims T) ws) 0
| g_softmax x T T3 a d : A !! x = Some T -> Forall (fun d => 0 < d) (a_dims T) -> 2 * prodZ (a_dims T) <= INT64_MAX ->
    a_dims T !! a = Some d -> like T T3 -> a_dims T3 = a_dims T ->
    (forall c j, in_box (a_dims T) c -> c !! a = Some j ->
       exists ys, softmax_lane (e_exp E) (a_type T) (lane T a c) = Some ys /\ ys !! Z.to_nat j = Some (at_ T3 c)) ->
    gives E A r (KSoftmax x (Z.of_nat a)) T3 0
| g_dropout x T T' rate : A !! x = Some T -> a_dims T <> [] -> ints_pos (a_dims T) -> prodZ (a_dims T) <= INT_MAX ->
    rate_ok rate -> a_type T' = a_type T -> a_dev T' = a_dev T -> a_dims T' = a_dims T ->
    length (a_vals T') = length (a_vals T) ->
    (forall i v w, a_vals T !! i = Some v -> a_vals T' !! i = Some w ->
       (e_rand E (r + i) mod 100 + 1 <= drop_line rate -> w = zero_val (a_type T)) /\
       (drop_line rate < e_rand E (r + i) mod 100 + 1 -> w = v)) ->
    gives E A r (KDropout x rate) T' (length (a_vals T))
| g_pooling x T T3 m nb nc sd ks ss ps ls : A !! x = Some T -> m = PAvg \/ m = PMax ->
    a_dims T = nb :: nc :: sd -> (1 <= length sd <= 3)%nat -> win_ok sd ks ss ps ls ->
    prodZ ks <= INT64_MAX -> prodZ (win_outs sd ks ss ps ls) <= INT_MAX ->
    (Z.to_nat (prodZ ks) <= e_fuel E)%nat -> (Z.to_nat (prodZ (win_outs sd ks ss ps ls)) <= e_fuel E)%nat ->
    like T T3 -> a_dims T3 = nb :: nc :: win_outs sd ks ss ps ls ->
    (forall b c z, in_box (a_dims T3) (b :: c :: z) ->
       match m with PAvg => pool_avg (a_type T) (prodZ ks) | _ => pool_max0 (a_type T) end
         (window T ks ss ps ls b c z) = Some (at_ T3 (b :: c :: z))) ->
    gives E A r (KPooling x m ks ss ps ls) T3 0
| g_conv c x f T F T3 nb nc oc fc sd ks ss ps ls g : A !! x = Some T -> A !! f = Some F ->
    c = KConv x f ss ps ls g \/ c = KConv2d x f ss ps ls g /\ length (a_dims T) = 4%nat \/
      c = KConv3d x f ss ps ls g /\ length (a_dims T) = 5%nat ->
    conv_status E = SUCCESS -> a_type T = F32 -> a_type F = F32 ->
    a_dims T = nb :: nc :: sd -> a_dims F = oc :: fc :: ks -> nc <= fc -> 0 < nc ->
    (length sd <= 3)%nat -> win_ok sd ks ss ps ls ->
    like T T3 -> a_dims T3 = nb :: oc :: win_outs sd ks ss ps ls ->
    (forall b c z, in_box (a_dims T3) (b :: c :: z) ->
       mac_all F32 (zero_val F32) (conv_terms T F ss ps ls nc b c z) = Some (at_ T3 (b :: c :: z))) ->
    gives E A r c T3 0
| g_batch_norm x a b c d axis eps T Sc Bi Me Va T3 ds :
    A !! x = Some T -> A !! a = Some Sc -> A !! b = Some Bi -> A !! c = Some Me -> A !! d = Some Va ->
    bn_ok T axis Sc Bi Me Va eps -> bn_sizes T axis -> init Va ->
    Forall (fun U => dev_type (a_dev U) = 0) [T; Sc; Bi; Me; Va] ->
    (forall k, 0 <= k < nth (Z.to_nat axis) (a_dims T) 0 -> bn_den (a_type T) eps (at_ Va [k]) (ds k)) ->
    like T T3 -> a_dims T3 = a_dims T ->
    (forall z, in_box (a_dims T) z -> let k := chan axis z in
       bn_out (a_type T) (ds k) (at_ Sc [k]) (at_ Bi [k]) (at_ Me [k]) (at_ T z) = Some (at_ T3 z)) ->
    gives E A r (KBatchNorm x axis a b c d eps) T3 0.

(** [refused A c st]: the call reports [st] and changes nothing at all (for a cast
    to the type the tensor already has, [st] is SUCCESS). *)
Inductive refused (A : vars) : call -> status -> Prop :=
| r_cast x T : A !! x = Some T -> refused A (KCast x (a_type T)) SUCCESS
| r_reshape x T dims : A !! x = Some T -> (forall k, INT64_MIN <= prodZ (take k dims) <= INT64_MAX) ->
    Z.of_nat (length dims) <= INT_MAX -> prodZ dims <> prodZ (a_dims T) ->
    refused A (KReshape x dims) DIMENSIONS_MISMATCH
| r_squeeze x T axis : A !! x = Some T -> Exists (fun a => a < 0) axis ->
    refused A (KSqueeze x axis) INVALID_ARGUMENT
| r_slice x T bs ss ts : A !! x = Some T ->
    length bs = length (a_dims T) -> length ss = length (a_dims T) -> length ts = length (a_dims T) ->
    Forall (fun z => INT_MIN <= z <= INT_MAX) bs -> Forall (fun z => z <= INT_MAX) ts ->
    Forall2 (fun b s => b + s <= INT_MAX) bs ss -> ~ slice_ok (a_dims T) bs ss ts ->
    refused A (KSlice x bs ss ts) INVALID_ARGUMENT
| r_binary_cpu op x y T1 T2 : A !! x = Some T1 -> A !! y = Some T2 ->
    ~ (dev_type (a_dev T1) = 0 /\ dev_type (a_dev T2) = 0) -> refused A (KBinary op x y) NOT_SUPPORTED
| r_binary_type op x y T1 T2 : A !! x = Some T1 -> A !! y = Some T2 ->
    dev_type (a_dev T1) = 0 -> dev_type (a_dev T2) = 0 -> a_type T1 <> a_type T2 ->
    refused A (KBinary op x y) TYPE_MISMATCH
| r_binary_dims op x y T1 T2 : A !! x = Some T1 -> A !! y = Some T2 -> pair_ok T1 T2 ->
    a_dims T1 <> a_dims T2 -> refused A (KBinary op x y) INVALID_ARGUMENT
| r_matmul_cpu x y T1 T2 : A !! x = Some T1 -> A !! y = Some T2 ->
    dev_type (a_dev T1) <> 0 \/ dev_type (a_dev T2) <> 0 -> refused A (KMatmul x y) NOT_SUPPORTED
| r_matmul_scalar x y T1 T2 : A !! x = Some T1 -> A !! y = Some T2 ->
    dev_type (a_dev T1) = 0 -> dev_type (a_dev T2) = 0 -> a_dims T1 = [] \/ a_dims T2 = [] ->
    refused A (KMatmul x y) INVALID_ARGUMENT
| r_matmul_dims x y T1 T2 k1 k2 : A !! x = Some T1 -> A !! y = Some T2 ->
    dev_type (a_dev T1) = 0 -> dev_type (a_dev T2) = 0 -> (exists b1, a_dims T1 = b1 ++ [k1]) ->
    (a_dims T2 = [k2] \/ exists b2 n, a_dims T2 = b2 ++ [k2; n]) -> k1 <> k2 ->
    refused A (KMatmul x y) DIMENSIONS_MISMATCH
| r_dot_type x y T1 T2 : A !! x = Some T1 -> A !! y = Some T2 ->
    dev_type (a_dev T1) = 0 -> dev_type (a_dev T2) = 0 -> a_type T1 <> a_type T2 ->
    refused A (KDot x y) NOT_SUPPORTED
| r_dot_vv x y T1 T2 k1 k2 : A !! x = Some T1 -> A !! y = Some T2 -> pair_ok T1 T2 ->
    a_dims T1 = [k1] -> a_dims T2 = [k2] -> k1 <> k2 -> refused A (KDot x y) DIMENSIONS_MISMATCH
| r_dot_tv x y T1 T2 b k1 k2 : A !! x = Some T1 -> A !! y = Some T2 -> pair_ok T1 T2 ->
    b <> [] -> a_dims T1 = b ++ [k1] -> a_dims T2 = [k2] -> k1 <> k2 -> refused A (KDot x y) INVALID_ARGUMENT
| r_dot_tt x y T1 T2 b1 b2 k1 k2 n : A !! x = Some T1 -> A !! y = Some T2 -> pair_ok T1 T2 ->
    (2 <= length b1)%nat -> (1 <= length b2)%nat -> a_dims T1 = b1 ++ [k1] -> a_dims T2 = b2 ++ [k2; n] ->
    k1 <> k2 -> refused A (KDot x y) INVALID_ARGUMENT
| r_dot_ranks x y T1 T2 : A !! x = Some T1 -> A !! y = Some T2 -> pair_ok T1 T2 ->
    (a_dims T1 <> [] /\ (length (a_dims T1) <= 2)%nat /\ (3 <= length (a_dims T2))%nat \/
     length (a_dims T1) <> 2%nat /\ a_dims T1 <> [] /\ length (a_dims T2) = 2%nat) ->
    refused A (KDot x y) INVALID_ARGUMENT
| r_softmax x T axis : A !! x = Some T -> axis < -1 \/ Z.of_nat (length (a_dims T)) <= axis ->
    refused A (KSoftmax x axis) NOT_SUPPORTED
| r_dropout x T rate : A !! x = Some T -> rate_bad rate -> refused A (KDropout x rate) INVALID_ARGUMENT
| r_pooling x T m ks ss ps ls : A !! x = Some T -> (length (a_dims T) < 3 \/ 5 < length (a_dims T))%nat ->
    refused A (KPooling x m ks ss ps ls) DIMENSIONS_MISMATCH
| r_conv x f T F ss ps ls g : A !! x = Some T -> A !! f = Some F -> a_type T <> F32 ->
    refused A (KConv x f ss ps ls g) NOT_SUPPORTED
| r_conv2d x f T F ss ps ls g : A !! x = Some T -> A !! f = Some F -> length (a_dims T) <> 4%nat ->
    refused A (KConv2d x f ss ps ls g) DIMENSIONS_MISMATCH
| r_conv3d x f T F ss ps ls g : A !! x = Some T -> A !! f = Some F -> length (a_dims T) <> 5%nat ->
    refused A (KConv3d x f ss ps ls g) DIMENSIONS_MISMATCH
| r_batch_norm x a b c d axis eps T Sc Bi Me Va :
    A !! x = Some T -> A !! a = Some Sc -> A !! b = Some Bi -> A !! c = Some Me -> A !! d = Some Va ->
    bn_verdict T axis Sc Bi Me Va eps <> SUCCESS ->
    refused A (KBatchNorm x axis a b c d eps) (bn_verdict T axis Sc Bi Me Va eps).

(** [fails E A c st]: the call reports the error [st], may leave something else in
    its output variable and may leak memory. *)
Inductive fails (E : env) (A : vars) : call -> status -> Prop :=
| f_sqrt x T : A !! x = Some T -> init T -> Exists negative (a_vals T) -> fails E A (KSqrt x) MATH_ERROR
| f_sigmoid x T : A !! x = Some T -> is_float (a_type T) = false -> fails E A (KSigmoid x) NOT_SUPPORTED
| f_tanh x T : A !! x = Some T -> is_float (a_type T) = false -> fails E A (KTanh x) NOT_SUPPORTED
| f_duplicate x T : A !! x = Some T -> Forall (fun d => d <= INT_MAX) (a_dims T) -> 0 ∈ a_dims T ->
    fails E A (KDuplicate x) INVALID_ARGUMENT
| f_matmul x y T1 T2 b1 b2 m k n : A !! x = Some T1 -> A !! y = Some T2 ->
    dev_type (a_dev T1) = 0 -> dev_type (a_dev T2) = 0 ->
    a_dims T1 = b1 ++ [m; k] -> a_dims T2 = b2 ++ [k; n] -> bcast b1 b2 = None ->
    fails E A (KMatmul x y) DIMENSIONS_MISMATCH
| f_pooling x T m nb nc sd ks ss ps ls : A !! x = Some T ->
    a_dims T = nb :: nc :: sd -> (1 <= length sd <= 3)%nat -> Forall (fun d => d <= 2 ^ 62) sd ->
    length ks = length sd -> length ps = length sd -> length ls = length sd ->
    (forall i k q l, ks !! i = Some k -> ps !! i = Some q -> ls !! i = Some l -> sane1 k q l) ->
    (exists i d k q l, sd !! i = Some d /\ ks !! i = Some k /\ ps !! i = Some q /\ ls !! i = Some l /\
       d + 2 * q < l * (k - 1) + 1) ->
    fails E A (KPooling x m ks ss ps ls) INVALID_ARGUMENT.

(** One command: from values [A] and [r] random numbers drawn so far, with the
    status reported; the last argument tells whether nothing is leaked. *)
Inductive astep (E : env) : vars * nat -> cmd -> status -> vars * nat -> bool -> Prop :=
| a_gives A r x c T k : gives E A r c T k ->
    astep E (A, r) (Call x c) SUCCESS (<[x := T]> A, (r + k)%nat) (bool_decide (A !! x = None))
| a_refused A r x c st : refused A c st -> astep E (A, r) (Call x c) st (A, r) true
| a_fails A r x c st : fails E A c st -> astep E (A, r) (Call x c) st (delete x A, r) false
| a_set A r x T i v : A !! x = Some T -> (i < length (a_vals T))%nat ->
    astep E (A, r) (SetItem x i (a_type T) v) SUCCESS
      (<[x := AT (a_type T) (a_dev T) (a_dims T) (<[i := v]> (a_vals T))]> A, r) true
| a_destroy A r x T : A !! x = Some T -> astep E (A, r) (Destroy x) SUCCESS (delete x A, r) true.

Inductive asteps (E : env) : vars * nat -> list cmd -> list status -> vars * nat -> list bool -> Prop :=
| as_nil a : asteps E a [] [] a []
| as_cons a c cs st sts a' a'' b b' : astep E a c st a' b -> asteps E a' cs sts a'' b' ->
    asteps E a (c :: cs) (st :: sts) a'' (b :: b').

(** The program never leaves the specification: at every point, whatever values
    it allows the earlier calls to have produced, it says what the next call does. *)
Fixpoint safe (E : env) (a : vars * nat) (cs : list cmd) : Prop :=
  match cs with
  | [] => True
  | c :: cs => (exists st a' b, astep E a c st a' b) /\ forall st a' b, astep E a c st a' b -> safe E a' cs
  end.
