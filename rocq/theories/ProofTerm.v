(** * ProofTerm: functions without while loops finish, whatever they are called with *)
From stdpp Require Import gmap list.
From Coq Require Import ZArith Lia Floats.SpecFloat.
From Verif Require Import Base Mem Spec ModelCore ModelBasic ModelMath ModelNN.
Open Scope Z_scope.

Definition nodiv {A} (m : M A) : Prop := forall E s, m E s <> Diverge.

Lemma nodiv_ret {A} (a : A) : nodiv (ret a). Proof. done. Qed.
Lemma nodiv_undef {A} u : nodiv (undef u : M A). Proof. done. Qed.
Lemma nodiv_abort {A} : nodiv (abort : M A). Proof. done. Qed.
Lemma nodiv_bind {A B} (m : M A) (k : A -> M B) : nodiv m -> (forall a, nodiv (k a)) -> nodiv (bind m k).
Proof.
  intros Hm Hk E s. unfold bind. specialize (Hm E s). destruct (m E s) as [a s'| | |]; try done. apply Hk.
Qed.
Lemma nodiv_check b u : nodiv (check b u). Proof. by destruct b. Qed.
Lemma nodiv_opt {A} (o : option A) u : nodiv (opt o u). Proof. by destruct o. Qed.
Lemma nodiv_assert b : nodiv (assert_ b). Proof. by destruct b. Qed.
Lemma nodiv_ask {A} (f : env -> A) : nodiv (ask f). Proof. done. Qed.
Lemma nodiv_get_heap : nodiv get_heap. Proof. done. Qed.
Lemma nodiv_put_block b x : nodiv (put_block b x). Proof. done. Qed.
Lemma nodiv_alloc_tag tag n c : nodiv (alloc_tag tag n c).
Proof. intros E s. unfold alloc_tag. by destruct (_ && _). Qed.
Lemma nodiv_raw_alloc n c : nodiv (raw_alloc n c).
Proof. intros E s. apply nodiv_alloc_tag. Qed.
Lemma nodiv_free_tag tag p : nodiv (free_tag tag p).
Proof.
  intros E s. unfold free_tag. destruct p as [|b|]; try done.
  destruct (heap s !! b) as [x|]; [|done]. by destruct (bool_decide _).
Qed.
Lemma nodiv_raw_dealloc p : nodiv (raw_dealloc p).
Proof. intros E s. apply nodiv_free_tag. Qed.
Lemma nodiv_deref p : nodiv (deref p).
Proof. intros E s. unfold deref. destruct p as [|b|]; try done. by destruct (heap s !! b). Qed.
Lemma nodiv_iter {S} n i (body : Z -> S -> M S) s : (forall i s, nodiv (body i s)) -> nodiv (iter n i body s).
Proof.
  intros H. revert i s. induction n as [|n IH]; intros i s; [apply nodiv_ret|]. cbn [iter].
  apply nodiv_bind; [apply H|]. intros. apply IH.
Qed.
Lemma nodiv_iter_ret {S R} n i (body : Z -> S -> M (ctl S R)) s : (forall i s, nodiv (body i s)) -> nodiv (iter_ret n i body s).
Proof.
  intros H. revert i s. induction n as [|n IH]; intros i s; [apply nodiv_ret|]. cbn [iter_ret].
  apply nodiv_bind; [apply H|]. intros [x|r]; [apply IH|apply nodiv_ret].
Qed.
Lemma nodiv_iter_down {S} n (body : Z -> S -> M S) s : (forall i s, nodiv (body i s)) -> nodiv (iter_down n body s).
Proof.
  intros H. revert s. induction n as [|n IH]; intros s; [apply nodiv_ret|]. cbn [iter_down].
  apply nodiv_bind; [apply H|]. intros. apply IH.
Qed.
Lemma nodiv_iter_down_break {S} n (body : Z -> S -> M (S * bool)) s : (forall i s, nodiv (body i s)) -> nodiv (iter_down_break n body s).
Proof.
  intros H. revert s. induction n as [|n IH]; intros s; [apply nodiv_ret|]. cbn [iter_down_break].
  apply nodiv_bind; [apply H|]. intros [x []]; [apply IH|apply nodiv_ret].
Qed.
Lemma nodiv_dispatch_all {A} dt (f : tcode -> M A) d : (forall t, nodiv (f t)) -> nodiv d -> nodiv (dispatch_all dt f d).
Proof. intros H1 H2. unfold dispatch_all. repeat case_match; auto. Qed.
Lemma nodiv_dispatch_float {A} dt (f : tcode -> M A) d : (forall t, nodiv (f t)) -> nodiv d -> nodiv (dispatch_float dt f d).
Proof. intros H1 H2. unfold dispatch_float. repeat case_match; auto. Qed.

Ltac head_of t := match t with ?f _ => head_of f | _ => t end.
Ltac nd1 :=
  match goal with
  | |- forall _, _ => intros ?
  | |- nodiv (ret _) => apply nodiv_ret
  | |- nodiv (undef _) => apply nodiv_undef
  | |- nodiv abort => apply nodiv_abort
  | |- nodiv (check _ _) => apply nodiv_check
  | |- nodiv (opt _ _) => apply nodiv_opt
  | |- nodiv (assert_ _) => apply nodiv_assert
  | |- nodiv (ask _) => apply nodiv_ask
  | |- nodiv get_heap => apply nodiv_get_heap
  | |- nodiv (put_block _ _) => apply nodiv_put_block
  | |- nodiv (alloc_tag _ _ _) => apply nodiv_alloc_tag
  | |- nodiv (raw_alloc _ _) => apply nodiv_raw_alloc
  | |- nodiv (free_tag _ _) => apply nodiv_free_tag
  | |- nodiv (raw_dealloc _) => apply nodiv_raw_dealloc
  | |- nodiv (deref _) => apply nodiv_deref
  | |- nodiv (bind _ _) => apply nodiv_bind
  | |- nodiv (iter _ _ _ _) => apply nodiv_iter
  | |- nodiv (iter_ret _ _ _ _) => apply nodiv_iter_ret
  | |- nodiv (iter_down _ _ _) => apply nodiv_iter_down
  | |- nodiv (iter_down_break _ _ _) => apply nodiv_iter_down_break
  | |- nodiv (dispatch_all _ _ _) => apply nodiv_dispatch_all
  | |- nodiv (dispatch_float _ _ _) => apply nodiv_dispatch_float
  | |- nodiv (match ?x with _ => _ end) => destruct x
  | |- nodiv _ => solve [eauto with nd]
  | |- nodiv ?m => let h := head_of m in unfold h; cbv beta
  end.
Ltac nd := intros; repeat nd1; try done.
Create HintDb nd.
Lemma nodiv_size_of_dims (dims : list Z) (ndim : Z) : nodiv (size_of_dims dims ndim).
Proof. nd. Qed.
#[export] Hint Resolve nodiv_size_of_dims : nd.
Lemma nodiv_size_from_dim (k : Z) (dims : list Z) (ndim : Z) : nodiv (size_from_dim k dims ndim).
Proof. nd. Qed.
#[export] Hint Resolve nodiv_size_from_dim : nd.
Lemma nodiv_size_to_dim (k : Z) (dims : list Z) (ndim : Z) : nodiv (size_to_dim k dims ndim).
Proof. nd. Qed.
#[export] Hint Resolve nodiv_size_to_dim : nd.
Lemma nodiv_size_between_dim (k l : Z) (dims : list Z) (ndim : Z) : nodiv (size_between_dim k l dims ndim).
Proof. nd. Qed.
#[export] Hint Resolve nodiv_size_between_dim : nd.
Lemma nodiv_fill_ints (p : hval) (cap : Z) (l : list Z) : nodiv (fill_ints p cap l).
Proof. nd. Qed.
#[export] Hint Resolve nodiv_fill_ints : nd.
Lemma nodiv_create_default_layout (ltype ndim : Z) : nodiv (create_default_layout ltype ndim).
Proof. nd. Qed.
#[export] Hint Resolve nodiv_create_default_layout : nd.
Lemma nodiv_create_shape (ltype : Z) (dims : list Z) (ndim : Z) : nodiv (create_shape ltype dims ndim).
Proof. nd. Qed.
#[export] Hint Resolve nodiv_create_shape : nd.
Lemma nodiv_destroy_layout (min2maj : hval) : nodiv (destroy_layout min2maj).
Proof. nd. Qed.
#[export] Hint Resolve nodiv_destroy_layout : nd.
Lemma nodiv_destroy_shape (dims min2maj : hval) : nodiv (destroy_shape dims min2maj).
Proof. nd. Qed.
#[export] Hint Resolve nodiv_destroy_shape : nd.
Lemma nodiv_create_storage (dt : dtype) (dev : device) (size : Z) (data : hval) : nodiv (create_storage dt dev size data).
Proof. nd. Qed.
#[export] Hint Resolve nodiv_create_storage : nd.
Lemma nodiv_destroy_storage (storage : hval) : nodiv (destroy_storage storage).
Proof. nd. Qed.
#[export] Hint Resolve nodiv_destroy_storage : nd.
Lemma nodiv_tensor_ndim (t : hval) : nodiv (tensor_ndim t).
Proof. nd. Qed.
#[export] Hint Resolve nodiv_tensor_ndim : nd.
Lemma nodiv_int_array (p : hval) : nodiv (int_array p).
Proof. nd. Qed.
#[export] Hint Resolve nodiv_int_array : nd.
Lemma nodiv_tensor_dims (t : hval) : nodiv (tensor_dims t).
Proof. nd. Qed.
#[export] Hint Resolve nodiv_tensor_dims : nd.
Lemma nodiv_tensor_min2maj (t : hval) : nodiv (tensor_min2maj t).
Proof. nd. Qed.
#[export] Hint Resolve nodiv_tensor_min2maj : nd.
Lemma nodiv_tensor_dim (t : hval) (d : Z) : nodiv (tensor_dim t d).
Proof. nd. Qed.
#[export] Hint Resolve nodiv_tensor_dim : nd.
Lemma nodiv_tensor_size (t : hval) : nodiv (tensor_size t).
Proof. nd. Qed.
#[export] Hint Resolve nodiv_tensor_size : nd.
Lemma nodiv_tensor_storage (t : hval) : nodiv (tensor_storage t).
Proof. nd. Qed.
#[export] Hint Resolve nodiv_tensor_storage : nd.
Lemma nodiv_tensor_dtype (t : hval) : nodiv (tensor_dtype t).
Proof. nd. Qed.
#[export] Hint Resolve nodiv_tensor_dtype : nd.
Lemma nodiv_tensor_data (t : hval) : nodiv (tensor_data t).
Proof. nd. Qed.
#[export] Hint Resolve nodiv_tensor_data : nd.
Lemma nodiv_tensor_device (t : hval) : nodiv (tensor_device t).
Proof. nd. Qed.
#[export] Hint Resolve nodiv_tensor_device : nd.
Lemma nodiv_aitisa_tensor_set_item (t : hval) (idx : Z) (bs : list mv) : nodiv (aitisa_tensor_set_item t idx bs).
Proof. nd. Qed.
#[export] Hint Resolve nodiv_aitisa_tensor_set_item : nd.
Lemma nodiv_aitisa_create (dt : dtype) (dev : device) (dims : list Z) (ndim : Z) (data : hval) (len : Z) (o : hval) : nodiv (aitisa_create dt dev dims ndim data len o).
Proof. nd. Qed.
#[export] Hint Resolve nodiv_aitisa_create : nd.
Lemma nodiv_aitisa_destroy (v : hval) : nodiv (aitisa_destroy v).
Proof. nd. Qed.
#[export] Hint Resolve nodiv_aitisa_destroy : nd.
Lemma nodiv_aitisa_resolve (t : hval) : nodiv (aitisa_resolve t).
Proof. nd. Qed.
#[export] Hint Resolve nodiv_aitisa_resolve : nd.
Lemma nodiv_type_table (dt : dtype) : nodiv (type_table dt).
Proof. nd. Qed.
#[export] Hint Resolve nodiv_type_table : nd.
Lemma nodiv_castto_in_place (dt : dtype) (d : spec_float) : nodiv (castto_in_place dt d).
Proof. nd. Qed.
#[export] Hint Resolve nodiv_castto_in_place : nd.
Lemma nodiv_aitisa_get_stride (t : hval) (dimension : Z) : nodiv (aitisa_get_stride t dimension).
Proof. nd. Qed.
#[export] Hint Resolve nodiv_aitisa_get_stride : nd.
Lemma nodiv_aitisa_get_all_strides (t : hval) (strides : list Z) : nodiv (aitisa_get_all_strides t strides).
Proof. nd. Qed.
#[export] Hint Resolve nodiv_aitisa_get_all_strides : nd.
Lemma nodiv_assert_coords (ndim : Z) (dims coords : list Z) (len : Z) : nodiv (assert_coords ndim dims coords len).
Proof. nd. Qed.
#[export] Hint Resolve nodiv_assert_coords : nd.
Lemma nodiv_aitisa_coords_to_linidx (t : hval) (coords : list Z) (len : Z) : nodiv (aitisa_coords_to_linidx t coords len).
Proof. nd. Qed.
#[export] Hint Resolve nodiv_aitisa_coords_to_linidx : nd.
Lemma nodiv_aitisa_linidx_to_coords (t : hval) (linidx : Z) (coords : list Z) : nodiv (aitisa_linidx_to_coords t linidx coords).
Proof. nd. Qed.
#[export] Hint Resolve nodiv_aitisa_linidx_to_coords : nd.
Lemma nodiv_aitisa_coords_to_offset (t : hval) (coords : list Z) (len : Z) : nodiv (aitisa_coords_to_offset t coords len).
Proof. nd. Qed.
#[export] Hint Resolve nodiv_aitisa_coords_to_offset : nd.
Lemma nodiv_aitisa_offset_to_coords (t : hval) (offset : Z) (coords : list Z) : nodiv (aitisa_offset_to_coords t offset coords).
Proof. nd. Qed.
#[export] Hint Resolve nodiv_aitisa_offset_to_coords : nd.
Lemma nodiv_aitisa_broadcast_array (d1 : list Z) (n1 : Z) (d2 : list Z) (n2 : Z) (out : list (option Z)) (nout : Z) : nodiv (aitisa_broadcast_array d1 n1 d2 n2 out nout).
Proof. nd. Qed.
#[export] Hint Resolve nodiv_aitisa_broadcast_array : nd.
Lemma nodiv_cast_kernel (t2 t1 : tcode) (ind outd : hval) (size : Z) : nodiv (cast_kernel t2 t1 ind outd size).
Proof. nd. Qed.
#[export] Hint Resolve nodiv_cast_kernel : nd.
Lemma nodiv_cast_template (input : hval) (out_dt : dtype) (o : hval) : nodiv (cast_template input out_dt o).
Proof. nd. Qed.
#[export] Hint Resolve nodiv_cast_template : nd.
Lemma nodiv_aitisa_cast (input : hval) (dt : dtype) (o : hval) : nodiv (aitisa_cast input dt o).
Proof. nd. Qed.
#[export] Hint Resolve nodiv_aitisa_cast : nd.
Lemma nodiv_aitisa_full (dt : dtype) (dev : device) (dims : list Z) (ndim : Z) (value : spec_float) (o : hval) : nodiv (aitisa_full dt dev dims ndim value o).
Proof. nd. Qed.
#[export] Hint Resolve nodiv_aitisa_full : nd.
Lemma nodiv_aitisa_reshape (input : hval) (dims : list Z) (ndim : Z) (o : hval) : nodiv (aitisa_reshape input dims ndim o).
Proof. nd. Qed.
#[export] Hint Resolve nodiv_aitisa_reshape : nd.
Lemma nodiv_aitisa_squeeze (input : hval) (axis : list Z) (num_axis : Z) (o : hval) : nodiv (aitisa_squeeze input axis num_axis o).
Proof. nd. Qed.
#[export] Hint Resolve nodiv_aitisa_squeeze : nd.
Lemma nodiv_slice_extent (size step : Z) : nodiv (slice_extent size step).
Proof. nd. Qed.
#[export] Hint Resolve nodiv_slice_extent : nd.
Lemma nodiv_slice_create_output (input : hval) (begin size step : list Z) (o : hval) : nodiv (slice_create_output input begin size step o).
Proof. nd. Qed.
#[export] Hint Resolve nodiv_slice_create_output : nd.
Lemma nodiv_slice_check_parameters (input : hval) (begin size step : list Z) : nodiv (slice_check_parameters input begin size step).
Proof. nd. Qed.
#[export] Hint Resolve nodiv_slice_check_parameters : nd.
Lemma nodiv_slice_advance (in_ndim : Z) (begin step boundary idx : list Z) : nodiv (slice_advance in_ndim begin step boundary idx).
Proof. nd. Qed.
#[export] Hint Resolve nodiv_slice_advance : nd.
Lemma nodiv_slice_kernel (t : tcode) (input o : hval) (in_ndim : Z) (begin step idx0 boundary offs : list Z) : nodiv (slice_kernel t input o in_ndim begin step idx0 boundary offs).
Proof. nd. Qed.
#[export] Hint Resolve nodiv_slice_kernel : nd.
Lemma nodiv_slice_template (input : hval) (begin size step : list Z) (o : hval) : nodiv (slice_template input begin size step o).
Proof. nd. Qed.
#[export] Hint Resolve nodiv_slice_template : nd.
Lemma nodiv_aitisa_slice (input : hval) (begin size step : list Z) (o : hval) : nodiv (aitisa_slice input begin size step o).
Proof. nd. Qed.
#[export] Hint Resolve nodiv_aitisa_slice : nd.
Lemma nodiv_aitisa_duplicate (input : hval) (o : hval) : nodiv (aitisa_duplicate input o).
Proof. nd. Qed.
#[export] Hint Resolve nodiv_aitisa_duplicate : nd.
Lemma nodiv_aitisa_binary_op (op : binop) (t1 t2 : hval) (o : hval) : nodiv (aitisa_binary_op op t1 t2 o).
Proof. nd. Qed.
#[export] Hint Resolve nodiv_aitisa_binary_op : nd.
Lemma nodiv_sqrt_create_output (input o : hval) : nodiv (sqrt_create_output input o).
Proof. nd. Qed.
#[export] Hint Resolve nodiv_sqrt_create_output : nd.
Lemma nodiv_sqrt_kernel (t : tcode) (input o : hval) (size : Z) : nodiv (sqrt_kernel t input o size).
Proof. nd. Qed.
#[export] Hint Resolve nodiv_sqrt_kernel : nd.
Lemma nodiv_aitisa_sqrt (input o : hval) : nodiv (aitisa_sqrt input o).
Proof. nd. Qed.
#[export] Hint Resolve nodiv_aitisa_sqrt : nd.
Lemma nodiv_batch_strides (dims : list Z) (ndim : Z) (strides : list (option Z)) (nstride : Z) : nodiv (batch_strides dims ndim strides nstride).
Proof. nd. Qed.
#[export] Hint Resolve nodiv_batch_strides : nd.
Lemma nodiv_mac (t : tcode) (A : hval) (oa ai : Z) (B : hval) (ob bi : Z) (C : hval) (oc ci : Z) : nodiv (mac t A oa ai B ob bi C oc ci).
Proof. nd. Qed.
#[export] Hint Resolve nodiv_mac : nd.
Lemma nodiv_vv_kernel (t : tcode) (X Y Z0 : hval) (L : Z) : nodiv (vv_kernel t X Y Z0 L).
Proof. nd. Qed.
#[export] Hint Resolve nodiv_vv_kernel : nd.
Lemma nodiv_mv_kernel (t : tcode) (A X B : hval) (m n : Z) : nodiv (mv_kernel t A X B m n).
Proof. nd. Qed.
#[export] Hint Resolve nodiv_mv_kernel : nd.
Lemma nodiv_mm_kernel (t : tcode) (A : hval) (oa : Z) (B : hval) (ob : Z) (C : hval) (oc : Z) (m k n : Z) : nodiv (mm_kernel t A oa B ob C oc m k n).
Proof. nd. Qed.
#[export] Hint Resolve nodiv_mm_kernel : nd.
Lemma nodiv_batch_mm_kernel (t : tcode) (A : hval) (As : list Z) (B : hval) (Bs : list Z) (C : hval) (Cs : list Z) (m k n n_batch : Z) : nodiv (batch_mm_kernel t A As B Bs C Cs m k n n_batch).
Proof. nd. Qed.
#[export] Hint Resolve nodiv_batch_mm_kernel : nd.
Lemma nodiv_vv_template (dt : dtype) (X Y Z0 : hval) (L : Z) : nodiv (vv_template dt X Y Z0 L).
Proof. nd. Qed.
#[export] Hint Resolve nodiv_vv_template : nd.
Lemma nodiv_mv_template (dt : dtype) (A X B : hval) (m n : Z) : nodiv (mv_template dt A X B m n).
Proof. nd. Qed.
#[export] Hint Resolve nodiv_mv_template : nd.
Lemma nodiv_mm_template (dt : dtype) (A B C : hval) (m k n : Z) : nodiv (mm_template dt A B C m k n).
Proof. nd. Qed.
#[export] Hint Resolve nodiv_mm_template : nd.
Lemma nodiv_batch_mm_template (dt : dtype) (A : hval) (As : list Z) (B : hval) (Bs : list Z) (C : hval) (Cs : list Z) (m k n n_batch : Z) : nodiv (batch_mm_template dt A As B Bs C Cs m k n n_batch).
Proof. nd. Qed.
#[export] Hint Resolve nodiv_batch_mm_template : nd.
Lemma nodiv_batch_offset (dims_out s1 s2 : list Z) (ndim_batch : Z) (i : Z) : nodiv (batch_offset dims_out s1 s2 ndim_batch i).
Proof. nd. Qed.
#[export] Hint Resolve nodiv_batch_offset : nd.
Lemma nodiv_zeros_like (tensor1 : hval) (dims : list Z) (ndim : Z) (o : hval) : nodiv (zeros_like tensor1 dims ndim o).
Proof. nd. Qed.
#[export] Hint Resolve nodiv_zeros_like : nd.
Lemma nodiv_matmul_vv (t1 t2 o : hval) : nodiv (matmul_vv t1 t2 o).
Proof. nd. Qed.
#[export] Hint Resolve nodiv_matmul_vv : nd.
Lemma nodiv_matmul_mv (t1 t2 o : hval) : nodiv (matmul_mv t1 t2 o).
Proof. nd. Qed.
#[export] Hint Resolve nodiv_matmul_mv : nd.
Lemma nodiv_matmul_mm (t1 t2 o : hval) : nodiv (matmul_mm t1 t2 o).
Proof. nd. Qed.
#[export] Hint Resolve nodiv_matmul_mm : nd.
Lemma nodiv_matmul_vm (t1 t2 o : hval) : nodiv (matmul_vm t1 t2 o).
Proof. nd. Qed.
#[export] Hint Resolve nodiv_matmul_vm : nd.
Lemma nodiv_matmul_tv (t1 t2 o : hval) (nd1 : Z) : nodiv (matmul_tv t1 t2 o nd1).
Proof. nd. Qed.
#[export] Hint Resolve nodiv_matmul_tv : nd.
Lemma nodiv_matmul_vt (t1 t2 o : hval) (nd2 : Z) : nodiv (matmul_vt t1 t2 o nd2).
Proof. nd. Qed.
#[export] Hint Resolve nodiv_matmul_vt : nd.
Lemma nodiv_matmul_tt (t1 t2 o : hval) (nd1 nd2 : Z) : nodiv (matmul_tt t1 t2 o nd1 nd2).
Proof. nd. Qed.
#[export] Hint Resolve nodiv_matmul_tt : nd.
Lemma nodiv_aitisa_matmul (t1 t2 o : hval) : nodiv (aitisa_matmul t1 t2 o).
Proof. nd. Qed.
#[export] Hint Resolve nodiv_aitisa_matmul : nd.
Lemma nodiv_dot_kernel (t : tcode) (d1 d2 : hval) (size : Z) (d_o : hval) : nodiv (dot_kernel t d1 d2 size d_o).
Proof. nd. Qed.
#[export] Hint Resolve nodiv_dot_kernel : nd.
Lemma nodiv_dot_get_value (t : hval) (idx : Z) : nodiv (dot_get_value t idx).
Proof. nd. Qed.
#[export] Hint Resolve nodiv_dot_get_value : nd.
Lemma nodiv_scalar_tensor_mul (t1 t2 o : hval) : nodiv (scalar_tensor_mul t1 t2 o).
Proof. nd. Qed.
#[export] Hint Resolve nodiv_scalar_tensor_mul : nd.
Lemma nodiv_vector_vector_dot (t1 t2 o : hval) : nodiv (vector_vector_dot t1 t2 o).
Proof. nd. Qed.
#[export] Hint Resolve nodiv_vector_vector_dot : nd.
Lemma nodiv_dot_advance (n : nat) (skip : Z) (dims idx : list Z) : nodiv (dot_advance n skip dims idx).
Proof. nd. Qed.
#[export] Hint Resolve nodiv_dot_advance : nd.
Lemma nodiv_tensor_vector_dot (t1 t2 o : hval) : nodiv (tensor_vector_dot t1 t2 o).
Proof. nd. Qed.
#[export] Hint Resolve nodiv_tensor_vector_dot : nd.
Lemma nodiv_multidim_dot (t1 t2 o : hval) : nodiv (multidim_dot t1 t2 o).
Proof. nd. Qed.
#[export] Hint Resolve nodiv_multidim_dot : nd.
Lemma nodiv_aitisa_dot (t1 t2 o : hval) : nodiv (aitisa_dot t1 t2 o).
Proof. nd. Qed.
#[export] Hint Resolve nodiv_aitisa_dot : nd.
Lemma nodiv_nn_create_like (input o : hval) : nodiv (nn_create_like input o).
Proof. nd. Qed.
#[export] Hint Resolve nodiv_nn_create_like : nd.
Lemma nodiv_relu_elem (t : tcode) (v : val) : nodiv (relu_elem t v).
Proof. nd. Qed.
#[export] Hint Resolve nodiv_relu_elem : nd.
Lemma nodiv_aitisa_relu (input o : hval) : nodiv (aitisa_relu input o).
Proof. nd. Qed.
#[export] Hint Resolve nodiv_aitisa_relu : nd.
Lemma nodiv_exp_of (t : tcode) (v : val) : nodiv (exp_of t v).
Proof. nd. Qed.
#[export] Hint Resolve nodiv_exp_of : nd.
Lemma nodiv_sigmoid_elem (t : tcode) (v : val) : nodiv (sigmoid_elem t v).
Proof. nd. Qed.
#[export] Hint Resolve nodiv_sigmoid_elem : nd.
Lemma nodiv_aitisa_sigmoid (input o : hval) : nodiv (aitisa_sigmoid input o).
Proof. nd. Qed.
#[export] Hint Resolve nodiv_aitisa_sigmoid : nd.
Lemma nodiv_tanh_elem (t : tcode) (v : val) : nodiv (tanh_elem t v).
Proof. nd. Qed.
#[export] Hint Resolve nodiv_tanh_elem : nd.
Lemma nodiv_aitisa_tanh (input o : hval) : nodiv (aitisa_tanh input o).
Proof. nd. Qed.
#[export] Hint Resolve nodiv_aitisa_tanh : nd.
Lemma nodiv_rand_  : nodiv (rand_ ).
Proof. nd. Qed.
#[export] Hint Resolve nodiv_rand_ : nd.
Lemma nodiv_dropout_kernel (t : tcode) (tensor : hval) (size rate_line : Z) : nodiv (dropout_kernel t tensor size rate_line).
Proof. nd. Qed.
#[export] Hint Resolve nodiv_dropout_kernel : nd.
Lemma nodiv_int_of_double (x : spec_float) : nodiv (int_of_double x).
Proof. nd. Qed.
#[export] Hint Resolve nodiv_int_of_double : nd.
Lemma nodiv_dropout_template (tensor : hval) (rate : spec_float) : nodiv (dropout_template tensor rate).
Proof. nd. Qed.
#[export] Hint Resolve nodiv_dropout_template : nd.
Lemma nodiv_aitisa_dropout (input : hval) (rate : spec_float) (o : hval) : nodiv (aitisa_dropout input rate o).
Proof. nd. Qed.
#[export] Hint Resolve nodiv_aitisa_dropout : nd.
Lemma nodiv_softmax_create_output (input o : hval) : nodiv (softmax_create_output input o).
Proof. nd. Qed.
#[export] Hint Resolve nodiv_softmax_create_output : nd.
Lemma nodiv_softmax_exps (t : tcode) (ind outd : hval) (start step n : Z) : nodiv (softmax_exps t ind outd start step n).
Proof. nd. Qed.
#[export] Hint Resolve nodiv_softmax_exps : nd.
Lemma nodiv_softmax_norm (t : tcode) (outd : hval) (start step n : Z) (total : spec_float) : nodiv (softmax_norm t outd start step n total).
Proof. nd. Qed.
#[export] Hint Resolve nodiv_softmax_norm : nd.
Lemma nodiv_softmax_with_all (input o : hval) : nodiv (softmax_with_all input o).
Proof. nd. Qed.
#[export] Hint Resolve nodiv_softmax_with_all : nd.
Lemma nodiv_softmax_advance (n : nat) (axis : Z) (dims idx : list Z) : nodiv (softmax_advance n axis dims idx).
Proof. nd. Qed.
#[export] Hint Resolve nodiv_softmax_advance : nd.
Lemma nodiv_lin_index (ndim : Z) (index offset : list Z) : nodiv (lin_index ndim index offset).
Proof. nd. Qed.
#[export] Hint Resolve nodiv_lin_index : nd.
Lemma nodiv_row_offsets (ndim : Z) (dims : list Z) : nodiv (row_offsets ndim dims).
Proof. nd. Qed.
#[export] Hint Resolve nodiv_row_offsets : nd.
Lemma nodiv_softmax_axis_kernel (t : tcode) (input o : hval) (ndim : Z) (dims : list Z) (axis batch element_offset : Z) (offs : list Z) : nodiv (softmax_axis_kernel t input o ndim dims axis batch element_offset offs).
Proof. nd. Qed.
#[export] Hint Resolve nodiv_softmax_axis_kernel : nd.
Lemma nodiv_softmax_along_axis (input : hval) (axis : Z) (o : hval) : nodiv (softmax_along_axis input axis o).
Proof. nd. Qed.
#[export] Hint Resolve nodiv_softmax_along_axis : nd.
Lemma nodiv_aitisa_softmax (input : hval) (axis : Z) (o : hval) : nodiv (aitisa_softmax input axis o).
Proof. nd. Qed.
#[export] Hint Resolve nodiv_aitisa_softmax : nd.
Lemma nodiv_pooling_extent (d k s p dil : Z) : nodiv (pooling_extent d k s p dil).
Proof. nd. Qed.
#[export] Hint Resolve nodiv_pooling_extent : nd.
Lemma nodiv_pooling_create_output (input : hval) (ksize stride padding dilation : list Z) (o : hval) : nodiv (pooling_create_output input ksize stride padding dilation o).
Proof. nd. Qed.
#[export] Hint Resolve nodiv_pooling_create_output : nd.
Lemma nodiv_pool_tail (head k dil : Z) : nodiv (pool_tail head k dil).
Proof. nd. Qed.
#[export] Hint Resolve nodiv_pool_tail : nd.
Lemma nodiv_pool_position (n : Z) (dims strides index : list Z) (bc : Z) : nodiv (pool_position n dims strides index bc).
Proof. nd. Qed.
#[export] Hint Resolve nodiv_pool_position : nd.
Lemma nodiv_pool_kernel (mode : pmode) (t : tcode) (ind : hval) (pos : Z) (temp : spec_float) : nodiv (pool_kernel mode t ind pos temp).
Proof. nd. Qed.
#[export] Hint Resolve nodiv_pool_kernel : nd.
Lemma nodiv_pool_output (mode : pmode) (t : tcode) (outd : hval) (pos : Z) (temp : spec_float) (window_size : Z) : nodiv (pool_output mode t outd pos temp window_size).
Proof. nd. Qed.
#[export] Hint Resolve nodiv_pool_output : nd.
Lemma nodiv_pool_next (n : nat) (dilation head tail index : list Z) : nodiv (pool_next n dilation head tail index).
Proof. nd. Qed.
#[export] Hint Resolve nodiv_pool_next : nd.
Lemma nodiv_pool_slide (n : nat) (dims ksize stride padding dilation : list Z) (head tail : list Z) : nodiv (pool_slide n dims ksize stride padding dilation head tail).
Proof. nd. Qed.
#[export] Hint Resolve nodiv_pool_slide : nd.
Lemma nodiv_pool_init (n : Z) (ksize padding dilation : list Z) : nodiv (pool_init n ksize padding dilation).
Proof. nd. Qed.
#[export] Hint Resolve nodiv_pool_init : nd.
Lemma nodiv_conv_output_dims (in_dims fil_dims stride padding dilation : list Z) (ndim : Z) : nodiv (conv_output_dims in_dims fil_dims stride padding dilation ndim).
Proof. nd. Qed.
#[export] Hint Resolve nodiv_conv_output_dims : nd.
Lemma nodiv_conv_position (sdim : Z) (in_dims base dilation fil tmp : list Z) : nodiv (conv_position sdim in_dims base dilation fil tmp).
Proof. nd. Qed.
#[export] Hint Resolve nodiv_conv_position : nd.
Lemma nodiv_conv_channel (input filter ind fild : hval) (ndim sdim : Z) (in_dims dilation base : list Z) (oc ic fil_space : Z) (acc : val) : nodiv (conv_channel input filter ind fild ndim sdim in_dims dilation base oc ic fil_space acc).
Proof. nd. Qed.
#[export] Hint Resolve nodiv_conv_channel : nd.
Lemma nodiv_conv_element (input filter new ind fild outd : hval) (ndim sdim : Z) (in_dims stride padding dilation : list Z) (b oc out_idx in_chan fil_space : Z) : nodiv (conv_element input filter new ind fild outd ndim sdim in_dims stride padding dilation b oc out_idx in_chan fil_space).
Proof. nd. Qed.
#[export] Hint Resolve nodiv_conv_element : nd.
Lemma nodiv_aitisa_conv_float (input filter : hval) (stride padding dilation : list Z) (o : hval) : nodiv (aitisa_conv_float input filter stride padding dilation o).
Proof. nd. Qed.
#[export] Hint Resolve nodiv_aitisa_conv_float : nd.
Lemma nodiv_aitisa_conv (input filter : hval) (stride padding dilation : list Z) (groups : Z) (o : hval) : nodiv (aitisa_conv input filter stride padding dilation groups o).
Proof. nd. Qed.
#[export] Hint Resolve nodiv_aitisa_conv : nd.
Lemma nodiv_aitisa_conv2d (input filter : hval) (stride padding dilation : list Z) (groups : Z) (o : hval) : nodiv (aitisa_conv2d input filter stride padding dilation groups o).
Proof. nd. Qed.
#[export] Hint Resolve nodiv_aitisa_conv2d : nd.
Lemma nodiv_aitisa_conv3d (input filter : hval) (stride padding dilation : list Z) (groups : Z) (o : hval) : nodiv (aitisa_conv3d input filter stride padding dilation groups o).
Proof. nd. Qed.
#[export] Hint Resolve nodiv_aitisa_conv3d : nd.
Lemma nodiv_batch_norm_check (input : hval) (axis : Z) (scale bias mean variance : hval) (epsilon : spec_float) : nodiv (batch_norm_check input axis scale bias mean variance epsilon).
Proof. nd. Qed.
#[export] Hint Resolve nodiv_batch_norm_check : nd.
Lemma nodiv_batch_norm_create_output (input o : hval) : nodiv (batch_norm_create_output input o).
Proof. nd. Qed.
#[export] Hint Resolve nodiv_batch_norm_create_output : nd.
Lemma nodiv_bn_advance (n : nat) (axis : Z) (dims idx : list Z) : nodiv (bn_advance n axis dims idx).
Proof. nd. Qed.
#[export] Hint Resolve nodiv_bn_advance : nd.
Lemma nodiv_batch_norm_transport (source destination : hval) (idx offs : list Z) (axis : Z) : nodiv (batch_norm_transport source destination idx offs axis).
Proof. nd. Qed.
#[export] Hint Resolve nodiv_batch_norm_transport : nd.
Lemma nodiv_bn_row (input scale bias mean denominator : hval) (begin size step : list Z) (out_data : hval) (ele s : Z) : nodiv (bn_row input scale bias mean denominator begin size step out_data ele s).
Proof. nd. Qed.
#[export] Hint Resolve nodiv_bn_row : nd.
Lemma nodiv_batch_norm_without_channel (input scale bias mean denominator o : hval) : nodiv (batch_norm_without_channel input scale bias mean denominator o).
Proof. nd. Qed.
#[export] Hint Resolve nodiv_batch_norm_without_channel : nd.
Lemma nodiv_bn_channel (input scale bias mean denominator o : hval) (begin size step : list Z) (axis c : Z) (idx offs : list Z) : nodiv (bn_channel input scale bias mean denominator o begin size step axis c idx offs).
Proof. nd. Qed.
#[export] Hint Resolve nodiv_bn_channel : nd.
Lemma nodiv_batch_norm_with_channel (input : hval) (axis : Z) (scales biases means denominators : list hval) (o : hval) : nodiv (batch_norm_with_channel input axis scales biases means denominators o).
Proof. nd. Qed.
#[export] Hint Resolve nodiv_batch_norm_with_channel : nd.

(** ** every public operation but pooling and batch normalisation *)
Lemma operations_terminate : forall a b o E s,
  (forall dt dev dims n d l, aitisa_create dt dev dims n d l o E s <> Diverge) /\
  (forall dt dev dims n v, aitisa_full dt dev dims n v o E s <> Diverge) /\
  aitisa_destroy a E s <> Diverge /\
  aitisa_resolve a E s <> Diverge /\
  (forall dt, aitisa_cast a dt o E s <> Diverge) /\
  (forall dims n, aitisa_reshape a dims n o E s <> Diverge) /\
  (forall axes n, aitisa_squeeze a axes n o E s <> Diverge) /\
  (forall bg sz st, aitisa_slice a bg sz st o E s <> Diverge) /\
  aitisa_duplicate a o E s <> Diverge /\
  (forall op, aitisa_binary_op op a b o E s <> Diverge) /\
  aitisa_sqrt a o E s <> Diverge /\
  aitisa_matmul a b o E s <> Diverge /\
  aitisa_dot a b o E s <> Diverge /\
  aitisa_relu a o E s <> Diverge /\
  aitisa_sigmoid a o E s <> Diverge /\
  aitisa_tanh a o E s <> Diverge /\
  (forall r, aitisa_dropout a r o E s <> Diverge) /\
  (forall axis, aitisa_softmax a axis o E s <> Diverge) /\
  (forall st pd dl g, aitisa_conv2d a b st pd dl g o E s <> Diverge) /\
  (forall st pd dl g, aitisa_conv3d a b st pd dl g o E s <> Diverge).
Proof.
  intros. split_and!; intros; revert E s; match goal with |- forall E s, ?m E s <> _ => change (nodiv m) end; auto with nd.
Qed.
