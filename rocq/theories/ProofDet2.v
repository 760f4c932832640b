(** * ProofDet2: operations that leave the stream of random numbers alone *)
From stdpp Require Import gmap list.
From Coq Require Import ZArith Lia Floats.SpecFloat.
From Verif Require Import Base Mem Spec SpecHeap SpecDet ModelCore ModelBasic ModelMath ModelNN.
Open Scope Z_scope.

Definition calm {A} (m : M A) : Prop := forall E s n, m E (seek n s) = found n (m E s).

Lemma cm_ret {A} (a : A) : calm (ret a). Proof. done. Qed.
Lemma cm_undef {A} u : calm (undef u : M A). Proof. done. Qed.
Lemma cm_abort {A} : calm (abort : M A). Proof. done. Qed.
Lemma cm_diverge {A} : calm (diverge : M A). Proof. done. Qed.
Lemma cm_bind {A B} (m : M A) (k : A -> M B) : calm m -> (forall a, calm (k a)) -> calm (bind m k).
Proof.
  intros Hm Hk E s n. unfold bind. rewrite Hm. destruct (m E s) as [y s'| | |]; try done. cbn [found]. apply Hk.
Qed.
Lemma cm_check b u : calm (check b u). Proof. by destruct b. Qed.
Lemma cm_opt {A} (o : option A) u : calm (opt o u). Proof. by destruct o. Qed.
Lemma cm_assert b : calm (assert_ b). Proof. by destruct b. Qed.
Lemma cm_ask {A} (f : env -> A) : calm (ask f). Proof. done. Qed.
Lemma cm_get_heap : calm get_heap. Proof. done. Qed.
Lemma cm_put_block b y : calm (put_block b y). Proof. done. Qed.
Lemma cm_alloc t n c : calm (alloc_tag t n c).
Proof. intros E s k. unfold alloc_tag, seek. cbn [ctr heap rpos]. case_match; done. Qed.
Lemma cm_free t p : calm (free_tag t p).
Proof. intros E s k. unfold free_tag, seek, deref. destruct p as [| |b]; try done. cbn [heap]. repeat (case_match; try done). Qed.
Lemma cm_raw_alloc n c : calm (raw_alloc n c).
Proof. intros E s k. apply (cm_alloc (e_alloc E)). Qed.
Lemma cm_raw_dealloc p : calm (raw_dealloc p).
Proof. intros E s k. apply (cm_free (e_dealloc E)). Qed.
Lemma cm_libc_malloc n c : calm (libc_malloc n c). Proof. apply cm_alloc. Qed.
Lemma cm_libc_free p : calm (libc_free p). Proof. apply cm_free. Qed.
Lemma cm_deref p : calm (deref p).
Proof. intros E s k. unfold deref, seek. destruct p as [| |b]; try done. cbn [heap]. repeat (case_match; try done). Qed.
Lemma cm_iter {S} n i (body : Z -> S -> M S) s : (forall i s, calm (body i s)) -> calm (iter n i body s).
Proof.
  intros H. revert i s. induction n as [|n IH]; intros i s; [apply cm_ret|]. cbn [iter].
  apply cm_bind; [apply H|]. intros. apply IH.
Qed.
Lemma cm_iter_ret {S R} n i (body : Z -> S -> M (ctl S R)) s : (forall i s, calm (body i s)) -> calm (iter_ret n i body s).
Proof.
  intros H. revert i s. induction n as [|n IH]; intros i s; [apply cm_ret|]. cbn [iter_ret].
  apply cm_bind; [apply H|]. intros [y|r]; [apply IH|apply cm_ret].
Qed.
Lemma cm_iter_down {S} n (body : Z -> S -> M S) s : (forall i s, calm (body i s)) -> calm (iter_down n body s).
Proof.
  intros H. revert s. induction n as [|n IH]; intros s; [apply cm_ret|]. cbn [iter_down].
  apply cm_bind; [apply H|]. intros. apply IH.
Qed.
Lemma cm_iter_down_break {S} n (body : Z -> S -> M (S * bool)) s : (forall i s, calm (body i s)) -> calm (iter_down_break n body s).
Proof.
  intros H. revert s. induction n as [|n IH]; intros s; [apply cm_ret|]. cbn [iter_down_break].
  apply cm_bind; [apply H|]. intros [y []]; [apply IH|apply cm_ret].
Qed.
Lemma cm_while_ret_fuel {S R} n (body : S -> M (ctl (S * bool) R)) s : (forall s, calm (body s)) -> calm (while_ret_fuel n body s).
Proof.
  intros H. revert s. induction n as [|n IH]; intros s; [apply cm_diverge|]. cbn [while_ret_fuel].
  apply cm_bind; [apply H|]. intros [[y []]|r]; [apply IH|apply cm_ret|apply cm_ret].
Qed.
Lemma cm_while_ret {S R} (body : S -> M (ctl (S * bool) R)) s : (forall s, calm (body s)) -> calm (while_ret body s).
Proof. intros H E z n. by apply (cm_while_ret_fuel (e_fuel E)). Qed.
Lemma cm_dispatch_all {A} dt (f : tcode -> M A) d : (forall t, calm (f t)) -> calm d -> calm (dispatch_all dt f d).
Proof. intros H1 H2. unfold dispatch_all. repeat case_match; auto. Qed.
Lemma cm_dispatch_float {A} dt (f : tcode -> M A) d : (forall t, calm (f t)) -> calm d -> calm (dispatch_float dt f d).
Proof. intros H1 H2. unfold dispatch_float. repeat case_match; auto. Qed.

Ltac head_of t := match t with ?f _ => head_of f | _ => t end.
Ltac cm1 :=
  lazymatch goal with
  | |- forall _, _ => intros ?
  | |- calm (ret _) => apply cm_ret
  | |- calm (undef _) => apply cm_undef
  | |- calm abort => apply cm_abort
  | |- calm diverge => apply cm_diverge
  | |- calm (check _ _) => apply cm_check
  | |- calm (opt _ _) => apply cm_opt
  | |- calm (assert_ _) => apply cm_assert
  | |- calm (ask _) => apply cm_ask
  | |- calm get_heap => apply cm_get_heap
  | |- calm (put_block _ _) => apply cm_put_block
  | |- calm (raw_alloc _ _) => apply cm_raw_alloc
  | |- calm (raw_dealloc _) => apply cm_raw_dealloc
  | |- calm (deref _) => apply cm_deref
  | |- calm (libc_malloc _ _) => apply cm_libc_malloc
  | |- calm (libc_free _) => apply cm_libc_free
  | |- calm (bind _ _) => apply cm_bind
  | |- calm (iter _ _ _ _) => apply cm_iter
  | |- calm (iter_ret _ _ _ _) => apply cm_iter_ret
  | |- calm (iter_down _ _ _) => apply cm_iter_down
  | |- calm (iter_down_break _ _ _) => apply cm_iter_down_break
  | |- calm (while_ret _ _) => apply cm_while_ret
  | |- calm (dispatch_all _ _ _) => apply cm_dispatch_all
  | |- calm (dispatch_float _ _ _) => apply cm_dispatch_float
  | |- calm (match ?x with _ => _ end) => destruct x
  | |- calm ?m => first [solve [eauto with cm] | let h := head_of m in unfold h; cbv beta]
  end.
Ltac cm := intros; repeat cm1; try done.
Create HintDb cm.
Lemma cm_size_of_dims dims ndim : calm (size_of_dims dims ndim).
Proof. cm. Qed.
#[export] Hint Resolve cm_size_of_dims : cm.
Lemma cm_size_from_dim (k : Z) (dims : list Z) (ndim : Z) : calm (size_from_dim k dims ndim).
Proof. cm. Qed.
#[export] Hint Resolve cm_size_from_dim : cm.
Lemma cm_size_to_dim (k : Z) (dims : list Z) (ndim : Z) : calm (size_to_dim k dims ndim).
Proof. cm. Qed.
#[export] Hint Resolve cm_size_to_dim : cm.
Lemma cm_size_between_dim (k l : Z) (dims : list Z) (ndim : Z) : calm (size_between_dim k l dims ndim).
Proof. cm. Qed.
#[export] Hint Resolve cm_size_between_dim : cm.
Lemma cm_fill_ints (p : hval) (cap : Z) (l : list Z) : calm (fill_ints p cap l).
Proof. cm. Qed.
#[export] Hint Resolve cm_fill_ints : cm.
Lemma cm_create_default_layout (ltype ndim : Z) : calm (create_default_layout ltype ndim).
Proof. cm. Qed.
#[export] Hint Resolve cm_create_default_layout : cm.
Lemma cm_create_shape (ltype : Z) (dims : list Z) (ndim : Z) : calm (create_shape ltype dims ndim).
Proof. cm. Qed.
#[export] Hint Resolve cm_create_shape : cm.
Lemma cm_destroy_layout (min2maj : hval) : calm (destroy_layout min2maj).
Proof. cm. Qed.
#[export] Hint Resolve cm_destroy_layout : cm.
Lemma cm_destroy_shape (dims min2maj : hval) : calm (destroy_shape dims min2maj).
Proof. cm. Qed.
#[export] Hint Resolve cm_destroy_shape : cm.
Lemma cm_create_storage (dt : dtype) (dev : device) (size : Z) (data : hval) : calm (create_storage dt dev size data).
Proof. cm. Qed.
#[export] Hint Resolve cm_create_storage : cm.
Lemma cm_destroy_storage (storage : hval) : calm (destroy_storage storage).
Proof. cm. Qed.
#[export] Hint Resolve cm_destroy_storage : cm.
Lemma cm_tensor_ndim (t : hval) : calm (tensor_ndim t).
Proof. cm. Qed.
#[export] Hint Resolve cm_tensor_ndim : cm.
Lemma cm_int_array (p : hval) : calm (int_array p).
Proof. cm. Qed.
#[export] Hint Resolve cm_int_array : cm.
Lemma cm_tensor_dims (t : hval) : calm (tensor_dims t).
Proof. cm. Qed.
#[export] Hint Resolve cm_tensor_dims : cm.
Lemma cm_tensor_min2maj (t : hval) : calm (tensor_min2maj t).
Proof. cm. Qed.
#[export] Hint Resolve cm_tensor_min2maj : cm.
Lemma cm_tensor_dim (t : hval) (d : Z) : calm (tensor_dim t d).
Proof. cm. Qed.
#[export] Hint Resolve cm_tensor_dim : cm.
Lemma cm_tensor_size (t : hval) : calm (tensor_size t).
Proof. cm. Qed.
#[export] Hint Resolve cm_tensor_size : cm.
Lemma cm_tensor_storage (t : hval) : calm (tensor_storage t).
Proof. cm. Qed.
#[export] Hint Resolve cm_tensor_storage : cm.
Lemma cm_tensor_dtype (t : hval) : calm (tensor_dtype t).
Proof. cm. Qed.
#[export] Hint Resolve cm_tensor_dtype : cm.
Lemma cm_tensor_data (t : hval) : calm (tensor_data t).
Proof. cm. Qed.
#[export] Hint Resolve cm_tensor_data : cm.
Lemma cm_tensor_device (t : hval) : calm (tensor_device t).
Proof. cm. Qed.
#[export] Hint Resolve cm_tensor_device : cm.
Lemma cm_aitisa_tensor_set_item (t : hval) (idx : Z) (bs : list mv) : calm (aitisa_tensor_set_item t idx bs).
Proof. cm. Qed.
#[export] Hint Resolve cm_aitisa_tensor_set_item : cm.
Lemma cm_aitisa_create (dt : dtype) (dev : device) (dims : list Z) (ndim : Z) (data : hval) (len : Z) (o : hval) : calm (aitisa_create dt dev dims ndim data len o).
Proof. cm. Qed.
#[export] Hint Resolve cm_aitisa_create : cm.
Lemma cm_aitisa_destroy (v : hval) : calm (aitisa_destroy v).
Proof. cm. Qed.
#[export] Hint Resolve cm_aitisa_destroy : cm.
Lemma cm_aitisa_resolve (t : hval) : calm (aitisa_resolve t).
Proof. cm. Qed.
#[export] Hint Resolve cm_aitisa_resolve : cm.
Lemma cm_type_table (dt : dtype) : calm (type_table dt).
Proof. cm. Qed.
#[export] Hint Resolve cm_type_table : cm.
Lemma cm_castto_in_place (dt : dtype) (d : spec_float) : calm (castto_in_place dt d).
Proof. cm. Qed.
#[export] Hint Resolve cm_castto_in_place : cm.
Lemma cm_aitisa_get_stride (t : hval) (dimension : Z) : calm (aitisa_get_stride t dimension).
Proof. cm. Qed.
#[export] Hint Resolve cm_aitisa_get_stride : cm.
Lemma cm_aitisa_get_all_strides (t : hval) (strides : list Z) : calm (aitisa_get_all_strides t strides).
Proof. cm. Qed.
#[export] Hint Resolve cm_aitisa_get_all_strides : cm.
Lemma cm_assert_coords (ndim : Z) (dims coords : list Z) (len : Z) : calm (assert_coords ndim dims coords len).
Proof. cm. Qed.
#[export] Hint Resolve cm_assert_coords : cm.
Lemma cm_aitisa_coords_to_linidx (t : hval) (coords : list Z) (len : Z) : calm (aitisa_coords_to_linidx t coords len).
Proof. cm. Qed.
#[export] Hint Resolve cm_aitisa_coords_to_linidx : cm.
Lemma cm_aitisa_linidx_to_coords (t : hval) (linidx : Z) (coords : list Z) : calm (aitisa_linidx_to_coords t linidx coords).
Proof. cm. Qed.
#[export] Hint Resolve cm_aitisa_linidx_to_coords : cm.
Lemma cm_aitisa_coords_to_offset (t : hval) (coords : list Z) (len : Z) : calm (aitisa_coords_to_offset t coords len).
Proof. cm. Qed.
#[export] Hint Resolve cm_aitisa_coords_to_offset : cm.
Lemma cm_aitisa_offset_to_coords (t : hval) (offset : Z) (coords : list Z) : calm (aitisa_offset_to_coords t offset coords).
Proof. cm. Qed.
#[export] Hint Resolve cm_aitisa_offset_to_coords : cm.
Lemma cm_aitisa_broadcast_array (d1 : list Z) (n1 : Z) (d2 : list Z) (n2 : Z) (out : list (option Z)) (nout : Z) : calm (aitisa_broadcast_array d1 n1 d2 n2 out nout).
Proof. cm. Qed.
#[export] Hint Resolve cm_aitisa_broadcast_array : cm.
Lemma cm_cast_kernel (t2 t1 : tcode) (ind outd : hval) (size : Z) : calm (cast_kernel t2 t1 ind outd size).
Proof. cm. Qed.
#[export] Hint Resolve cm_cast_kernel : cm.
Lemma cm_cast_template (input : hval) (out_dt : dtype) (o : hval) : calm (cast_template input out_dt o).
Proof. cm. Qed.
#[export] Hint Resolve cm_cast_template : cm.
Lemma cm_aitisa_cast (input : hval) (dt : dtype) (o : hval) : calm (aitisa_cast input dt o).
Proof. cm. Qed.
#[export] Hint Resolve cm_aitisa_cast : cm.
Lemma cm_aitisa_full (dt : dtype) (dev : device) (dims : list Z) (ndim : Z) (value : spec_float) (o : hval) : calm (aitisa_full dt dev dims ndim value o).
Proof. cm. Qed.
#[export] Hint Resolve cm_aitisa_full : cm.
Lemma cm_aitisa_reshape (input : hval) (dims : list Z) (ndim : Z) (o : hval) : calm (aitisa_reshape input dims ndim o).
Proof. cm. Qed.
#[export] Hint Resolve cm_aitisa_reshape : cm.
Lemma cm_aitisa_squeeze (input : hval) (axis : list Z) (num_axis : Z) (o : hval) : calm (aitisa_squeeze input axis num_axis o).
Proof. cm. Qed.
#[export] Hint Resolve cm_aitisa_squeeze : cm.
Lemma cm_slice_extent (size step : Z) : calm (slice_extent size step).
Proof. cm. Qed.
#[export] Hint Resolve cm_slice_extent : cm.
Lemma cm_slice_create_output (input : hval) (begin size step : list Z) (o : hval) : calm (slice_create_output input begin size step o).
Proof. cm. Qed.
#[export] Hint Resolve cm_slice_create_output : cm.
Lemma cm_slice_check_parameters (input : hval) (begin size step : list Z) : calm (slice_check_parameters input begin size step).
Proof. cm. Qed.
#[export] Hint Resolve cm_slice_check_parameters : cm.
Lemma cm_slice_advance (in_ndim : Z) (begin step boundary idx : list Z) : calm (slice_advance in_ndim begin step boundary idx).
Proof. cm. Qed.
#[export] Hint Resolve cm_slice_advance : cm.
Lemma cm_slice_kernel (t : tcode) (input o : hval) (in_ndim : Z) (begin step idx0 boundary offs : list Z) : calm (slice_kernel t input o in_ndim begin step idx0 boundary offs).
Proof. cm. Qed.
#[export] Hint Resolve cm_slice_kernel : cm.
Lemma cm_slice_template (input : hval) (begin size step : list Z) (o : hval) : calm (slice_template input begin size step o).
Proof. cm. Qed.
#[export] Hint Resolve cm_slice_template : cm.
Lemma cm_aitisa_slice (input : hval) (begin size step : list Z) (o : hval) : calm (aitisa_slice input begin size step o).
Proof. cm. Qed.
#[export] Hint Resolve cm_aitisa_slice : cm.
Lemma cm_aitisa_duplicate (input : hval) (o : hval) : calm (aitisa_duplicate input o).
Proof. cm. Qed.
#[export] Hint Resolve cm_aitisa_duplicate : cm.
Lemma cm_sqrt_create_output (input o : hval) : calm (sqrt_create_output input o).
Proof. cm. Qed.
#[export] Hint Resolve cm_sqrt_create_output : cm.
Lemma cm_sqrt_kernel (t : tcode) (input o : hval) (size : Z) : calm (sqrt_kernel t input o size).
Proof. cm. Qed.
#[export] Hint Resolve cm_sqrt_kernel : cm.
Lemma cm_aitisa_sqrt (input o : hval) : calm (aitisa_sqrt input o).
Proof. cm. Qed.
#[export] Hint Resolve cm_aitisa_sqrt : cm.
Lemma cm_batch_strides (dims : list Z) (ndim : Z) (strides : list (option Z)) (nstride : Z) : calm (batch_strides dims ndim strides nstride).
Proof. cm. Qed.
#[export] Hint Resolve cm_batch_strides : cm.
Lemma cm_mac (t : tcode) (A : hval) (oa ai : Z) (B : hval) (ob bi : Z) (C : hval) (oc ci : Z) : calm (mac t A oa ai B ob bi C oc ci).
Proof. cm. Qed.
#[export] Hint Resolve cm_mac : cm.
Lemma cm_vv_kernel (t : tcode) (X Y Z0 : hval) (L : Z) : calm (vv_kernel t X Y Z0 L).
Proof. cm. Qed.
#[export] Hint Resolve cm_vv_kernel : cm.
Lemma cm_mv_kernel (t : tcode) (A X B : hval) (m n : Z) : calm (mv_kernel t A X B m n).
Proof. cm. Qed.
#[export] Hint Resolve cm_mv_kernel : cm.
Lemma cm_mm_kernel (t : tcode) (A : hval) (oa : Z) (B : hval) (ob : Z) (C : hval) (oc : Z) (m k n : Z) : calm (mm_kernel t A oa B ob C oc m k n).
Proof. cm. Qed.
#[export] Hint Resolve cm_mm_kernel : cm.
Lemma cm_batch_mm_kernel (t : tcode) (A : hval) (As : list Z) (B : hval) (Bs : list Z) (C : hval) (Cs : list Z) (m k n n_batch : Z) : calm (batch_mm_kernel t A As B Bs C Cs m k n n_batch).
Proof. cm. Qed.
#[export] Hint Resolve cm_batch_mm_kernel : cm.
Lemma cm_vv_template (dt : dtype) (X Y Z0 : hval) (L : Z) : calm (vv_template dt X Y Z0 L).
Proof. cm. Qed.
#[export] Hint Resolve cm_vv_template : cm.
Lemma cm_mv_template (dt : dtype) (A X B : hval) (m n : Z) : calm (mv_template dt A X B m n).
Proof. cm. Qed.
#[export] Hint Resolve cm_mv_template : cm.
Lemma cm_mm_template (dt : dtype) (A B C : hval) (m k n : Z) : calm (mm_template dt A B C m k n).
Proof. cm. Qed.
#[export] Hint Resolve cm_mm_template : cm.
Lemma cm_batch_mm_template (dt : dtype) (A : hval) (As : list Z) (B : hval) (Bs : list Z) (C : hval) (Cs : list Z) (m k n n_batch : Z) : calm (batch_mm_template dt A As B Bs C Cs m k n n_batch).
Proof. cm. Qed.
#[export] Hint Resolve cm_batch_mm_template : cm.
Lemma cm_batch_offset (dims_out s1 s2 : list Z) (ndim_batch : Z) (i : Z) : calm (batch_offset dims_out s1 s2 ndim_batch i).
Proof. cm. Qed.
#[export] Hint Resolve cm_batch_offset : cm.
Lemma cm_zeros_like (tensor1 : hval) (dims : list Z) (ndim : Z) (o : hval) : calm (zeros_like tensor1 dims ndim o).
Proof. cm. Qed.
#[export] Hint Resolve cm_zeros_like : cm.
Lemma cm_matmul_vv (t1 t2 o : hval) : calm (matmul_vv t1 t2 o).
Proof. cm. Qed.
#[export] Hint Resolve cm_matmul_vv : cm.
Lemma cm_matmul_mv (t1 t2 o : hval) : calm (matmul_mv t1 t2 o).
Proof. cm. Qed.
#[export] Hint Resolve cm_matmul_mv : cm.
Lemma cm_matmul_mm (t1 t2 o : hval) : calm (matmul_mm t1 t2 o).
Proof. cm. Qed.
#[export] Hint Resolve cm_matmul_mm : cm.
Lemma cm_matmul_vm (t1 t2 o : hval) : calm (matmul_vm t1 t2 o).
Proof. cm. Qed.
#[export] Hint Resolve cm_matmul_vm : cm.
Lemma cm_matmul_tv (t1 t2 o : hval) (nd1 : Z) : calm (matmul_tv t1 t2 o nd1).
Proof. cm. Qed.
#[export] Hint Resolve cm_matmul_tv : cm.
Lemma cm_matmul_vt (t1 t2 o : hval) (nd2 : Z) : calm (matmul_vt t1 t2 o nd2).
Proof. cm. Qed.
#[export] Hint Resolve cm_matmul_vt : cm.
Lemma cm_matmul_tt (t1 t2 o : hval) (nd1 nd2 : Z) : calm (matmul_tt t1 t2 o nd1 nd2).
Proof. cm. Qed.
#[export] Hint Resolve cm_matmul_tt : cm.
Lemma cm_aitisa_matmul (t1 t2 o : hval) : calm (aitisa_matmul t1 t2 o).
Proof. cm. Qed.
#[export] Hint Resolve cm_aitisa_matmul : cm.
Lemma cm_dot_kernel (t : tcode) (d1 d2 : hval) (size : Z) (d_o : hval) : calm (dot_kernel t d1 d2 size d_o).
Proof. cm. Qed.
#[export] Hint Resolve cm_dot_kernel : cm.
Lemma cm_dot_get_value (t : hval) (idx : Z) : calm (dot_get_value t idx).
Proof. cm. Qed.
#[export] Hint Resolve cm_dot_get_value : cm.
Lemma cm_vector_vector_dot (t1 t2 o : hval) : calm (vector_vector_dot t1 t2 o).
Proof. cm. Qed.
#[export] Hint Resolve cm_vector_vector_dot : cm.
Lemma cm_dot_advance (n : nat) (skip : Z) (dims idx : list Z) : calm (dot_advance n skip dims idx).
Proof. cm. Qed.
#[export] Hint Resolve cm_dot_advance : cm.
Lemma cm_tensor_vector_dot (t1 t2 o : hval) : calm (tensor_vector_dot t1 t2 o).
Proof. cm. Qed.
#[export] Hint Resolve cm_tensor_vector_dot : cm.
Lemma cm_multidim_dot (t1 t2 o : hval) : calm (multidim_dot t1 t2 o).
Proof. cm. Qed.
#[export] Hint Resolve cm_multidim_dot : cm.
Lemma cm_nn_create_like (input o : hval) : calm (nn_create_like input o).
Proof. cm. Qed.
#[export] Hint Resolve cm_nn_create_like : cm.
Lemma cm_relu_elem (t : tcode) (v : val) : calm (relu_elem t v).
Proof. cm. Qed.
#[export] Hint Resolve cm_relu_elem : cm.
Lemma cm_aitisa_relu (input o : hval) : calm (aitisa_relu input o).
Proof. cm. Qed.
#[export] Hint Resolve cm_aitisa_relu : cm.
Lemma cm_exp_of (t : tcode) (v : val) : calm (exp_of t v).
Proof. cm. Qed.
#[export] Hint Resolve cm_exp_of : cm.
Lemma cm_sigmoid_elem (t : tcode) (v : val) : calm (sigmoid_elem t v).
Proof. cm. Qed.
#[export] Hint Resolve cm_sigmoid_elem : cm.
Lemma cm_aitisa_sigmoid (input o : hval) : calm (aitisa_sigmoid input o).
Proof. cm. Qed.
#[export] Hint Resolve cm_aitisa_sigmoid : cm.
Lemma cm_tanh_elem (t : tcode) (v : val) : calm (tanh_elem t v).
Proof. cm. Qed.
#[export] Hint Resolve cm_tanh_elem : cm.
Lemma cm_aitisa_tanh (input o : hval) : calm (aitisa_tanh input o).
Proof. cm. Qed.
#[export] Hint Resolve cm_aitisa_tanh : cm.
Lemma cm_int_of_double (x : spec_float) : calm (int_of_double x).
Proof. cm. Qed.
#[export] Hint Resolve cm_int_of_double : cm.
Lemma cm_softmax_create_output (input o : hval) : calm (softmax_create_output input o).
Proof. cm. Qed.
#[export] Hint Resolve cm_softmax_create_output : cm.
Lemma cm_softmax_exps (t : tcode) (ind outd : hval) (start step n : Z) : calm (softmax_exps t ind outd start step n).
Proof. cm. Qed.
#[export] Hint Resolve cm_softmax_exps : cm.
Lemma cm_softmax_norm (t : tcode) (outd : hval) (start step n : Z) (total : spec_float) : calm (softmax_norm t outd start step n total).
Proof. cm. Qed.
#[export] Hint Resolve cm_softmax_norm : cm.
Lemma cm_softmax_with_all (input o : hval) : calm (softmax_with_all input o).
Proof. cm. Qed.
#[export] Hint Resolve cm_softmax_with_all : cm.
Lemma cm_softmax_advance (n : nat) (axis : Z) (dims idx : list Z) : calm (softmax_advance n axis dims idx).
Proof. cm. Qed.
#[export] Hint Resolve cm_softmax_advance : cm.
Lemma cm_lin_index (ndim : Z) (index offset : list Z) : calm (lin_index ndim index offset).
Proof. cm. Qed.
#[export] Hint Resolve cm_lin_index : cm.
Lemma cm_row_offsets (ndim : Z) (dims : list Z) : calm (row_offsets ndim dims).
Proof. cm. Qed.
#[export] Hint Resolve cm_row_offsets : cm.
Lemma cm_softmax_axis_kernel (t : tcode) (input o : hval) (ndim : Z) (dims : list Z) (axis batch element_offset : Z) (offs : list Z) : calm (softmax_axis_kernel t input o ndim dims axis batch element_offset offs).
Proof. cm. Qed.
#[export] Hint Resolve cm_softmax_axis_kernel : cm.
Lemma cm_softmax_along_axis (input : hval) (axis : Z) (o : hval) : calm (softmax_along_axis input axis o).
Proof. cm. Qed.
#[export] Hint Resolve cm_softmax_along_axis : cm.
Lemma cm_aitisa_softmax (input : hval) (axis : Z) (o : hval) : calm (aitisa_softmax input axis o).
Proof. cm. Qed.
#[export] Hint Resolve cm_aitisa_softmax : cm.
Lemma cm_pooling_extent (d k s p dil : Z) : calm (pooling_extent d k s p dil).
Proof. cm. Qed.
#[export] Hint Resolve cm_pooling_extent : cm.
Lemma cm_pooling_create_output (input : hval) (ksize stride padding dilation : list Z) (o : hval) : calm (pooling_create_output input ksize stride padding dilation o).
Proof. cm. Qed.
#[export] Hint Resolve cm_pooling_create_output : cm.
Lemma cm_pool_tail (head k dil : Z) : calm (pool_tail head k dil).
Proof. cm. Qed.
#[export] Hint Resolve cm_pool_tail : cm.
Lemma cm_pool_position (n : Z) (dims strides index : list Z) (bc : Z) : calm (pool_position n dims strides index bc).
Proof. cm. Qed.
#[export] Hint Resolve cm_pool_position : cm.
Lemma cm_pool_kernel (mode : pmode) (t : tcode) (ind : hval) (pos : Z) (temp : spec_float) : calm (pool_kernel mode t ind pos temp).
Proof. cm. Qed.
#[export] Hint Resolve cm_pool_kernel : cm.
Lemma cm_pool_output (mode : pmode) (t : tcode) (outd : hval) (pos : Z) (temp : spec_float) (window_size : Z) : calm (pool_output mode t outd pos temp window_size).
Proof. cm. Qed.
#[export] Hint Resolve cm_pool_output : cm.
Lemma cm_pool_next (n : nat) (dilation head tail index : list Z) : calm (pool_next n dilation head tail index).
Proof. cm. Qed.
#[export] Hint Resolve cm_pool_next : cm.
Lemma cm_pool_slide (n : nat) (dims ksize stride padding dilation : list Z) (head tail : list Z) : calm (pool_slide n dims ksize stride padding dilation head tail).
Proof. cm. Qed.
#[export] Hint Resolve cm_pool_slide : cm.
Lemma cm_pool_init (n : Z) (ksize padding dilation : list Z) : calm (pool_init n ksize padding dilation).
Proof. cm. Qed.
#[export] Hint Resolve cm_pool_init : cm.
Lemma cm_conv_output_dims (in_dims fil_dims stride padding dilation : list Z) (ndim : Z) : calm (conv_output_dims in_dims fil_dims stride padding dilation ndim).
Proof. cm. Qed.
#[export] Hint Resolve cm_conv_output_dims : cm.
Lemma cm_conv_position (sdim : Z) (in_dims base dilation fil tmp : list Z) : calm (conv_position sdim in_dims base dilation fil tmp).
Proof. cm. Qed.
#[export] Hint Resolve cm_conv_position : cm.
Lemma cm_conv_channel (input filter ind fild : hval) (ndim sdim : Z) (in_dims dilation base : list Z) (oc ic fil_space : Z) (acc : val) : calm (conv_channel input filter ind fild ndim sdim in_dims dilation base oc ic fil_space acc).
Proof. cm. Qed.
#[export] Hint Resolve cm_conv_channel : cm.
Lemma cm_conv_element (input filter new ind fild outd : hval) (ndim sdim : Z) (in_dims stride padding dilation : list Z) (b oc out_idx in_chan fil_space : Z) : calm (conv_element input filter new ind fild outd ndim sdim in_dims stride padding dilation b oc out_idx in_chan fil_space).
Proof. cm. Qed.
#[export] Hint Resolve cm_conv_element : cm.
Lemma cm_aitisa_conv_float (input filter : hval) (stride padding dilation : list Z) (o : hval) : calm (aitisa_conv_float input filter stride padding dilation o).
Proof. cm. Qed.
#[export] Hint Resolve cm_aitisa_conv_float : cm.
Lemma cm_aitisa_conv (input filter : hval) (stride padding dilation : list Z) (groups : Z) (o : hval) : calm (aitisa_conv input filter stride padding dilation groups o).
Proof. cm. Qed.
#[export] Hint Resolve cm_aitisa_conv : cm.
Lemma cm_aitisa_conv2d (input filter : hval) (stride padding dilation : list Z) (groups : Z) (o : hval) : calm (aitisa_conv2d input filter stride padding dilation groups o).
Proof. cm. Qed.
#[export] Hint Resolve cm_aitisa_conv2d : cm.
Lemma cm_aitisa_conv3d (input filter : hval) (stride padding dilation : list Z) (groups : Z) (o : hval) : calm (aitisa_conv3d input filter stride padding dilation groups o).
Proof. cm. Qed.
#[export] Hint Resolve cm_aitisa_conv3d : cm.

Lemma cm_pool_window mode t ind n dims strides dil head tail bc : calm (pool_window mode t ind n dims strides dil head tail bc).
Proof. cm. Qed.
#[export] Hint Resolve cm_pool_window : cm.
Lemma cm_aitisa_pooling t m k s p d o : calm (aitisa_pooling t m k s p d o).
Proof. cm. Qed.
#[export] Hint Resolve cm_aitisa_pooling : cm.

Lemma cm_aitisa_binary_op op t1 t2 o : calm (aitisa_binary_op op t1 t2 o).
Proof. cm. Qed.
#[export] Hint Resolve cm_aitisa_binary_op : cm.
Lemma cm_aitisa_dot t1 t2 o : calm (aitisa_dot t1 t2 o).
Proof. cm. Qed.
#[export] Hint Resolve cm_aitisa_dot : cm.
Lemma cm_batch_norm_check (input : hval) (axis : Z) (scale bias mean variance : hval) (epsilon : spec_float) : calm (batch_norm_check input axis scale bias mean variance epsilon).
Proof. cm. Qed.
#[export] Hint Resolve cm_batch_norm_check : cm.
Lemma cm_batch_norm_create_output (input o : hval) : calm (batch_norm_create_output input o).
Proof. cm. Qed.
#[export] Hint Resolve cm_batch_norm_create_output : cm.
Lemma cm_bn_advance (n : nat) (axis : Z) (dims idx : list Z) : calm (bn_advance n axis dims idx).
Proof. cm. Qed.
#[export] Hint Resolve cm_bn_advance : cm.
Lemma cm_batch_norm_transport (source destination : hval) (idx offs : list Z) (axis : Z) : calm (batch_norm_transport source destination idx offs axis).
Proof. cm. Qed.
#[export] Hint Resolve cm_batch_norm_transport : cm.
Lemma cm_bn_row (input scale bias mean denominator : hval) (begin size step : list Z) (out_data : hval) (ele s : Z) : calm (bn_row input scale bias mean denominator begin size step out_data ele s).
Proof. cm. Qed.
#[export] Hint Resolve cm_bn_row : cm.
Lemma cm_batch_norm_without_channel (input scale bias mean denominator o : hval) : calm (batch_norm_without_channel input scale bias mean denominator o).
Proof. cm. Qed.
#[export] Hint Resolve cm_batch_norm_without_channel : cm.
Lemma cm_bn_channel (input scale bias mean denominator o : hval) (begin size step : list Z) (axis c : Z) (idx offs : list Z) : calm (bn_channel input scale bias mean denominator o begin size step axis c idx offs).
Proof. cm. Qed.
#[export] Hint Resolve cm_bn_channel : cm.
Lemma cm_batch_norm_with_channel (input : hval) (axis : Z) (scales biases means denominators : list hval) (o : hval) : calm (batch_norm_with_channel input axis scales biases means denominators o).
Proof. cm. Qed.
#[export] Hint Resolve cm_batch_norm_with_channel : cm.
Lemma cm_bn_denominator (input variance : hval) (epsilon : spec_float) : calm (bn_denominator input variance epsilon).
Proof. cm. Qed.
#[export] Hint Resolve cm_bn_denominator : cm.
Lemma cm_bn_spread (destination parameter : hval) (n ele c : Z) : calm (bn_spread destination parameter n ele c).
Proof. cm. Qed.
#[export] Hint Resolve cm_bn_spread : cm.
Lemma cm_bn_parameters (dt : dtype) (dev : device) (dims : list Z) (ndim : Z) (scale bias mean variance eps : hval) (n ele c : Z) : calm (bn_parameters dt dev dims ndim scale bias mean variance eps n ele c).
Proof. cm. Qed.
#[export] Hint Resolve cm_bn_parameters : cm.
Lemma cm_bn_intermediate (input : hval) (axis : Z) (scale bias mean variance : hval) (epsilon : spec_float) : calm (bn_intermediate input axis scale bias mean variance epsilon).
Proof. cm. Qed.
#[export] Hint Resolve cm_bn_intermediate : cm.
Lemma cm_aitisa_batch_norm (input : hval) (axis : Z) (scale bias mean variance : hval) (epsilon : spec_float) (o : hval) : calm (aitisa_batch_norm input axis scale bias mean variance epsilon o).
Proof. cm. Qed.
#[export] Hint Resolve cm_aitisa_batch_norm : cm.


Lemma op_calm x o : draws x = false -> calm (run_op x o).
Proof. intros H. destruct x; try done; cbn [run_op]; auto with cm. Qed.
Lemma op_stream x o E s n : draws x = false -> run_op x o E (seek n s) = found n (run_op x o E s).
Proof. intros H. by apply op_calm. Qed.
