(** * ProofQuiet: only dropout draws random numbers *)
From stdpp Require Import gmap list.
From Coq Require Import ZArith Lia Floats.SpecFloat.
From Verif Require Import Base Mem Spec SpecHeap SpecHist ModelCore ModelBasic ModelMath ModelNN.
Open Scope Z_scope.

Definition quiet {A} (m : M A) : Prop := forall E s a s', m E s = Done a s' -> rpos s' = rpos s.

Lemma qt_ret {A} (a : A) : quiet (ret a). Proof. by intros E s b s' [= _ <-]. Qed.
Lemma qt_undef {A} u : quiet (undef u : M A). Proof. done. Qed.
Lemma qt_abort {A} : quiet (abort : M A). Proof. done. Qed.
Lemma qt_diverge {A} : quiet (diverge : M A). Proof. done. Qed.
Lemma qt_bind {A B} (m : M A) (k : A -> M B) : quiet m -> (forall a, quiet (k a)) -> quiet (bind m k).
Proof.
  intros Hm Hk E s b s' e. unfold bind in e. destruct (m E s) as [x s1| | |] eqn:e1; try done.
  rewrite (Hk _ _ _ _ _ e). by eapply Hm.
Qed.
Lemma qt_check b u : quiet (check b u). Proof. destruct b; [apply qt_ret|apply qt_undef]. Qed.
Lemma qt_opt {A} (o : option A) u : quiet (opt o u). Proof. destruct o; [apply qt_ret|apply qt_undef]. Qed.
Lemma qt_assert b : quiet (assert_ b). Proof. destruct b; [apply qt_ret|apply qt_abort]. Qed.
Lemma qt_ask {A} (f : env -> A) : quiet (ask f). Proof. by intros E s b s' [= _ <-]. Qed.
Lemma qt_get_heap : quiet get_heap. Proof. by intros E s b s' [= _ <-]. Qed.
Lemma qt_put_block b x : quiet (put_block b x). Proof. by intros E s a s' [= _ <-]. Qed.
Lemma qt_alloc_tag g n c : quiet (alloc_tag g n c).
Proof. intros E s a s'. unfold alloc_tag. intros e. repeat case_match; by simplify_eq. Qed.
Lemma qt_free_tag g p : quiet (free_tag g p).
Proof. intros E s a s'. unfold free_tag. intros e. repeat case_match; by simplify_eq. Qed.
Lemma qt_raw_alloc n c : quiet (raw_alloc n c). Proof. intros E s a s' e. by eapply (qt_alloc_tag _ _ _ E). Qed.
Lemma qt_raw_dealloc p : quiet (raw_dealloc p). Proof. intros E s a s' e. by eapply (qt_free_tag _ _ E). Qed.
Lemma qt_libc_malloc n c : quiet (libc_malloc n c). Proof. apply qt_alloc_tag. Qed.
Lemma qt_libc_free p : quiet (libc_free p). Proof. apply qt_free_tag. Qed.
Lemma qt_deref p : quiet (deref p).
Proof. intros E s a s'. unfold deref. intros e. repeat case_match; by simplify_eq. Qed.
Lemma qt_iter {S} n i (body : Z -> S -> M S) s : (forall i s, quiet (body i s)) -> quiet (iter n i body s).
Proof.
  intros H. revert i s. induction n as [|n IH]; intros i s; [apply qt_ret|]. cbn [iter].
  apply qt_bind; [apply H|]. intros. apply IH.
Qed.
Lemma qt_iter_ret {S R} n i (body : Z -> S -> M (ctl S R)) s : (forall i s, quiet (body i s)) -> quiet (iter_ret n i body s).
Proof.
  intros H. revert i s. induction n as [|n IH]; intros i s; [apply qt_ret|]. cbn [iter_ret].
  apply qt_bind; [apply H|]. intros [x|r]; [apply IH|apply qt_ret].
Qed.
Lemma qt_iter_down {S} n (body : Z -> S -> M S) s : (forall i s, quiet (body i s)) -> quiet (iter_down n body s).
Proof.
  intros H. revert s. induction n as [|n IH]; intros s; [apply qt_ret|]. cbn [iter_down].
  apply qt_bind; [apply H|]. intros. apply IH.
Qed.
Lemma qt_iter_down_break {S} n (body : Z -> S -> M (S * bool)) s : (forall i s, quiet (body i s)) -> quiet (iter_down_break n body s).
Proof.
  intros H. revert s. induction n as [|n IH]; intros s; [apply qt_ret|]. cbn [iter_down_break].
  apply qt_bind; [apply H|]. intros [x []]; [apply IH|apply qt_ret].
Qed.
Lemma qt_while_ret {S R} (body : S -> M (ctl (S * bool) R)) s : (forall s, quiet (body s)) -> quiet (while_ret body s).
Proof.
  intros H E x a x'. unfold while_ret. generalize (e_fuel E) as n. intros n.
  assert (K : quiet (while_ret_fuel n body s)); [|by apply K].
  revert s. induction n as [|n IH]; intros s; cbn [while_ret_fuel]; [apply qt_diverge|].
  apply qt_bind; [apply H|]. intros [[y []]|r]; [apply IH|apply qt_ret|apply qt_ret].
Qed.
Lemma qt_dispatch_all {A} dt (f : tcode -> M A) d : (forall t, quiet (f t)) -> quiet d -> quiet (dispatch_all dt f d).
Proof. intros H1 H2. unfold dispatch_all. repeat case_match; auto. Qed.
Lemma qt_dispatch_float {A} dt (f : tcode -> M A) d : (forall t, quiet (f t)) -> quiet d -> quiet (dispatch_float dt f d).
Proof. intros H1 H2. unfold dispatch_float. repeat case_match; auto. Qed.


Ltac head_of t := match t with ?f _ => head_of f | _ => t end.
Ltac qt1 :=
  lazymatch goal with
  | |- forall _, _ => intros ?
  | |- quiet (ret _) => apply qt_ret
  | |- quiet (undef _) => apply qt_undef
  | |- quiet abort => apply qt_abort
  | |- quiet diverge => apply qt_diverge
  | |- quiet (check _ _) => apply qt_check
  | |- quiet (opt _ _) => apply qt_opt
  | |- quiet (assert_ _) => apply qt_assert
  | |- quiet (ask _) => apply qt_ask
  | |- quiet get_heap => apply qt_get_heap
  | |- quiet (put_block _ _) => apply qt_put_block
  | |- quiet (raw_alloc _ _) => apply qt_raw_alloc
  | |- quiet (raw_dealloc _) => apply qt_raw_dealloc
  | |- quiet (deref _) => apply qt_deref
  | |- quiet (libc_malloc _ _) => apply qt_libc_malloc
  | |- quiet (libc_free _) => apply qt_libc_free
  | |- quiet (bind _ _) => apply qt_bind
  | |- quiet (iter _ _ _ _) => apply qt_iter
  | |- quiet (iter_ret _ _ _ _) => apply qt_iter_ret
  | |- quiet (iter_down _ _ _) => apply qt_iter_down
  | |- quiet (iter_down_break _ _ _) => apply qt_iter_down_break
  | |- quiet (while_ret _ _) => apply qt_while_ret
  | |- quiet (dispatch_all _ _ _) => apply qt_dispatch_all
  | |- quiet (dispatch_float _ _ _) => apply qt_dispatch_float
  | |- quiet (match ?x with _ => _ end) => destruct x
  | |- quiet ?m => first [solve [eauto with qt] | let h := head_of m in unfold h; cbv beta]
  end.
Ltac qt := intros; repeat qt1; try done.
Create HintDb qt.
Lemma qt_size_of_dims dims ndim : quiet (size_of_dims dims ndim).
Proof. qt. Qed.
#[export] Hint Resolve qt_size_of_dims : qt.
Lemma qt_size_from_dim (k : Z) (dims : list Z) (ndim : Z) : quiet (size_from_dim k dims ndim).
Proof. qt. Qed.
#[export] Hint Resolve qt_size_from_dim : qt.
Lemma qt_size_to_dim (k : Z) (dims : list Z) (ndim : Z) : quiet (size_to_dim k dims ndim).
Proof. qt. Qed.
#[export] Hint Resolve qt_size_to_dim : qt.
Lemma qt_size_between_dim (k l : Z) (dims : list Z) (ndim : Z) : quiet (size_between_dim k l dims ndim).
Proof. qt. Qed.
#[export] Hint Resolve qt_size_between_dim : qt.
Lemma qt_fill_ints (p : hval) (cap : Z) (l : list Z) : quiet (fill_ints p cap l).
Proof. qt. Qed.
#[export] Hint Resolve qt_fill_ints : qt.
Lemma qt_create_default_layout (ltype ndim : Z) : quiet (create_default_layout ltype ndim).
Proof. qt. Qed.
#[export] Hint Resolve qt_create_default_layout : qt.
Lemma qt_create_shape (ltype : Z) (dims : list Z) (ndim : Z) : quiet (create_shape ltype dims ndim).
Proof. qt. Qed.
#[export] Hint Resolve qt_create_shape : qt.
Lemma qt_destroy_layout (min2maj : hval) : quiet (destroy_layout min2maj).
Proof. qt. Qed.
#[export] Hint Resolve qt_destroy_layout : qt.
Lemma qt_destroy_shape (dims min2maj : hval) : quiet (destroy_shape dims min2maj).
Proof. qt. Qed.
#[export] Hint Resolve qt_destroy_shape : qt.
Lemma qt_create_storage (dt : dtype) (dev : device) (size : Z) (data : hval) : quiet (create_storage dt dev size data).
Proof. qt. Qed.
#[export] Hint Resolve qt_create_storage : qt.
Lemma qt_destroy_storage (storage : hval) : quiet (destroy_storage storage).
Proof. qt. Qed.
#[export] Hint Resolve qt_destroy_storage : qt.
Lemma qt_tensor_ndim (t : hval) : quiet (tensor_ndim t).
Proof. qt. Qed.
#[export] Hint Resolve qt_tensor_ndim : qt.
Lemma qt_int_array (p : hval) : quiet (int_array p).
Proof. qt. Qed.
#[export] Hint Resolve qt_int_array : qt.
Lemma qt_tensor_dims (t : hval) : quiet (tensor_dims t).
Proof. qt. Qed.
#[export] Hint Resolve qt_tensor_dims : qt.
Lemma qt_tensor_min2maj (t : hval) : quiet (tensor_min2maj t).
Proof. qt. Qed.
#[export] Hint Resolve qt_tensor_min2maj : qt.
Lemma qt_tensor_dim (t : hval) (d : Z) : quiet (tensor_dim t d).
Proof. qt. Qed.
#[export] Hint Resolve qt_tensor_dim : qt.
Lemma qt_tensor_size (t : hval) : quiet (tensor_size t).
Proof. qt. Qed.
#[export] Hint Resolve qt_tensor_size : qt.
Lemma qt_tensor_storage (t : hval) : quiet (tensor_storage t).
Proof. qt. Qed.
#[export] Hint Resolve qt_tensor_storage : qt.
Lemma qt_tensor_dtype (t : hval) : quiet (tensor_dtype t).
Proof. qt. Qed.
#[export] Hint Resolve qt_tensor_dtype : qt.
Lemma qt_tensor_data (t : hval) : quiet (tensor_data t).
Proof. qt. Qed.
#[export] Hint Resolve qt_tensor_data : qt.
Lemma qt_tensor_device (t : hval) : quiet (tensor_device t).
Proof. qt. Qed.
#[export] Hint Resolve qt_tensor_device : qt.
Lemma qt_aitisa_tensor_set_item (t : hval) (idx : Z) (bs : list mv) : quiet (aitisa_tensor_set_item t idx bs).
Proof. qt. Qed.
#[export] Hint Resolve qt_aitisa_tensor_set_item : qt.
Lemma qt_aitisa_create (dt : dtype) (dev : device) (dims : list Z) (ndim : Z) (data : hval) (len : Z) (o : hval) : quiet (aitisa_create dt dev dims ndim data len o).
Proof. qt. Qed.
#[export] Hint Resolve qt_aitisa_create : qt.
Lemma qt_aitisa_destroy (v : hval) : quiet (aitisa_destroy v).
Proof. qt. Qed.
#[export] Hint Resolve qt_aitisa_destroy : qt.
Lemma qt_aitisa_resolve (t : hval) : quiet (aitisa_resolve t).
Proof. qt. Qed.
#[export] Hint Resolve qt_aitisa_resolve : qt.
Lemma qt_type_table (dt : dtype) : quiet (type_table dt).
Proof. qt. Qed.
#[export] Hint Resolve qt_type_table : qt.
Lemma qt_castto_in_place (dt : dtype) (d : spec_float) : quiet (castto_in_place dt d).
Proof. qt. Qed.
#[export] Hint Resolve qt_castto_in_place : qt.
Lemma qt_aitisa_get_stride (t : hval) (dimension : Z) : quiet (aitisa_get_stride t dimension).
Proof. qt. Qed.
#[export] Hint Resolve qt_aitisa_get_stride : qt.
Lemma qt_aitisa_get_all_strides (t : hval) (strides : list Z) : quiet (aitisa_get_all_strides t strides).
Proof. qt. Qed.
#[export] Hint Resolve qt_aitisa_get_all_strides : qt.
Lemma qt_assert_coords (ndim : Z) (dims coords : list Z) (len : Z) : quiet (assert_coords ndim dims coords len).
Proof. qt. Qed.
#[export] Hint Resolve qt_assert_coords : qt.
Lemma qt_aitisa_coords_to_linidx (t : hval) (coords : list Z) (len : Z) : quiet (aitisa_coords_to_linidx t coords len).
Proof. qt. Qed.
#[export] Hint Resolve qt_aitisa_coords_to_linidx : qt.
Lemma qt_aitisa_linidx_to_coords (t : hval) (linidx : Z) (coords : list Z) : quiet (aitisa_linidx_to_coords t linidx coords).
Proof. qt. Qed.
#[export] Hint Resolve qt_aitisa_linidx_to_coords : qt.
Lemma qt_aitisa_coords_to_offset (t : hval) (coords : list Z) (len : Z) : quiet (aitisa_coords_to_offset t coords len).
Proof. qt. Qed.
#[export] Hint Resolve qt_aitisa_coords_to_offset : qt.
Lemma qt_aitisa_offset_to_coords (t : hval) (offset : Z) (coords : list Z) : quiet (aitisa_offset_to_coords t offset coords).
Proof. qt. Qed.
#[export] Hint Resolve qt_aitisa_offset_to_coords : qt.
Lemma qt_aitisa_broadcast_array (d1 : list Z) (n1 : Z) (d2 : list Z) (n2 : Z) (out : list (option Z)) (nout : Z) : quiet (aitisa_broadcast_array d1 n1 d2 n2 out nout).
Proof. qt. Qed.
#[export] Hint Resolve qt_aitisa_broadcast_array : qt.
Lemma qt_cast_kernel (t2 t1 : tcode) (ind outd : hval) (size : Z) : quiet (cast_kernel t2 t1 ind outd size).
Proof. qt. Qed.
#[export] Hint Resolve qt_cast_kernel : qt.
Lemma qt_cast_template (input : hval) (out_dt : dtype) (o : hval) : quiet (cast_template input out_dt o).
Proof. qt. Qed.
#[export] Hint Resolve qt_cast_template : qt.
Lemma qt_aitisa_cast (input : hval) (dt : dtype) (o : hval) : quiet (aitisa_cast input dt o).
Proof. qt. Qed.
#[export] Hint Resolve qt_aitisa_cast : qt.
Lemma qt_aitisa_full (dt : dtype) (dev : device) (dims : list Z) (ndim : Z) (value : spec_float) (o : hval) : quiet (aitisa_full dt dev dims ndim value o).
Proof. qt. Qed.
#[export] Hint Resolve qt_aitisa_full : qt.
Lemma qt_aitisa_reshape (input : hval) (dims : list Z) (ndim : Z) (o : hval) : quiet (aitisa_reshape input dims ndim o).
Proof. qt. Qed.
#[export] Hint Resolve qt_aitisa_reshape : qt.
Lemma qt_aitisa_squeeze (input : hval) (axis : list Z) (num_axis : Z) (o : hval) : quiet (aitisa_squeeze input axis num_axis o).
Proof. qt. Qed.
#[export] Hint Resolve qt_aitisa_squeeze : qt.
Lemma qt_slice_extent (size step : Z) : quiet (slice_extent size step).
Proof. qt. Qed.
#[export] Hint Resolve qt_slice_extent : qt.
Lemma qt_slice_create_output (input : hval) (begin size step : list Z) (o : hval) : quiet (slice_create_output input begin size step o).
Proof. qt. Qed.
#[export] Hint Resolve qt_slice_create_output : qt.
Lemma qt_slice_check_parameters (input : hval) (begin size step : list Z) : quiet (slice_check_parameters input begin size step).
Proof. qt. Qed.
#[export] Hint Resolve qt_slice_check_parameters : qt.
Lemma qt_slice_advance (in_ndim : Z) (begin step boundary idx : list Z) : quiet (slice_advance in_ndim begin step boundary idx).
Proof. qt. Qed.
#[export] Hint Resolve qt_slice_advance : qt.
Lemma qt_slice_kernel (t : tcode) (input o : hval) (in_ndim : Z) (begin step idx0 boundary offs : list Z) : quiet (slice_kernel t input o in_ndim begin step idx0 boundary offs).
Proof. qt. Qed.
#[export] Hint Resolve qt_slice_kernel : qt.
Lemma qt_slice_template (input : hval) (begin size step : list Z) (o : hval) : quiet (slice_template input begin size step o).
Proof. qt. Qed.
#[export] Hint Resolve qt_slice_template : qt.
Lemma qt_aitisa_slice (input : hval) (begin size step : list Z) (o : hval) : quiet (aitisa_slice input begin size step o).
Proof. qt. Qed.
#[export] Hint Resolve qt_aitisa_slice : qt.
Lemma qt_aitisa_duplicate (input : hval) (o : hval) : quiet (aitisa_duplicate input o).
Proof. qt. Qed.
#[export] Hint Resolve qt_aitisa_duplicate : qt.
Lemma qt_sqrt_create_output (input o : hval) : quiet (sqrt_create_output input o).
Proof. qt. Qed.
#[export] Hint Resolve qt_sqrt_create_output : qt.
Lemma qt_sqrt_kernel (t : tcode) (input o : hval) (size : Z) : quiet (sqrt_kernel t input o size).
Proof. qt. Qed.
#[export] Hint Resolve qt_sqrt_kernel : qt.
Lemma qt_aitisa_sqrt (input o : hval) : quiet (aitisa_sqrt input o).
Proof. qt. Qed.
#[export] Hint Resolve qt_aitisa_sqrt : qt.
Lemma qt_batch_strides (dims : list Z) (ndim : Z) (strides : list (option Z)) (nstride : Z) : quiet (batch_strides dims ndim strides nstride).
Proof. qt. Qed.
#[export] Hint Resolve qt_batch_strides : qt.
Lemma qt_mac (t : tcode) (A : hval) (oa ai : Z) (B : hval) (ob bi : Z) (C : hval) (oc ci : Z) : quiet (mac t A oa ai B ob bi C oc ci).
Proof. qt. Qed.
#[export] Hint Resolve qt_mac : qt.
Lemma qt_vv_kernel (t : tcode) (X Y Z0 : hval) (L : Z) : quiet (vv_kernel t X Y Z0 L).
Proof. qt. Qed.
#[export] Hint Resolve qt_vv_kernel : qt.
Lemma qt_mv_kernel (t : tcode) (A X B : hval) (m n : Z) : quiet (mv_kernel t A X B m n).
Proof. qt. Qed.
#[export] Hint Resolve qt_mv_kernel : qt.
Lemma qt_mm_kernel (t : tcode) (A : hval) (oa : Z) (B : hval) (ob : Z) (C : hval) (oc : Z) (m k n : Z) : quiet (mm_kernel t A oa B ob C oc m k n).
Proof. qt. Qed.
#[export] Hint Resolve qt_mm_kernel : qt.
Lemma qt_batch_mm_kernel (t : tcode) (A : hval) (As : list Z) (B : hval) (Bs : list Z) (C : hval) (Cs : list Z) (m k n n_batch : Z) : quiet (batch_mm_kernel t A As B Bs C Cs m k n n_batch).
Proof. qt. Qed.
#[export] Hint Resolve qt_batch_mm_kernel : qt.
Lemma qt_vv_template (dt : dtype) (X Y Z0 : hval) (L : Z) : quiet (vv_template dt X Y Z0 L).
Proof. qt. Qed.
#[export] Hint Resolve qt_vv_template : qt.
Lemma qt_mv_template (dt : dtype) (A X B : hval) (m n : Z) : quiet (mv_template dt A X B m n).
Proof. qt. Qed.
#[export] Hint Resolve qt_mv_template : qt.
Lemma qt_mm_template (dt : dtype) (A B C : hval) (m k n : Z) : quiet (mm_template dt A B C m k n).
Proof. qt. Qed.
#[export] Hint Resolve qt_mm_template : qt.
Lemma qt_batch_mm_template (dt : dtype) (A : hval) (As : list Z) (B : hval) (Bs : list Z) (C : hval) (Cs : list Z) (m k n n_batch : Z) : quiet (batch_mm_template dt A As B Bs C Cs m k n n_batch).
Proof. qt. Qed.
#[export] Hint Resolve qt_batch_mm_template : qt.
Lemma qt_batch_offset (dims_out s1 s2 : list Z) (ndim_batch : Z) (i : Z) : quiet (batch_offset dims_out s1 s2 ndim_batch i).
Proof. qt. Qed.
#[export] Hint Resolve qt_batch_offset : qt.
Lemma qt_zeros_like (tensor1 : hval) (dims : list Z) (ndim : Z) (o : hval) : quiet (zeros_like tensor1 dims ndim o).
Proof. qt. Qed.
#[export] Hint Resolve qt_zeros_like : qt.
Lemma qt_matmul_vv (t1 t2 o : hval) : quiet (matmul_vv t1 t2 o).
Proof. qt. Qed.
#[export] Hint Resolve qt_matmul_vv : qt.
Lemma qt_matmul_mv (t1 t2 o : hval) : quiet (matmul_mv t1 t2 o).
Proof. qt. Qed.
#[export] Hint Resolve qt_matmul_mv : qt.
Lemma qt_matmul_mm (t1 t2 o : hval) : quiet (matmul_mm t1 t2 o).
Proof. qt. Qed.
#[export] Hint Resolve qt_matmul_mm : qt.
Lemma qt_matmul_vm (t1 t2 o : hval) : quiet (matmul_vm t1 t2 o).
Proof. qt. Qed.
#[export] Hint Resolve qt_matmul_vm : qt.
Lemma qt_matmul_tv (t1 t2 o : hval) (nd1 : Z) : quiet (matmul_tv t1 t2 o nd1).
Proof. qt. Qed.
#[export] Hint Resolve qt_matmul_tv : qt.
Lemma qt_matmul_vt (t1 t2 o : hval) (nd2 : Z) : quiet (matmul_vt t1 t2 o nd2).
Proof. qt. Qed.
#[export] Hint Resolve qt_matmul_vt : qt.
Lemma qt_matmul_tt (t1 t2 o : hval) (nd1 nd2 : Z) : quiet (matmul_tt t1 t2 o nd1 nd2).
Proof. qt. Qed.
#[export] Hint Resolve qt_matmul_tt : qt.
Lemma qt_aitisa_matmul (t1 t2 o : hval) : quiet (aitisa_matmul t1 t2 o).
Proof. qt. Qed.
#[export] Hint Resolve qt_aitisa_matmul : qt.
Lemma qt_dot_kernel (t : tcode) (d1 d2 : hval) (size : Z) (d_o : hval) : quiet (dot_kernel t d1 d2 size d_o).
Proof. qt. Qed.
#[export] Hint Resolve qt_dot_kernel : qt.
Lemma qt_dot_get_value (t : hval) (idx : Z) : quiet (dot_get_value t idx).
Proof. qt. Qed.
#[export] Hint Resolve qt_dot_get_value : qt.
Lemma qt_vector_vector_dot (t1 t2 o : hval) : quiet (vector_vector_dot t1 t2 o).
Proof. qt. Qed.
#[export] Hint Resolve qt_vector_vector_dot : qt.
Lemma qt_dot_advance (n : nat) (skip : Z) (dims idx : list Z) : quiet (dot_advance n skip dims idx).
Proof. qt. Qed.
#[export] Hint Resolve qt_dot_advance : qt.
Lemma qt_tensor_vector_dot (t1 t2 o : hval) : quiet (tensor_vector_dot t1 t2 o).
Proof. qt. Qed.
#[export] Hint Resolve qt_tensor_vector_dot : qt.
Lemma qt_multidim_dot (t1 t2 o : hval) : quiet (multidim_dot t1 t2 o).
Proof. qt. Qed.
#[export] Hint Resolve qt_multidim_dot : qt.
Lemma qt_nn_create_like (input o : hval) : quiet (nn_create_like input o).
Proof. qt. Qed.
#[export] Hint Resolve qt_nn_create_like : qt.
Lemma qt_relu_elem (t : tcode) (v : val) : quiet (relu_elem t v).
Proof. qt. Qed.
#[export] Hint Resolve qt_relu_elem : qt.
Lemma qt_aitisa_relu (input o : hval) : quiet (aitisa_relu input o).
Proof. qt. Qed.
#[export] Hint Resolve qt_aitisa_relu : qt.
Lemma qt_exp_of (t : tcode) (v : val) : quiet (exp_of t v).
Proof. qt. Qed.
#[export] Hint Resolve qt_exp_of : qt.
Lemma qt_sigmoid_elem (t : tcode) (v : val) : quiet (sigmoid_elem t v).
Proof. qt. Qed.
#[export] Hint Resolve qt_sigmoid_elem : qt.
Lemma qt_aitisa_sigmoid (input o : hval) : quiet (aitisa_sigmoid input o).
Proof. qt. Qed.
#[export] Hint Resolve qt_aitisa_sigmoid : qt.
Lemma qt_tanh_elem (t : tcode) (v : val) : quiet (tanh_elem t v).
Proof. qt. Qed.
#[export] Hint Resolve qt_tanh_elem : qt.
Lemma qt_aitisa_tanh (input o : hval) : quiet (aitisa_tanh input o).
Proof. qt. Qed.
#[export] Hint Resolve qt_aitisa_tanh : qt.
Lemma qt_int_of_double (x : spec_float) : quiet (int_of_double x).
Proof. qt. Qed.
#[export] Hint Resolve qt_int_of_double : qt.
Lemma qt_softmax_create_output (input o : hval) : quiet (softmax_create_output input o).
Proof. qt. Qed.
#[export] Hint Resolve qt_softmax_create_output : qt.
Lemma qt_softmax_exps (t : tcode) (ind outd : hval) (start step n : Z) : quiet (softmax_exps t ind outd start step n).
Proof. qt. Qed.
#[export] Hint Resolve qt_softmax_exps : qt.
Lemma qt_softmax_norm (t : tcode) (outd : hval) (start step n : Z) (total : spec_float) : quiet (softmax_norm t outd start step n total).
Proof. qt. Qed.
#[export] Hint Resolve qt_softmax_norm : qt.
Lemma qt_softmax_with_all (input o : hval) : quiet (softmax_with_all input o).
Proof. qt. Qed.
#[export] Hint Resolve qt_softmax_with_all : qt.
Lemma qt_softmax_advance (n : nat) (axis : Z) (dims idx : list Z) : quiet (softmax_advance n axis dims idx).
Proof. qt. Qed.
#[export] Hint Resolve qt_softmax_advance : qt.
Lemma qt_lin_index (ndim : Z) (index offset : list Z) : quiet (lin_index ndim index offset).
Proof. qt. Qed.
#[export] Hint Resolve qt_lin_index : qt.
Lemma qt_row_offsets (ndim : Z) (dims : list Z) : quiet (row_offsets ndim dims).
Proof. qt. Qed.
#[export] Hint Resolve qt_row_offsets : qt.
Lemma qt_softmax_axis_kernel (t : tcode) (input o : hval) (ndim : Z) (dims : list Z) (axis batch element_offset : Z) (offs : list Z) : quiet (softmax_axis_kernel t input o ndim dims axis batch element_offset offs).
Proof. qt. Qed.
#[export] Hint Resolve qt_softmax_axis_kernel : qt.
Lemma qt_softmax_along_axis (input : hval) (axis : Z) (o : hval) : quiet (softmax_along_axis input axis o).
Proof. qt. Qed.
#[export] Hint Resolve qt_softmax_along_axis : qt.
Lemma qt_aitisa_softmax (input : hval) (axis : Z) (o : hval) : quiet (aitisa_softmax input axis o).
Proof. qt. Qed.
#[export] Hint Resolve qt_aitisa_softmax : qt.
Lemma qt_pooling_extent (d k s p dil : Z) : quiet (pooling_extent d k s p dil).
Proof. qt. Qed.
#[export] Hint Resolve qt_pooling_extent : qt.
Lemma qt_pooling_create_output (input : hval) (ksize stride padding dilation : list Z) (o : hval) : quiet (pooling_create_output input ksize stride padding dilation o).
Proof. qt. Qed.
#[export] Hint Resolve qt_pooling_create_output : qt.
Lemma qt_pool_tail (head k dil : Z) : quiet (pool_tail head k dil).
Proof. qt. Qed.
#[export] Hint Resolve qt_pool_tail : qt.
Lemma qt_pool_position (n : Z) (dims strides index : list Z) (bc : Z) : quiet (pool_position n dims strides index bc).
Proof. qt. Qed.
#[export] Hint Resolve qt_pool_position : qt.
Lemma qt_pool_kernel (mode : pmode) (t : tcode) (ind : hval) (pos : Z) (temp : spec_float) : quiet (pool_kernel mode t ind pos temp).
Proof. qt. Qed.
#[export] Hint Resolve qt_pool_kernel : qt.
Lemma qt_pool_output (mode : pmode) (t : tcode) (outd : hval) (pos : Z) (temp : spec_float) (window_size : Z) : quiet (pool_output mode t outd pos temp window_size).
Proof. qt. Qed.
#[export] Hint Resolve qt_pool_output : qt.
Lemma qt_pool_next (n : nat) (dilation head tail index : list Z) : quiet (pool_next n dilation head tail index).
Proof. qt. Qed.
#[export] Hint Resolve qt_pool_next : qt.
Lemma qt_pool_slide (n : nat) (dims ksize stride padding dilation : list Z) (head tail : list Z) : quiet (pool_slide n dims ksize stride padding dilation head tail).
Proof. qt. Qed.
#[export] Hint Resolve qt_pool_slide : qt.
Lemma qt_pool_init (n : Z) (ksize padding dilation : list Z) : quiet (pool_init n ksize padding dilation).
Proof. qt. Qed.
#[export] Hint Resolve qt_pool_init : qt.
Lemma qt_conv_output_dims (in_dims fil_dims stride padding dilation : list Z) (ndim : Z) : quiet (conv_output_dims in_dims fil_dims stride padding dilation ndim).
Proof. qt. Qed.
#[export] Hint Resolve qt_conv_output_dims : qt.
Lemma qt_conv_position (sdim : Z) (in_dims base dilation fil tmp : list Z) : quiet (conv_position sdim in_dims base dilation fil tmp).
Proof. qt. Qed.
#[export] Hint Resolve qt_conv_position : qt.
Lemma qt_conv_channel (input filter ind fild : hval) (ndim sdim : Z) (in_dims dilation base : list Z) (oc ic fil_space : Z) (acc : val) : quiet (conv_channel input filter ind fild ndim sdim in_dims dilation base oc ic fil_space acc).
Proof. qt. Qed.
#[export] Hint Resolve qt_conv_channel : qt.
Lemma qt_conv_element (input filter new ind fild outd : hval) (ndim sdim : Z) (in_dims stride padding dilation : list Z) (b oc out_idx in_chan fil_space : Z) : quiet (conv_element input filter new ind fild outd ndim sdim in_dims stride padding dilation b oc out_idx in_chan fil_space).
Proof. qt. Qed.
#[export] Hint Resolve qt_conv_element : qt.
Lemma qt_aitisa_conv_float (input filter : hval) (stride padding dilation : list Z) (o : hval) : quiet (aitisa_conv_float input filter stride padding dilation o).
Proof. qt. Qed.
#[export] Hint Resolve qt_aitisa_conv_float : qt.
Lemma qt_aitisa_conv (input filter : hval) (stride padding dilation : list Z) (groups : Z) (o : hval) : quiet (aitisa_conv input filter stride padding dilation groups o).
Proof. qt. Qed.
#[export] Hint Resolve qt_aitisa_conv : qt.
Lemma qt_aitisa_conv2d (input filter : hval) (stride padding dilation : list Z) (groups : Z) (o : hval) : quiet (aitisa_conv2d input filter stride padding dilation groups o).
Proof. qt. Qed.
#[export] Hint Resolve qt_aitisa_conv2d : qt.
Lemma qt_aitisa_conv3d (input filter : hval) (stride padding dilation : list Z) (groups : Z) (o : hval) : quiet (aitisa_conv3d input filter stride padding dilation groups o).
Proof. qt. Qed.
#[export] Hint Resolve qt_aitisa_conv3d : qt.

Lemma qt_pool_window mode t ind n dims strides dil head tail bc : quiet (pool_window mode t ind n dims strides dil head tail bc).
Proof. qt. Qed.
#[export] Hint Resolve qt_pool_window : qt.
Lemma qt_aitisa_pooling t m k s p d o : quiet (aitisa_pooling t m k s p d o).
Proof. qt. Qed.
#[export] Hint Resolve qt_aitisa_pooling : qt.


Lemma run_quiet x o E s r s' : (forall t d, x <> ODropout t d) -> run_op x o E s = Done r s' -> rpos s' = rpos s.
Proof.
  intros H. assert (Q : quiet (run_op x o)); [|by apply Q].
  destruct x; cbn [run_op]; auto with qt; [qt..|by destruct (H t rate)|qt].
Qed.
