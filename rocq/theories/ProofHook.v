(** * ProofHook: operations that ask nobody but the installed allocator *)
From stdpp Require Import gmap list.
From Coq Require Import ZArith Lia Floats.SpecFloat.
From Verif Require Import Base Mem Spec SpecHeap SpecHist ModelCore ModelBasic ModelMath ModelNN.
Open Scope Z_scope.

(** [E'] differs from [E] only in the answers of allocators that are not installed. *)
Record agree (E E' : env) : Prop := {
  ag_alloc : e_alloc E' = e_alloc E;
  ag_dealloc : e_dealloc E' = e_dealloc E;
  ag_rand : e_rand E' = e_rand E;
  ag_exp : e_exp E' = e_exp E;
  ag_garbage : e_garbage E' = e_garbage E;
  ag_fuel : e_fuel E' = e_fuel E;
  ag_ok : forall k n, e_alloc_ok E' (e_alloc E) k n = e_alloc_ok E (e_alloc E) k n
}.
Definition hooked {A} (m : M A) : Prop := forall E E' s, agree E E' -> m E' s = m E s.

Lemma hk_ret {A} (a : A) : hooked (ret a). Proof. done. Qed.
Lemma hk_undef {A} u : hooked (undef u : M A). Proof. done. Qed.
Lemma hk_abort {A} : hooked (abort : M A). Proof. done. Qed.
Lemma hk_diverge {A} : hooked (diverge : M A). Proof. done. Qed.
Lemma hk_bind {A B} (m : M A) (k : A -> M B) : hooked m -> (forall a, hooked (k a)) -> hooked (bind m k).
Proof.
  intros Hm Hk E E' s a. unfold bind. rewrite (Hm _ _ _ a). destruct (m E s) as [x s'| | |]; try done. by apply Hk.
Qed.
Lemma hk_check b u : hooked (check b u). Proof. by destruct b. Qed.
Lemma hk_opt {A} (o : option A) u : hooked (opt o u). Proof. by destruct o. Qed.
Lemma hk_assert b : hooked (assert_ b). Proof. by destruct b. Qed.
Lemma hk_ask {A} (f : env -> A) : (forall E E', agree E E' -> f E' = f E) -> hooked (ask f).
Proof. intros H E E' s a. unfold ask. by rewrite (H _ _ a). Qed.
Lemma hk_get_heap : hooked get_heap. Proof. done. Qed.
Lemma hk_put_block b x : hooked (put_block b x). Proof. done. Qed.
Lemma hk_raw_alloc n c : hooked (raw_alloc n c).
Proof. intros E E' s a. unfold raw_alloc, alloc_tag. rewrite (ag_alloc _ _ a), (ag_ok _ _ a). done. Qed.
Lemma hk_raw_dealloc p : hooked (raw_dealloc p).
Proof. intros E E' s a. unfold raw_dealloc, free_tag. by rewrite (ag_dealloc _ _ a). Qed.
Lemma hk_deref p : hooked (deref p). Proof. done. Qed.
Lemma hk_rand : hooked rand_. Proof. intros E E' s a. unfold rand_. by rewrite (ag_rand _ _ a). Qed.
Lemma hk_iter {S} n i (body : Z -> S -> M S) s : (forall i s, hooked (body i s)) -> hooked (iter n i body s).
Proof.
  intros H. revert i s. induction n as [|n IH]; intros i s; [apply hk_ret|]. cbn [iter].
  apply hk_bind; [apply H|]. intros. apply IH.
Qed.
Lemma hk_iter_ret {S R} n i (body : Z -> S -> M (ctl S R)) s : (forall i s, hooked (body i s)) -> hooked (iter_ret n i body s).
Proof.
  intros H. revert i s. induction n as [|n IH]; intros i s; [apply hk_ret|]. cbn [iter_ret].
  apply hk_bind; [apply H|]. intros [x|r]; [apply IH|apply hk_ret].
Qed.
Lemma hk_iter_down {S} n (body : Z -> S -> M S) s : (forall i s, hooked (body i s)) -> hooked (iter_down n body s).
Proof.
  intros H. revert s. induction n as [|n IH]; intros s; [apply hk_ret|]. cbn [iter_down].
  apply hk_bind; [apply H|]. intros. apply IH.
Qed.
Lemma hk_iter_down_break {S} n (body : Z -> S -> M (S * bool)) s : (forall i s, hooked (body i s)) -> hooked (iter_down_break n body s).
Proof.
  intros H. revert s. induction n as [|n IH]; intros s; [apply hk_ret|]. cbn [iter_down_break].
  apply hk_bind; [apply H|]. intros [x []]; [apply IH|apply hk_ret].
Qed.
Lemma hk_while_ret {S R} (body : S -> M (ctl (S * bool) R)) s : (forall s, hooked (body s)) -> hooked (while_ret body s).
Proof.
  intros H E E' x a. unfold while_ret. rewrite (ag_fuel _ _ a). generalize (e_fuel E) as n. intros n.
  assert (K : hooked (while_ret_fuel n body s)); [|by apply K].
  revert s. induction n as [|n IH]; intros s; cbn [while_ret_fuel]; [apply hk_diverge|].
  apply hk_bind; [apply H|]. intros [[y []]|r]; [apply IH|apply hk_ret|apply hk_ret].
Qed.
Lemma hk_dispatch_all {A} dt (f : tcode -> M A) d : (forall t, hooked (f t)) -> hooked d -> hooked (dispatch_all dt f d).
Proof. intros H1 H2. unfold dispatch_all. repeat case_match; auto. Qed.
Lemma hk_dispatch_float {A} dt (f : tcode -> M A) d : (forall t, hooked (f t)) -> hooked d -> hooked (dispatch_float dt f d).
Proof. intros H1 H2. unfold dispatch_float. repeat case_match; auto. Qed.

Ltac head_of t := match t with ?f _ => head_of f | _ => t end.
Ltac hk1 :=
  lazymatch goal with
  | |- forall _, _ => intros ?
  | |- hooked (ret _) => apply hk_ret
  | |- hooked (undef _) => apply hk_undef
  | |- hooked abort => apply hk_abort
  | |- hooked diverge => apply hk_diverge
  | |- hooked (check _ _) => apply hk_check
  | |- hooked (opt _ _) => apply hk_opt
  | |- hooked (assert_ _) => apply hk_assert
  | |- hooked (ask _) => apply hk_ask; intros ? ? []; congruence
  | |- hooked get_heap => apply hk_get_heap
  | |- hooked (put_block _ _) => apply hk_put_block
  | |- hooked (raw_alloc _ _) => apply hk_raw_alloc
  | |- hooked (raw_dealloc _) => apply hk_raw_dealloc
  | |- hooked (deref _) => apply hk_deref
  | |- hooked rand_ => apply hk_rand
  | |- hooked (bind _ _) => apply hk_bind
  | |- hooked (iter _ _ _ _) => apply hk_iter
  | |- hooked (iter_ret _ _ _ _) => apply hk_iter_ret
  | |- hooked (iter_down _ _ _) => apply hk_iter_down
  | |- hooked (iter_down_break _ _ _) => apply hk_iter_down_break
  | |- hooked (while_ret _ _) => apply hk_while_ret
  | |- hooked (dispatch_all _ _ _) => apply hk_dispatch_all
  | |- hooked (dispatch_float _ _ _) => apply hk_dispatch_float
  | |- hooked (match ?x with _ => _ end) => destruct x
  | |- hooked ?m => first [solve [eauto with hk] | let h := head_of m in unfold h; cbv beta]
  end.
Ltac hk := intros; repeat hk1; try done.
Create HintDb hk.
Lemma hk_size_of_dims dims ndim : hooked (size_of_dims dims ndim).
Proof. hk. Qed.
#[export] Hint Resolve hk_size_of_dims : hk.
Lemma hk_size_from_dim (k : Z) (dims : list Z) (ndim : Z) : hooked (size_from_dim k dims ndim).
Proof. hk. Qed.
#[export] Hint Resolve hk_size_from_dim : hk.
Lemma hk_size_to_dim (k : Z) (dims : list Z) (ndim : Z) : hooked (size_to_dim k dims ndim).
Proof. hk. Qed.
#[export] Hint Resolve hk_size_to_dim : hk.
Lemma hk_size_between_dim (k l : Z) (dims : list Z) (ndim : Z) : hooked (size_between_dim k l dims ndim).
Proof. hk. Qed.
#[export] Hint Resolve hk_size_between_dim : hk.
Lemma hk_fill_ints (p : hval) (cap : Z) (l : list Z) : hooked (fill_ints p cap l).
Proof. hk. Qed.
#[export] Hint Resolve hk_fill_ints : hk.
Lemma hk_create_default_layout (ltype ndim : Z) : hooked (create_default_layout ltype ndim).
Proof. hk. Qed.
#[export] Hint Resolve hk_create_default_layout : hk.
Lemma hk_create_shape (ltype : Z) (dims : list Z) (ndim : Z) : hooked (create_shape ltype dims ndim).
Proof. hk. Qed.
#[export] Hint Resolve hk_create_shape : hk.
Lemma hk_destroy_layout (min2maj : hval) : hooked (destroy_layout min2maj).
Proof. hk. Qed.
#[export] Hint Resolve hk_destroy_layout : hk.
Lemma hk_destroy_shape (dims min2maj : hval) : hooked (destroy_shape dims min2maj).
Proof. hk. Qed.
#[export] Hint Resolve hk_destroy_shape : hk.
Lemma hk_create_storage (dt : dtype) (dev : device) (size : Z) (data : hval) : hooked (create_storage dt dev size data).
Proof. hk. Qed.
#[export] Hint Resolve hk_create_storage : hk.
Lemma hk_destroy_storage (storage : hval) : hooked (destroy_storage storage).
Proof. hk. Qed.
#[export] Hint Resolve hk_destroy_storage : hk.
Lemma hk_tensor_ndim (t : hval) : hooked (tensor_ndim t).
Proof. hk. Qed.
#[export] Hint Resolve hk_tensor_ndim : hk.
Lemma hk_int_array (p : hval) : hooked (int_array p).
Proof. hk. Qed.
#[export] Hint Resolve hk_int_array : hk.
Lemma hk_tensor_dims (t : hval) : hooked (tensor_dims t).
Proof. hk. Qed.
#[export] Hint Resolve hk_tensor_dims : hk.
Lemma hk_tensor_min2maj (t : hval) : hooked (tensor_min2maj t).
Proof. hk. Qed.
#[export] Hint Resolve hk_tensor_min2maj : hk.
Lemma hk_tensor_dim (t : hval) (d : Z) : hooked (tensor_dim t d).
Proof. hk. Qed.
#[export] Hint Resolve hk_tensor_dim : hk.
Lemma hk_tensor_size (t : hval) : hooked (tensor_size t).
Proof. hk. Qed.
#[export] Hint Resolve hk_tensor_size : hk.
Lemma hk_tensor_storage (t : hval) : hooked (tensor_storage t).
Proof. hk. Qed.
#[export] Hint Resolve hk_tensor_storage : hk.
Lemma hk_tensor_dtype (t : hval) : hooked (tensor_dtype t).
Proof. hk. Qed.
#[export] Hint Resolve hk_tensor_dtype : hk.
Lemma hk_tensor_data (t : hval) : hooked (tensor_data t).
Proof. hk. Qed.
#[export] Hint Resolve hk_tensor_data : hk.
Lemma hk_tensor_device (t : hval) : hooked (tensor_device t).
Proof. hk. Qed.
#[export] Hint Resolve hk_tensor_device : hk.
Lemma hk_aitisa_tensor_set_item (t : hval) (idx : Z) (bs : list mv) : hooked (aitisa_tensor_set_item t idx bs).
Proof. hk. Qed.
#[export] Hint Resolve hk_aitisa_tensor_set_item : hk.
Lemma hk_aitisa_create (dt : dtype) (dev : device) (dims : list Z) (ndim : Z) (data : hval) (len : Z) (o : hval) : hooked (aitisa_create dt dev dims ndim data len o).
Proof. hk. Qed.
#[export] Hint Resolve hk_aitisa_create : hk.
Lemma hk_aitisa_destroy (v : hval) : hooked (aitisa_destroy v).
Proof. hk. Qed.
#[export] Hint Resolve hk_aitisa_destroy : hk.
Lemma hk_aitisa_resolve (t : hval) : hooked (aitisa_resolve t).
Proof. hk. Qed.
#[export] Hint Resolve hk_aitisa_resolve : hk.
Lemma hk_type_table (dt : dtype) : hooked (type_table dt).
Proof. hk. Qed.
#[export] Hint Resolve hk_type_table : hk.
Lemma hk_castto_in_place (dt : dtype) (d : spec_float) : hooked (castto_in_place dt d).
Proof. hk. Qed.
#[export] Hint Resolve hk_castto_in_place : hk.
Lemma hk_aitisa_get_stride (t : hval) (dimension : Z) : hooked (aitisa_get_stride t dimension).
Proof. hk. Qed.
#[export] Hint Resolve hk_aitisa_get_stride : hk.
Lemma hk_aitisa_get_all_strides (t : hval) (strides : list Z) : hooked (aitisa_get_all_strides t strides).
Proof. hk. Qed.
#[export] Hint Resolve hk_aitisa_get_all_strides : hk.
Lemma hk_assert_coords (ndim : Z) (dims coords : list Z) (len : Z) : hooked (assert_coords ndim dims coords len).
Proof. hk. Qed.
#[export] Hint Resolve hk_assert_coords : hk.
Lemma hk_aitisa_coords_to_linidx (t : hval) (coords : list Z) (len : Z) : hooked (aitisa_coords_to_linidx t coords len).
Proof. hk. Qed.
#[export] Hint Resolve hk_aitisa_coords_to_linidx : hk.
Lemma hk_aitisa_linidx_to_coords (t : hval) (linidx : Z) (coords : list Z) : hooked (aitisa_linidx_to_coords t linidx coords).
Proof. hk. Qed.
#[export] Hint Resolve hk_aitisa_linidx_to_coords : hk.
Lemma hk_aitisa_coords_to_offset (t : hval) (coords : list Z) (len : Z) : hooked (aitisa_coords_to_offset t coords len).
Proof. hk. Qed.
#[export] Hint Resolve hk_aitisa_coords_to_offset : hk.
Lemma hk_aitisa_offset_to_coords (t : hval) (offset : Z) (coords : list Z) : hooked (aitisa_offset_to_coords t offset coords).
Proof. hk. Qed.
#[export] Hint Resolve hk_aitisa_offset_to_coords : hk.
Lemma hk_aitisa_broadcast_array (d1 : list Z) (n1 : Z) (d2 : list Z) (n2 : Z) (out : list (option Z)) (nout : Z) : hooked (aitisa_broadcast_array d1 n1 d2 n2 out nout).
Proof. hk. Qed.
#[export] Hint Resolve hk_aitisa_broadcast_array : hk.
Lemma hk_cast_kernel (t2 t1 : tcode) (ind outd : hval) (size : Z) : hooked (cast_kernel t2 t1 ind outd size).
Proof. hk. Qed.
#[export] Hint Resolve hk_cast_kernel : hk.
Lemma hk_cast_template (input : hval) (out_dt : dtype) (o : hval) : hooked (cast_template input out_dt o).
Proof. hk. Qed.
#[export] Hint Resolve hk_cast_template : hk.
Lemma hk_aitisa_cast (input : hval) (dt : dtype) (o : hval) : hooked (aitisa_cast input dt o).
Proof. hk. Qed.
#[export] Hint Resolve hk_aitisa_cast : hk.
Lemma hk_aitisa_full (dt : dtype) (dev : device) (dims : list Z) (ndim : Z) (value : spec_float) (o : hval) : hooked (aitisa_full dt dev dims ndim value o).
Proof. hk. Qed.
#[export] Hint Resolve hk_aitisa_full : hk.
Lemma hk_aitisa_reshape (input : hval) (dims : list Z) (ndim : Z) (o : hval) : hooked (aitisa_reshape input dims ndim o).
Proof. hk. Qed.
#[export] Hint Resolve hk_aitisa_reshape : hk.
Lemma hk_aitisa_squeeze (input : hval) (axis : list Z) (num_axis : Z) (o : hval) : hooked (aitisa_squeeze input axis num_axis o).
Proof. hk. Qed.
#[export] Hint Resolve hk_aitisa_squeeze : hk.
Lemma hk_slice_extent (size step : Z) : hooked (slice_extent size step).
Proof. hk. Qed.
#[export] Hint Resolve hk_slice_extent : hk.
Lemma hk_slice_create_output (input : hval) (begin size step : list Z) (o : hval) : hooked (slice_create_output input begin size step o).
Proof. hk. Qed.
#[export] Hint Resolve hk_slice_create_output : hk.
Lemma hk_slice_check_parameters (input : hval) (begin size step : list Z) : hooked (slice_check_parameters input begin size step).
Proof. hk. Qed.
#[export] Hint Resolve hk_slice_check_parameters : hk.
Lemma hk_slice_advance (in_ndim : Z) (begin step boundary idx : list Z) : hooked (slice_advance in_ndim begin step boundary idx).
Proof. hk. Qed.
#[export] Hint Resolve hk_slice_advance : hk.
Lemma hk_slice_kernel (t : tcode) (input o : hval) (in_ndim : Z) (begin step idx0 boundary offs : list Z) : hooked (slice_kernel t input o in_ndim begin step idx0 boundary offs).
Proof. hk. Qed.
#[export] Hint Resolve hk_slice_kernel : hk.
Lemma hk_slice_template (input : hval) (begin size step : list Z) (o : hval) : hooked (slice_template input begin size step o).
Proof. hk. Qed.
#[export] Hint Resolve hk_slice_template : hk.
Lemma hk_aitisa_slice (input : hval) (begin size step : list Z) (o : hval) : hooked (aitisa_slice input begin size step o).
Proof. hk. Qed.
#[export] Hint Resolve hk_aitisa_slice : hk.
Lemma hk_aitisa_duplicate (input : hval) (o : hval) : hooked (aitisa_duplicate input o).
Proof. hk. Qed.
#[export] Hint Resolve hk_aitisa_duplicate : hk.
Lemma hk_sqrt_create_output (input o : hval) : hooked (sqrt_create_output input o).
Proof. hk. Qed.
#[export] Hint Resolve hk_sqrt_create_output : hk.
Lemma hk_sqrt_kernel (t : tcode) (input o : hval) (size : Z) : hooked (sqrt_kernel t input o size).
Proof. hk. Qed.
#[export] Hint Resolve hk_sqrt_kernel : hk.
Lemma hk_aitisa_sqrt (input o : hval) : hooked (aitisa_sqrt input o).
Proof. hk. Qed.
#[export] Hint Resolve hk_aitisa_sqrt : hk.
Lemma hk_batch_strides (dims : list Z) (ndim : Z) (strides : list (option Z)) (nstride : Z) : hooked (batch_strides dims ndim strides nstride).
Proof. hk. Qed.
#[export] Hint Resolve hk_batch_strides : hk.
Lemma hk_mac (t : tcode) (A : hval) (oa ai : Z) (B : hval) (ob bi : Z) (C : hval) (oc ci : Z) : hooked (mac t A oa ai B ob bi C oc ci).
Proof. hk. Qed.
#[export] Hint Resolve hk_mac : hk.
Lemma hk_vv_kernel (t : tcode) (X Y Z0 : hval) (L : Z) : hooked (vv_kernel t X Y Z0 L).
Proof. hk. Qed.
#[export] Hint Resolve hk_vv_kernel : hk.
Lemma hk_mv_kernel (t : tcode) (A X B : hval) (m n : Z) : hooked (mv_kernel t A X B m n).
Proof. hk. Qed.
#[export] Hint Resolve hk_mv_kernel : hk.
Lemma hk_mm_kernel (t : tcode) (A : hval) (oa : Z) (B : hval) (ob : Z) (C : hval) (oc : Z) (m k n : Z) : hooked (mm_kernel t A oa B ob C oc m k n).
Proof. hk. Qed.
#[export] Hint Resolve hk_mm_kernel : hk.
Lemma hk_batch_mm_kernel (t : tcode) (A : hval) (As : list Z) (B : hval) (Bs : list Z) (C : hval) (Cs : list Z) (m k n n_batch : Z) : hooked (batch_mm_kernel t A As B Bs C Cs m k n n_batch).
Proof. hk. Qed.
#[export] Hint Resolve hk_batch_mm_kernel : hk.
Lemma hk_vv_template (dt : dtype) (X Y Z0 : hval) (L : Z) : hooked (vv_template dt X Y Z0 L).
Proof. hk. Qed.
#[export] Hint Resolve hk_vv_template : hk.
Lemma hk_mv_template (dt : dtype) (A X B : hval) (m n : Z) : hooked (mv_template dt A X B m n).
Proof. hk. Qed.
#[export] Hint Resolve hk_mv_template : hk.
Lemma hk_mm_template (dt : dtype) (A B C : hval) (m k n : Z) : hooked (mm_template dt A B C m k n).
Proof. hk. Qed.
#[export] Hint Resolve hk_mm_template : hk.
Lemma hk_batch_mm_template (dt : dtype) (A : hval) (As : list Z) (B : hval) (Bs : list Z) (C : hval) (Cs : list Z) (m k n n_batch : Z) : hooked (batch_mm_template dt A As B Bs C Cs m k n n_batch).
Proof. hk. Qed.
#[export] Hint Resolve hk_batch_mm_template : hk.
Lemma hk_batch_offset (dims_out s1 s2 : list Z) (ndim_batch : Z) (i : Z) : hooked (batch_offset dims_out s1 s2 ndim_batch i).
Proof. hk. Qed.
#[export] Hint Resolve hk_batch_offset : hk.
Lemma hk_zeros_like (tensor1 : hval) (dims : list Z) (ndim : Z) (o : hval) : hooked (zeros_like tensor1 dims ndim o).
Proof. hk. Qed.
#[export] Hint Resolve hk_zeros_like : hk.
Lemma hk_matmul_vv (t1 t2 o : hval) : hooked (matmul_vv t1 t2 o).
Proof. hk. Qed.
#[export] Hint Resolve hk_matmul_vv : hk.
Lemma hk_matmul_mv (t1 t2 o : hval) : hooked (matmul_mv t1 t2 o).
Proof. hk. Qed.
#[export] Hint Resolve hk_matmul_mv : hk.
Lemma hk_matmul_mm (t1 t2 o : hval) : hooked (matmul_mm t1 t2 o).
Proof. hk. Qed.
#[export] Hint Resolve hk_matmul_mm : hk.
Lemma hk_matmul_vm (t1 t2 o : hval) : hooked (matmul_vm t1 t2 o).
Proof. hk. Qed.
#[export] Hint Resolve hk_matmul_vm : hk.
Lemma hk_matmul_tv (t1 t2 o : hval) (nd1 : Z) : hooked (matmul_tv t1 t2 o nd1).
Proof. hk. Qed.
#[export] Hint Resolve hk_matmul_tv : hk.
Lemma hk_matmul_vt (t1 t2 o : hval) (nd2 : Z) : hooked (matmul_vt t1 t2 o nd2).
Proof. hk. Qed.
#[export] Hint Resolve hk_matmul_vt : hk.
Lemma hk_matmul_tt (t1 t2 o : hval) (nd1 nd2 : Z) : hooked (matmul_tt t1 t2 o nd1 nd2).
Proof. hk. Qed.
#[export] Hint Resolve hk_matmul_tt : hk.
Lemma hk_aitisa_matmul (t1 t2 o : hval) : hooked (aitisa_matmul t1 t2 o).
Proof. hk. Qed.
#[export] Hint Resolve hk_aitisa_matmul : hk.
Lemma hk_dot_kernel (t : tcode) (d1 d2 : hval) (size : Z) (d_o : hval) : hooked (dot_kernel t d1 d2 size d_o).
Proof. hk. Qed.
#[export] Hint Resolve hk_dot_kernel : hk.
Lemma hk_dot_get_value (t : hval) (idx : Z) : hooked (dot_get_value t idx).
Proof. hk. Qed.
#[export] Hint Resolve hk_dot_get_value : hk.
Lemma hk_vector_vector_dot (t1 t2 o : hval) : hooked (vector_vector_dot t1 t2 o).
Proof. hk. Qed.
#[export] Hint Resolve hk_vector_vector_dot : hk.
Lemma hk_dot_advance (n : nat) (skip : Z) (dims idx : list Z) : hooked (dot_advance n skip dims idx).
Proof. hk. Qed.
#[export] Hint Resolve hk_dot_advance : hk.
Lemma hk_tensor_vector_dot (t1 t2 o : hval) : hooked (tensor_vector_dot t1 t2 o).
Proof. hk. Qed.
#[export] Hint Resolve hk_tensor_vector_dot : hk.
Lemma hk_multidim_dot (t1 t2 o : hval) : hooked (multidim_dot t1 t2 o).
Proof. hk. Qed.
#[export] Hint Resolve hk_multidim_dot : hk.
Lemma hk_nn_create_like (input o : hval) : hooked (nn_create_like input o).
Proof. hk. Qed.
#[export] Hint Resolve hk_nn_create_like : hk.
Lemma hk_relu_elem (t : tcode) (v : val) : hooked (relu_elem t v).
Proof. hk. Qed.
#[export] Hint Resolve hk_relu_elem : hk.
Lemma hk_aitisa_relu (input o : hval) : hooked (aitisa_relu input o).
Proof. hk. Qed.
#[export] Hint Resolve hk_aitisa_relu : hk.
Lemma hk_exp_of (t : tcode) (v : val) : hooked (exp_of t v).
Proof. hk. Qed.
#[export] Hint Resolve hk_exp_of : hk.
Lemma hk_sigmoid_elem (t : tcode) (v : val) : hooked (sigmoid_elem t v).
Proof. hk. Qed.
#[export] Hint Resolve hk_sigmoid_elem : hk.
Lemma hk_aitisa_sigmoid (input o : hval) : hooked (aitisa_sigmoid input o).
Proof. hk. Qed.
#[export] Hint Resolve hk_aitisa_sigmoid : hk.
Lemma hk_tanh_elem (t : tcode) (v : val) : hooked (tanh_elem t v).
Proof. hk. Qed.
#[export] Hint Resolve hk_tanh_elem : hk.
Lemma hk_aitisa_tanh (input o : hval) : hooked (aitisa_tanh input o).
Proof. hk. Qed.
#[export] Hint Resolve hk_aitisa_tanh : hk.
Lemma hk_dropout_kernel (t : tcode) (tensor : hval) (size rate_line : Z) : hooked (dropout_kernel t tensor size rate_line).
Proof. hk. Qed.
#[export] Hint Resolve hk_dropout_kernel : hk.
Lemma hk_int_of_double (x : spec_float) : hooked (int_of_double x).
Proof. hk. Qed.
#[export] Hint Resolve hk_int_of_double : hk.
Lemma hk_dropout_template (tensor : hval) (rate : spec_float) : hooked (dropout_template tensor rate).
Proof. hk. Qed.
#[export] Hint Resolve hk_dropout_template : hk.
Lemma hk_aitisa_dropout (input : hval) (rate : spec_float) (o : hval) : hooked (aitisa_dropout input rate o).
Proof. hk. Qed.
#[export] Hint Resolve hk_aitisa_dropout : hk.
Lemma hk_softmax_create_output (input o : hval) : hooked (softmax_create_output input o).
Proof. hk. Qed.
#[export] Hint Resolve hk_softmax_create_output : hk.
Lemma hk_softmax_exps (t : tcode) (ind outd : hval) (start step n : Z) : hooked (softmax_exps t ind outd start step n).
Proof. hk. Qed.
#[export] Hint Resolve hk_softmax_exps : hk.
Lemma hk_softmax_norm (t : tcode) (outd : hval) (start step n : Z) (total : spec_float) : hooked (softmax_norm t outd start step n total).
Proof. hk. Qed.
#[export] Hint Resolve hk_softmax_norm : hk.
Lemma hk_softmax_with_all (input o : hval) : hooked (softmax_with_all input o).
Proof. hk. Qed.
#[export] Hint Resolve hk_softmax_with_all : hk.
Lemma hk_softmax_advance (n : nat) (axis : Z) (dims idx : list Z) : hooked (softmax_advance n axis dims idx).
Proof. hk. Qed.
#[export] Hint Resolve hk_softmax_advance : hk.
Lemma hk_lin_index (ndim : Z) (index offset : list Z) : hooked (lin_index ndim index offset).
Proof. hk. Qed.
#[export] Hint Resolve hk_lin_index : hk.
Lemma hk_row_offsets (ndim : Z) (dims : list Z) : hooked (row_offsets ndim dims).
Proof. hk. Qed.
#[export] Hint Resolve hk_row_offsets : hk.
Lemma hk_softmax_axis_kernel (t : tcode) (input o : hval) (ndim : Z) (dims : list Z) (axis batch element_offset : Z) (offs : list Z) : hooked (softmax_axis_kernel t input o ndim dims axis batch element_offset offs).
Proof. hk. Qed.
#[export] Hint Resolve hk_softmax_axis_kernel : hk.
Lemma hk_softmax_along_axis (input : hval) (axis : Z) (o : hval) : hooked (softmax_along_axis input axis o).
Proof. hk. Qed.
#[export] Hint Resolve hk_softmax_along_axis : hk.
Lemma hk_aitisa_softmax (input : hval) (axis : Z) (o : hval) : hooked (aitisa_softmax input axis o).
Proof. hk. Qed.
#[export] Hint Resolve hk_aitisa_softmax : hk.
Lemma hk_pooling_extent (d k s p dil : Z) : hooked (pooling_extent d k s p dil).
Proof. hk. Qed.
#[export] Hint Resolve hk_pooling_extent : hk.
Lemma hk_pooling_create_output (input : hval) (ksize stride padding dilation : list Z) (o : hval) : hooked (pooling_create_output input ksize stride padding dilation o).
Proof. hk. Qed.
#[export] Hint Resolve hk_pooling_create_output : hk.
Lemma hk_pool_tail (head k dil : Z) : hooked (pool_tail head k dil).
Proof. hk. Qed.
#[export] Hint Resolve hk_pool_tail : hk.
Lemma hk_pool_position (n : Z) (dims strides index : list Z) (bc : Z) : hooked (pool_position n dims strides index bc).
Proof. hk. Qed.
#[export] Hint Resolve hk_pool_position : hk.
Lemma hk_pool_kernel (mode : pmode) (t : tcode) (ind : hval) (pos : Z) (temp : spec_float) : hooked (pool_kernel mode t ind pos temp).
Proof. hk. Qed.
#[export] Hint Resolve hk_pool_kernel : hk.
Lemma hk_pool_output (mode : pmode) (t : tcode) (outd : hval) (pos : Z) (temp : spec_float) (window_size : Z) : hooked (pool_output mode t outd pos temp window_size).
Proof. hk. Qed.
#[export] Hint Resolve hk_pool_output : hk.
Lemma hk_pool_next (n : nat) (dilation head tail index : list Z) : hooked (pool_next n dilation head tail index).
Proof. hk. Qed.
#[export] Hint Resolve hk_pool_next : hk.
Lemma hk_pool_slide (n : nat) (dims ksize stride padding dilation : list Z) (head tail : list Z) : hooked (pool_slide n dims ksize stride padding dilation head tail).
Proof. hk. Qed.
#[export] Hint Resolve hk_pool_slide : hk.
Lemma hk_pool_init (n : Z) (ksize padding dilation : list Z) : hooked (pool_init n ksize padding dilation).
Proof. hk. Qed.
#[export] Hint Resolve hk_pool_init : hk.
Lemma hk_conv_output_dims (in_dims fil_dims stride padding dilation : list Z) (ndim : Z) : hooked (conv_output_dims in_dims fil_dims stride padding dilation ndim).
Proof. hk. Qed.
#[export] Hint Resolve hk_conv_output_dims : hk.
Lemma hk_conv_position (sdim : Z) (in_dims base dilation fil tmp : list Z) : hooked (conv_position sdim in_dims base dilation fil tmp).
Proof. hk. Qed.
#[export] Hint Resolve hk_conv_position : hk.
Lemma hk_conv_channel (input filter ind fild : hval) (ndim sdim : Z) (in_dims dilation base : list Z) (oc ic fil_space : Z) (acc : val) : hooked (conv_channel input filter ind fild ndim sdim in_dims dilation base oc ic fil_space acc).
Proof. hk. Qed.
#[export] Hint Resolve hk_conv_channel : hk.
Lemma hk_conv_element (input filter new ind fild outd : hval) (ndim sdim : Z) (in_dims stride padding dilation : list Z) (b oc out_idx in_chan fil_space : Z) : hooked (conv_element input filter new ind fild outd ndim sdim in_dims stride padding dilation b oc out_idx in_chan fil_space).
Proof. hk. Qed.
#[export] Hint Resolve hk_conv_element : hk.
Lemma hk_aitisa_conv_float (input filter : hval) (stride padding dilation : list Z) (o : hval) : hooked (aitisa_conv_float input filter stride padding dilation o).
Proof. hk. Qed.
#[export] Hint Resolve hk_aitisa_conv_float : hk.
Lemma hk_aitisa_conv (input filter : hval) (stride padding dilation : list Z) (groups : Z) (o : hval) : hooked (aitisa_conv input filter stride padding dilation groups o).
Proof. hk. Qed.
#[export] Hint Resolve hk_aitisa_conv : hk.
Lemma hk_aitisa_conv2d (input filter : hval) (stride padding dilation : list Z) (groups : Z) (o : hval) : hooked (aitisa_conv2d input filter stride padding dilation groups o).
Proof. hk. Qed.
#[export] Hint Resolve hk_aitisa_conv2d : hk.
Lemma hk_aitisa_conv3d (input filter : hval) (stride padding dilation : list Z) (groups : Z) (o : hval) : hooked (aitisa_conv3d input filter stride padding dilation groups o).
Proof. hk. Qed.
#[export] Hint Resolve hk_aitisa_conv3d : hk.

Lemma hk_pool_window mode t ind n dims strides dil head tail bc : hooked (pool_window mode t ind n dims strides dil head tail bc).
Proof. hk. Qed.
#[export] Hint Resolve hk_pool_window : hk.
Lemma hk_aitisa_pooling t m k s p d o : hooked (aitisa_pooling t m k s p d o).
Proof. hk. Qed.
#[export] Hint Resolve hk_aitisa_pooling : hk.

Lemma run_hooked x o : (forall op t1 t2, x <> OBinary op t1 t2) -> (forall t1 t2, x <> ODot t1 t2) ->
  (forall t a sc bi me va ep, x <> OBatchNorm t a sc bi me va ep) -> hooked (run_op x o).
Proof.
  intros H1 H2 H3. destruct x; cbn [run_op]; auto with hk; exfalso; [by eapply H1|by eapply H2|by eapply H3].
Qed.

Lemma run_same_hook x o E E' s : (forall op t1 t2, x <> OBinary op t1 t2) -> (forall t1 t2, x <> ODot t1 t2) ->
  (forall t a sc bi me va ep, x <> OBatchNorm t a sc bi me va ep) ->
  same_hook E E' -> run_op x o E' s = run_op x o E s.
Proof. intros H1 H2 H3 (a & b & c & d & e & f & g). apply run_hooked; [done..|by split]. Qed.
