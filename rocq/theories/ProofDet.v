(** * ProofDet: what operations depend on *)
From stdpp Require Import gmap list.
From Coq Require Import ZArith Lia Floats.SpecFloat.
From Verif Require Import Base Mem Spec SpecHeap SpecDet ModelCore ModelBasic ModelMath ModelNN.
Open Scope Z_scope.

(** [E'] may differ from [E] in the random numbers unless [fr], in the exponential
    unless [fx], in the garbage unless [fg], and may allow more iterations. *)
Record agree (fr fx fg : bool) (E E' : env) : Prop := {
  ag_alloc : e_alloc E' = e_alloc E;
  ag_dealloc : e_dealloc E' = e_dealloc E;
  ag_ok : e_alloc_ok E' = e_alloc_ok E;
  ag_rand : fr = true -> e_rand E' = e_rand E;
  ag_exp : fx = true -> e_exp E' = e_exp E;
  ag_garbage : fg = true -> e_garbage E' = e_garbage E;
  ag_fuel : (e_fuel E <= e_fuel E')%nat
}.
(** Then [m] has the same outcome in both, unless it needed more iterations than [E] has. *)
Definition det {A} (fr fx fg : bool) (m : M A) : Prop :=
  forall E E' s, agree fr fx fg E E' -> m E s = Diverge \/ m E' s = m E s.

Section prim.
Context (fr fx fg : bool).
Notation D := (det fr fx fg).
Lemma dt_same {A} (m : M A) : (forall E E' s, agree fr fx fg E E' -> m E' s = m E s) -> D m.
Proof. intros H E E' s a. right. by apply H. Qed.
Lemma dt_ret {A} (a : A) : D (ret a). Proof. by apply dt_same. Qed.
Lemma dt_undef {A} u : D (undef u : M A). Proof. by apply dt_same. Qed.
Lemma dt_abort {A} : D (abort : M A). Proof. by apply dt_same. Qed.
Lemma dt_diverge {A} : D (diverge : M A). Proof. by apply dt_same. Qed.
Lemma dt_bind {A B} (m : M A) (k : A -> M B) : D m -> (forall a, D (k a)) -> D (bind m k).
Proof.
  intros Hm Hk E E' s a. unfold bind. destruct (Hm _ _ s a) as [H|H]; rewrite H; [by left|].
  destruct (m E s) as [y s'| | |]; auto. by apply Hk.
Qed.
Lemma dt_check b u : D (check b u). Proof. by destruct b; apply dt_same. Qed.
Lemma dt_opt {A} (o : option A) u : D (opt o u). Proof. by destruct o; apply dt_same. Qed.
Lemma dt_assert b : D (assert_ b). Proof. by destruct b; apply dt_same. Qed.
Lemma dt_get_heap : D get_heap. Proof. by apply dt_same. Qed.
Lemma dt_put_block b y : D (put_block b y). Proof. by apply dt_same. Qed.
Lemma dt_raw_alloc n c : D (raw_alloc n c).
Proof. apply dt_same. intros E E' s a. unfold raw_alloc, alloc_tag. by rewrite (ag_alloc _ _ _ _ _ a), (ag_ok _ _ _ _ _ a). Qed.
Lemma dt_raw_dealloc p : D (raw_dealloc p).
Proof. apply dt_same. intros E E' s a. unfold raw_dealloc, free_tag. by rewrite (ag_dealloc _ _ _ _ _ a). Qed.
Lemma dt_libc_malloc n c : D (libc_malloc n c).
Proof. apply dt_same. intros E E' s a. unfold libc_malloc, alloc_tag. by rewrite (ag_ok _ _ _ _ _ a). Qed.
Lemma dt_libc_free p : D (libc_free p). Proof. by apply dt_same. Qed.
Lemma dt_deref p : D (deref p). Proof. by apply dt_same. Qed.
Lemma dt_iter {S} n i (body : Z -> S -> M S) s : (forall i s, D (body i s)) -> D (iter n i body s).
Proof.
  intros H. revert i s. induction n as [|n IH]; intros i s; [apply dt_ret|]. cbn [iter].
  apply dt_bind; [apply H|]. intros. apply IH.
Qed.
Lemma dt_iter_ret {S R} n i (body : Z -> S -> M (ctl S R)) s : (forall i s, D (body i s)) -> D (iter_ret n i body s).
Proof.
  intros H. revert i s. induction n as [|n IH]; intros i s; [apply dt_ret|]. cbn [iter_ret].
  apply dt_bind; [apply H|]. intros [y|r]; [apply IH|apply dt_ret].
Qed.
Lemma dt_iter_down {S} n (body : Z -> S -> M S) s : (forall i s, D (body i s)) -> D (iter_down n body s).
Proof.
  intros H. revert s. induction n as [|n IH]; intros s; [apply dt_ret|]. cbn [iter_down].
  apply dt_bind; [apply H|]. intros. apply IH.
Qed.
Lemma dt_iter_down_break {S} n (body : Z -> S -> M (S * bool)) s : (forall i s, D (body i s)) -> D (iter_down_break n body s).
Proof.
  intros H. revert s. induction n as [|n IH]; intros s; [apply dt_ret|]. cbn [iter_down_break].
  apply dt_bind; [apply H|]. intros [y []]; [apply IH|apply dt_ret].
Qed.
Lemma dt_while_ret_fuel {S R} n n' (body : S -> M (ctl (S * bool) R)) s E E' z :
  (forall s, D (body s)) -> agree fr fx fg E E' -> (n <= n')%nat ->
  while_ret_fuel n body s E z = Diverge \/ while_ret_fuel n' body s E' z = while_ret_fuel n body s E z.
Proof.
  intros H a. revert n' s z. induction n as [|n IH]; intros n' s z Hn; [by left|].
  destruct n' as [|n']; [lia|]. cbn [while_ret_fuel]. unfold bind.
  destruct (H s E E' z a) as [e|e]; rewrite e; [by left|].
  destruct (body s E z) as [[[y []]|r] z'| | |]; auto. apply IH. lia.
Qed.
Lemma dt_while_ret {S R} (body : S -> M (ctl (S * bool) R)) s : (forall s, D (body s)) -> D (while_ret body s).
Proof. intros H E E' z a. unfold while_ret. apply dt_while_ret_fuel; [done..|]. exact (ag_fuel _ _ _ _ _ a). Qed.
Lemma dt_dispatch_all {A} dt (f : tcode -> M A) d : (forall t, D (f t)) -> D d -> D (dispatch_all dt f d).
Proof. intros H1 H2. unfold dispatch_all. repeat case_match; auto. Qed.
Lemma dt_dispatch_float {A} dt (f : tcode -> M A) d : (forall t, D (f t)) -> D d -> D (dispatch_float dt f d).
Proof. intros H1 H2. unfold dispatch_float. repeat case_match; auto. Qed.
End prim.
Lemma dt_rand fx fg : det true fx fg rand_.
Proof. apply dt_same. intros E E' s a. unfold rand_. by rewrite (ag_rand _ _ _ _ _ a eq_refl). Qed.
Lemma dt_ask_exp fr fg d : det fr true fg (ask (fun E => e_exp E d)).
Proof. apply dt_same. intros E E' s a. unfold ask. by rewrite (ag_exp _ _ _ _ _ a eq_refl). Qed.
Lemma dt_ask_garbage fr fx n : det fr fx true (ask (fun E => e_garbage E n)).
Proof. apply dt_same. intros E E' s a. unfold ask. by rewrite (ag_garbage _ _ _ _ _ a eq_refl). Qed.

Ltac head_of t := match t with ?f _ => head_of f | _ => t end.
Ltac dt1 :=
  lazymatch goal with
  | |- forall _, _ => intros ?
  | |- det _ _ _ (ret _) => apply dt_ret
  | |- det _ _ _ (undef _) => apply dt_undef
  | |- det _ _ _ abort => apply dt_abort
  | |- det _ _ _ diverge => apply dt_diverge
  | |- det _ _ _ (check _ _) => apply dt_check
  | |- det _ _ _ (opt _ _) => apply dt_opt
  | |- det _ _ _ (assert_ _) => apply dt_assert
  | |- det _ _ _ (ask (fun E => e_exp E _)) => apply dt_ask_exp
  | |- det _ _ _ (ask (fun E => e_garbage E _)) => apply dt_ask_garbage
  | |- det _ _ _ get_heap => apply dt_get_heap
  | |- det _ _ _ (put_block _ _) => apply dt_put_block
  | |- det _ _ _ (raw_alloc _ _) => apply dt_raw_alloc
  | |- det _ _ _ (raw_dealloc _) => apply dt_raw_dealloc
  | |- det _ _ _ (deref _) => apply dt_deref
  | |- det _ _ _ rand_ => apply dt_rand
  | |- det _ _ _ (libc_malloc _ _) => apply dt_libc_malloc
  | |- det _ _ _ (libc_free _) => apply dt_libc_free
  | |- det _ _ _ (bind _ _) => apply dt_bind
  | |- det _ _ _ (iter _ _ _ _) => apply dt_iter
  | |- det _ _ _ (iter_ret _ _ _ _) => apply dt_iter_ret
  | |- det _ _ _ (iter_down _ _ _) => apply dt_iter_down
  | |- det _ _ _ (iter_down_break _ _ _) => apply dt_iter_down_break
  | |- det _ _ _ (while_ret _ _) => apply dt_while_ret
  | |- det _ _ _ (dispatch_all _ _ _) => apply dt_dispatch_all
  | |- det _ _ _ (dispatch_float _ _ _) => apply dt_dispatch_float
  | |- det _ _ _ (match ?x with _ => _ end) => destruct x
  | |- det _ _ _ ?m => first [solve [eauto with dt] | let h := head_of m in unfold h; cbv beta]
  end.
Ltac dt := intros; repeat dt1; try done.
Create HintDb dt.
Lemma dt_size_of_dims (fr fx fg : bool) dims ndim : det fr fx fg (size_of_dims dims ndim).
Proof. dt. Qed.
#[export] Hint Resolve dt_size_of_dims : dt.
Lemma dt_size_from_dim (fr fx fg : bool) (k : Z) (dims : list Z) (ndim : Z) : det fr fx fg (size_from_dim k dims ndim).
Proof. dt. Qed.
#[export] Hint Resolve dt_size_from_dim : dt.
Lemma dt_size_to_dim (fr fx fg : bool) (k : Z) (dims : list Z) (ndim : Z) : det fr fx fg (size_to_dim k dims ndim).
Proof. dt. Qed.
#[export] Hint Resolve dt_size_to_dim : dt.
Lemma dt_size_between_dim (fr fx fg : bool) (k l : Z) (dims : list Z) (ndim : Z) : det fr fx fg (size_between_dim k l dims ndim).
Proof. dt. Qed.
#[export] Hint Resolve dt_size_between_dim : dt.
Lemma dt_fill_ints (fr fx fg : bool) (p : hval) (cap : Z) (l : list Z) : det fr fx fg (fill_ints p cap l).
Proof. dt. Qed.
#[export] Hint Resolve dt_fill_ints : dt.
Lemma dt_create_default_layout (fr fx fg : bool) (ltype ndim : Z) : det fr fx fg (create_default_layout ltype ndim).
Proof. dt. Qed.
#[export] Hint Resolve dt_create_default_layout : dt.
Lemma dt_create_shape (fr fx fg : bool) (ltype : Z) (dims : list Z) (ndim : Z) : det fr fx fg (create_shape ltype dims ndim).
Proof. dt. Qed.
#[export] Hint Resolve dt_create_shape : dt.
Lemma dt_destroy_layout (fr fx fg : bool) (min2maj : hval) : det fr fx fg (destroy_layout min2maj).
Proof. dt. Qed.
#[export] Hint Resolve dt_destroy_layout : dt.
Lemma dt_destroy_shape (fr fx fg : bool) (dims min2maj : hval) : det fr fx fg (destroy_shape dims min2maj).
Proof. dt. Qed.
#[export] Hint Resolve dt_destroy_shape : dt.
Lemma dt_create_storage (fr fx fg : bool) (dt : dtype) (dev : device) (size : Z) (data : hval) : det fr fx fg (create_storage dt dev size data).
Proof. dt. Qed.
#[export] Hint Resolve dt_create_storage : dt.
Lemma dt_destroy_storage (fr fx fg : bool) (storage : hval) : det fr fx fg (destroy_storage storage).
Proof. dt. Qed.
#[export] Hint Resolve dt_destroy_storage : dt.
Lemma dt_tensor_ndim (fr fx fg : bool) (t : hval) : det fr fx fg (tensor_ndim t).
Proof. dt. Qed.
#[export] Hint Resolve dt_tensor_ndim : dt.
Lemma dt_int_array (fr fx fg : bool) (p : hval) : det fr fx fg (int_array p).
Proof. dt. Qed.
#[export] Hint Resolve dt_int_array : dt.
Lemma dt_tensor_dims (fr fx fg : bool) (t : hval) : det fr fx fg (tensor_dims t).
Proof. dt. Qed.
#[export] Hint Resolve dt_tensor_dims : dt.
Lemma dt_tensor_min2maj (fr fx fg : bool) (t : hval) : det fr fx fg (tensor_min2maj t).
Proof. dt. Qed.
#[export] Hint Resolve dt_tensor_min2maj : dt.
Lemma dt_tensor_dim (fr fx fg : bool) (t : hval) (d : Z) : det fr fx fg (tensor_dim t d).
Proof. dt. Qed.
#[export] Hint Resolve dt_tensor_dim : dt.
Lemma dt_tensor_size (fr fx fg : bool) (t : hval) : det fr fx fg (tensor_size t).
Proof. dt. Qed.
#[export] Hint Resolve dt_tensor_size : dt.
Lemma dt_tensor_storage (fr fx fg : bool) (t : hval) : det fr fx fg (tensor_storage t).
Proof. dt. Qed.
#[export] Hint Resolve dt_tensor_storage : dt.
Lemma dt_tensor_dtype (fr fx fg : bool) (t : hval) : det fr fx fg (tensor_dtype t).
Proof. dt. Qed.
#[export] Hint Resolve dt_tensor_dtype : dt.
Lemma dt_tensor_data (fr fx fg : bool) (t : hval) : det fr fx fg (tensor_data t).
Proof. dt. Qed.
#[export] Hint Resolve dt_tensor_data : dt.
Lemma dt_tensor_device (fr fx fg : bool) (t : hval) : det fr fx fg (tensor_device t).
Proof. dt. Qed.
#[export] Hint Resolve dt_tensor_device : dt.
Lemma dt_aitisa_tensor_set_item (fr fx fg : bool) (t : hval) (idx : Z) (bs : list mv) : det fr fx fg (aitisa_tensor_set_item t idx bs).
Proof. dt. Qed.
#[export] Hint Resolve dt_aitisa_tensor_set_item : dt.
Lemma dt_aitisa_create (fr fx fg : bool) (dt : dtype) (dev : device) (dims : list Z) (ndim : Z) (data : hval) (len : Z) (o : hval) : det fr fx fg (aitisa_create dt dev dims ndim data len o).
Proof. dt. Qed.
#[export] Hint Resolve dt_aitisa_create : dt.
Lemma dt_aitisa_destroy (fr fx fg : bool) (v : hval) : det fr fx fg (aitisa_destroy v).
Proof. dt. Qed.
#[export] Hint Resolve dt_aitisa_destroy : dt.
Lemma dt_aitisa_resolve (fr fx : bool) (t : hval) : det fr fx true (aitisa_resolve t).
Proof. dt. Qed.
#[export] Hint Resolve dt_aitisa_resolve : dt.
Lemma dt_type_table (fr fx fg : bool) (dt : dtype) : det fr fx fg (type_table dt).
Proof. dt. Qed.
#[export] Hint Resolve dt_type_table : dt.
Lemma dt_castto_in_place (fr fx fg : bool) (dt : dtype) (d : spec_float) : det fr fx fg (castto_in_place dt d).
Proof. dt. Qed.
#[export] Hint Resolve dt_castto_in_place : dt.
Lemma dt_aitisa_get_stride (fr fx fg : bool) (t : hval) (dimension : Z) : det fr fx fg (aitisa_get_stride t dimension).
Proof. dt. Qed.
#[export] Hint Resolve dt_aitisa_get_stride : dt.
Lemma dt_aitisa_get_all_strides (fr fx fg : bool) (t : hval) (strides : list Z) : det fr fx fg (aitisa_get_all_strides t strides).
Proof. dt. Qed.
#[export] Hint Resolve dt_aitisa_get_all_strides : dt.
Lemma dt_assert_coords (fr fx fg : bool) (ndim : Z) (dims coords : list Z) (len : Z) : det fr fx fg (assert_coords ndim dims coords len).
Proof. dt. Qed.
#[export] Hint Resolve dt_assert_coords : dt.
Lemma dt_aitisa_coords_to_linidx (fr fx fg : bool) (t : hval) (coords : list Z) (len : Z) : det fr fx fg (aitisa_coords_to_linidx t coords len).
Proof. dt. Qed.
#[export] Hint Resolve dt_aitisa_coords_to_linidx : dt.
Lemma dt_aitisa_linidx_to_coords (fr fx fg : bool) (t : hval) (linidx : Z) (coords : list Z) : det fr fx fg (aitisa_linidx_to_coords t linidx coords).
Proof. dt. Qed.
#[export] Hint Resolve dt_aitisa_linidx_to_coords : dt.
Lemma dt_aitisa_coords_to_offset (fr fx fg : bool) (t : hval) (coords : list Z) (len : Z) : det fr fx fg (aitisa_coords_to_offset t coords len).
Proof. dt. Qed.
#[export] Hint Resolve dt_aitisa_coords_to_offset : dt.
Lemma dt_aitisa_offset_to_coords (fr fx fg : bool) (t : hval) (offset : Z) (coords : list Z) : det fr fx fg (aitisa_offset_to_coords t offset coords).
Proof. dt. Qed.
#[export] Hint Resolve dt_aitisa_offset_to_coords : dt.
Lemma dt_aitisa_broadcast_array (fr fx fg : bool) (d1 : list Z) (n1 : Z) (d2 : list Z) (n2 : Z) (out : list (option Z)) (nout : Z) : det fr fx fg (aitisa_broadcast_array d1 n1 d2 n2 out nout).
Proof. dt. Qed.
#[export] Hint Resolve dt_aitisa_broadcast_array : dt.
Lemma dt_cast_kernel (fr fx fg : bool) (t2 t1 : tcode) (ind outd : hval) (size : Z) : det fr fx fg (cast_kernel t2 t1 ind outd size).
Proof. dt. Qed.
#[export] Hint Resolve dt_cast_kernel : dt.
Lemma dt_cast_template (fr fx fg : bool) (input : hval) (out_dt : dtype) (o : hval) : det fr fx fg (cast_template input out_dt o).
Proof. dt. Qed.
#[export] Hint Resolve dt_cast_template : dt.
Lemma dt_aitisa_cast (fr fx fg : bool) (input : hval) (dt : dtype) (o : hval) : det fr fx fg (aitisa_cast input dt o).
Proof. dt. Qed.
#[export] Hint Resolve dt_aitisa_cast : dt.
Lemma dt_aitisa_full (fr fx fg : bool) (dt : dtype) (dev : device) (dims : list Z) (ndim : Z) (value : spec_float) (o : hval) : det fr fx fg (aitisa_full dt dev dims ndim value o).
Proof. dt. Qed.
#[export] Hint Resolve dt_aitisa_full : dt.
Lemma dt_aitisa_reshape (fr fx fg : bool) (input : hval) (dims : list Z) (ndim : Z) (o : hval) : det fr fx fg (aitisa_reshape input dims ndim o).
Proof. dt. Qed.
#[export] Hint Resolve dt_aitisa_reshape : dt.
Lemma dt_aitisa_squeeze (fr fx fg : bool) (input : hval) (axis : list Z) (num_axis : Z) (o : hval) : det fr fx fg (aitisa_squeeze input axis num_axis o).
Proof. dt. Qed.
#[export] Hint Resolve dt_aitisa_squeeze : dt.
Lemma dt_slice_extent (fr fx fg : bool) (size step : Z) : det fr fx fg (slice_extent size step).
Proof. dt. Qed.
#[export] Hint Resolve dt_slice_extent : dt.
Lemma dt_slice_create_output (fr fx fg : bool) (input : hval) (begin size step : list Z) (o : hval) : det fr fx fg (slice_create_output input begin size step o).
Proof. dt. Qed.
#[export] Hint Resolve dt_slice_create_output : dt.
Lemma dt_slice_check_parameters (fr fx fg : bool) (input : hval) (begin size step : list Z) : det fr fx fg (slice_check_parameters input begin size step).
Proof. dt. Qed.
#[export] Hint Resolve dt_slice_check_parameters : dt.
Lemma dt_slice_advance (fr fx fg : bool) (in_ndim : Z) (begin step boundary idx : list Z) : det fr fx fg (slice_advance in_ndim begin step boundary idx).
Proof. dt. Qed.
#[export] Hint Resolve dt_slice_advance : dt.
Lemma dt_slice_kernel (fr fx fg : bool) (t : tcode) (input o : hval) (in_ndim : Z) (begin step idx0 boundary offs : list Z) : det fr fx fg (slice_kernel t input o in_ndim begin step idx0 boundary offs).
Proof. dt. Qed.
#[export] Hint Resolve dt_slice_kernel : dt.
Lemma dt_slice_template (fr fx fg : bool) (input : hval) (begin size step : list Z) (o : hval) : det fr fx fg (slice_template input begin size step o).
Proof. dt. Qed.
#[export] Hint Resolve dt_slice_template : dt.
Lemma dt_aitisa_slice (fr fx fg : bool) (input : hval) (begin size step : list Z) (o : hval) : det fr fx fg (aitisa_slice input begin size step o).
Proof. dt. Qed.
#[export] Hint Resolve dt_aitisa_slice : dt.
Lemma dt_aitisa_duplicate (fr fx fg : bool) (input : hval) (o : hval) : det fr fx fg (aitisa_duplicate input o).
Proof. dt. Qed.
#[export] Hint Resolve dt_aitisa_duplicate : dt.
Lemma dt_sqrt_create_output (fr fx fg : bool) (input o : hval) : det fr fx fg (sqrt_create_output input o).
Proof. dt. Qed.
#[export] Hint Resolve dt_sqrt_create_output : dt.
Lemma dt_sqrt_kernel (fr fx fg : bool) (t : tcode) (input o : hval) (size : Z) : det fr fx fg (sqrt_kernel t input o size).
Proof. dt. Qed.
#[export] Hint Resolve dt_sqrt_kernel : dt.
Lemma dt_aitisa_sqrt (fr fx fg : bool) (input o : hval) : det fr fx fg (aitisa_sqrt input o).
Proof. dt. Qed.
#[export] Hint Resolve dt_aitisa_sqrt : dt.
Lemma dt_batch_strides (fr fx fg : bool) (dims : list Z) (ndim : Z) (strides : list (option Z)) (nstride : Z) : det fr fx fg (batch_strides dims ndim strides nstride).
Proof. dt. Qed.
#[export] Hint Resolve dt_batch_strides : dt.
Lemma dt_mac (fr fx fg : bool) (t : tcode) (A : hval) (oa ai : Z) (B : hval) (ob bi : Z) (C : hval) (oc ci : Z) : det fr fx fg (mac t A oa ai B ob bi C oc ci).
Proof. dt. Qed.
#[export] Hint Resolve dt_mac : dt.
Lemma dt_vv_kernel (fr fx fg : bool) (t : tcode) (X Y Z0 : hval) (L : Z) : det fr fx fg (vv_kernel t X Y Z0 L).
Proof. dt. Qed.
#[export] Hint Resolve dt_vv_kernel : dt.
Lemma dt_mv_kernel (fr fx fg : bool) (t : tcode) (A X B : hval) (m n : Z) : det fr fx fg (mv_kernel t A X B m n).
Proof. dt. Qed.
#[export] Hint Resolve dt_mv_kernel : dt.
Lemma dt_mm_kernel (fr fx fg : bool) (t : tcode) (A : hval) (oa : Z) (B : hval) (ob : Z) (C : hval) (oc : Z) (m k n : Z) : det fr fx fg (mm_kernel t A oa B ob C oc m k n).
Proof. dt. Qed.
#[export] Hint Resolve dt_mm_kernel : dt.
Lemma dt_batch_mm_kernel (fr fx fg : bool) (t : tcode) (A : hval) (As : list Z) (B : hval) (Bs : list Z) (C : hval) (Cs : list Z) (m k n n_batch : Z) : det fr fx fg (batch_mm_kernel t A As B Bs C Cs m k n n_batch).
Proof. dt. Qed.
#[export] Hint Resolve dt_batch_mm_kernel : dt.
Lemma dt_vv_template (fr fx fg : bool) (dt : dtype) (X Y Z0 : hval) (L : Z) : det fr fx fg (vv_template dt X Y Z0 L).
Proof. dt. Qed.
#[export] Hint Resolve dt_vv_template : dt.
Lemma dt_mv_template (fr fx fg : bool) (dt : dtype) (A X B : hval) (m n : Z) : det fr fx fg (mv_template dt A X B m n).
Proof. dt. Qed.
#[export] Hint Resolve dt_mv_template : dt.
Lemma dt_mm_template (fr fx fg : bool) (dt : dtype) (A B C : hval) (m k n : Z) : det fr fx fg (mm_template dt A B C m k n).
Proof. dt. Qed.
#[export] Hint Resolve dt_mm_template : dt.
Lemma dt_batch_mm_template (fr fx fg : bool) (dt : dtype) (A : hval) (As : list Z) (B : hval) (Bs : list Z) (C : hval) (Cs : list Z) (m k n n_batch : Z) : det fr fx fg (batch_mm_template dt A As B Bs C Cs m k n n_batch).
Proof. dt. Qed.
#[export] Hint Resolve dt_batch_mm_template : dt.
Lemma dt_batch_offset (fr fx fg : bool) (dims_out s1 s2 : list Z) (ndim_batch : Z) (i : Z) : det fr fx fg (batch_offset dims_out s1 s2 ndim_batch i).
Proof. dt. Qed.
#[export] Hint Resolve dt_batch_offset : dt.
Lemma dt_zeros_like (fr fx fg : bool) (tensor1 : hval) (dims : list Z) (ndim : Z) (o : hval) : det fr fx fg (zeros_like tensor1 dims ndim o).
Proof. dt. Qed.
#[export] Hint Resolve dt_zeros_like : dt.
Lemma dt_matmul_vv (fr fx fg : bool) (t1 t2 o : hval) : det fr fx fg (matmul_vv t1 t2 o).
Proof. dt. Qed.
#[export] Hint Resolve dt_matmul_vv : dt.
Lemma dt_matmul_mv (fr fx fg : bool) (t1 t2 o : hval) : det fr fx fg (matmul_mv t1 t2 o).
Proof. dt. Qed.
#[export] Hint Resolve dt_matmul_mv : dt.
Lemma dt_matmul_mm (fr fx fg : bool) (t1 t2 o : hval) : det fr fx fg (matmul_mm t1 t2 o).
Proof. dt. Qed.
#[export] Hint Resolve dt_matmul_mm : dt.
Lemma dt_matmul_vm (fr fx fg : bool) (t1 t2 o : hval) : det fr fx fg (matmul_vm t1 t2 o).
Proof. dt. Qed.
#[export] Hint Resolve dt_matmul_vm : dt.
Lemma dt_matmul_tv (fr fx fg : bool) (t1 t2 o : hval) (nd1 : Z) : det fr fx fg (matmul_tv t1 t2 o nd1).
Proof. dt. Qed.
#[export] Hint Resolve dt_matmul_tv : dt.
Lemma dt_matmul_vt (fr fx fg : bool) (t1 t2 o : hval) (nd2 : Z) : det fr fx fg (matmul_vt t1 t2 o nd2).
Proof. dt. Qed.
#[export] Hint Resolve dt_matmul_vt : dt.
Lemma dt_matmul_tt (fr fx fg : bool) (t1 t2 o : hval) (nd1 nd2 : Z) : det fr fx fg (matmul_tt t1 t2 o nd1 nd2).
Proof. dt. Qed.
#[export] Hint Resolve dt_matmul_tt : dt.
Lemma dt_aitisa_matmul (fr fx fg : bool) (t1 t2 o : hval) : det fr fx fg (aitisa_matmul t1 t2 o).
Proof. dt. Qed.
#[export] Hint Resolve dt_aitisa_matmul : dt.
Lemma dt_dot_kernel (fr fx fg : bool) (t : tcode) (d1 d2 : hval) (size : Z) (d_o : hval) : det fr fx fg (dot_kernel t d1 d2 size d_o).
Proof. dt. Qed.
#[export] Hint Resolve dt_dot_kernel : dt.
Lemma dt_dot_get_value (fr fx fg : bool) (t : hval) (idx : Z) : det fr fx fg (dot_get_value t idx).
Proof. dt. Qed.
#[export] Hint Resolve dt_dot_get_value : dt.
Lemma dt_vector_vector_dot (fr fx fg : bool) (t1 t2 o : hval) : det fr fx fg (vector_vector_dot t1 t2 o).
Proof. dt. Qed.
#[export] Hint Resolve dt_vector_vector_dot : dt.
Lemma dt_dot_advance (fr fx fg : bool) (n : nat) (skip : Z) (dims idx : list Z) : det fr fx fg (dot_advance n skip dims idx).
Proof. dt. Qed.
#[export] Hint Resolve dt_dot_advance : dt.
Lemma dt_tensor_vector_dot (fr fx fg : bool) (t1 t2 o : hval) : det fr fx fg (tensor_vector_dot t1 t2 o).
Proof. dt. Qed.
#[export] Hint Resolve dt_tensor_vector_dot : dt.
Lemma dt_multidim_dot (fr fx fg : bool) (t1 t2 o : hval) : det fr fx fg (multidim_dot t1 t2 o).
Proof. dt. Qed.
#[export] Hint Resolve dt_multidim_dot : dt.
Lemma dt_nn_create_like (fr fx fg : bool) (input o : hval) : det fr fx fg (nn_create_like input o).
Proof. dt. Qed.
#[export] Hint Resolve dt_nn_create_like : dt.
Lemma dt_relu_elem (fr fx fg : bool) (t : tcode) (v : val) : det fr fx fg (relu_elem t v).
Proof. dt. Qed.
#[export] Hint Resolve dt_relu_elem : dt.
Lemma dt_aitisa_relu (fr fx fg : bool) (input o : hval) : det fr fx fg (aitisa_relu input o).
Proof. dt. Qed.
#[export] Hint Resolve dt_aitisa_relu : dt.
Lemma dt_exp_of (fr fg : bool) (t : tcode) (v : val) : det fr true fg (exp_of t v).
Proof. dt. Qed.
#[export] Hint Resolve dt_exp_of : dt.
Lemma dt_sigmoid_elem (fr fg : bool) (t : tcode) (v : val) : det fr true fg (sigmoid_elem t v).
Proof. dt. Qed.
#[export] Hint Resolve dt_sigmoid_elem : dt.
Lemma dt_aitisa_sigmoid (fr fg : bool) (input o : hval) : det fr true fg (aitisa_sigmoid input o).
Proof. dt. Qed.
#[export] Hint Resolve dt_aitisa_sigmoid : dt.
Lemma dt_tanh_elem (fr fg : bool) (t : tcode) (v : val) : det fr true fg (tanh_elem t v).
Proof. dt. Qed.
#[export] Hint Resolve dt_tanh_elem : dt.
Lemma dt_aitisa_tanh (fr fg : bool) (input o : hval) : det fr true fg (aitisa_tanh input o).
Proof. dt. Qed.
#[export] Hint Resolve dt_aitisa_tanh : dt.
Lemma dt_dropout_kernel (fx fg : bool) (t : tcode) (tensor : hval) (size rate_line : Z) : det true fx fg (dropout_kernel t tensor size rate_line).
Proof. dt. Qed.
#[export] Hint Resolve dt_dropout_kernel : dt.
Lemma dt_int_of_double (fr fx fg : bool) (x : spec_float) : det fr fx fg (int_of_double x).
Proof. dt. Qed.
#[export] Hint Resolve dt_int_of_double : dt.
Lemma dt_dropout_template (fx fg : bool) (tensor : hval) (rate : spec_float) : det true fx fg (dropout_template tensor rate).
Proof. dt. Qed.
#[export] Hint Resolve dt_dropout_template : dt.
Lemma dt_aitisa_dropout (fx fg : bool) (input : hval) (rate : spec_float) (o : hval) : det true fx fg (aitisa_dropout input rate o).
Proof. dt. Qed.
#[export] Hint Resolve dt_aitisa_dropout : dt.
Lemma dt_softmax_create_output (fr fx fg : bool) (input o : hval) : det fr fx fg (softmax_create_output input o).
Proof. dt. Qed.
#[export] Hint Resolve dt_softmax_create_output : dt.
Lemma dt_softmax_exps (fr fg : bool) (t : tcode) (ind outd : hval) (start step n : Z) : det fr true fg (softmax_exps t ind outd start step n).
Proof. dt. Qed.
#[export] Hint Resolve dt_softmax_exps : dt.
Lemma dt_softmax_norm (fr fx fg : bool) (t : tcode) (outd : hval) (start step n : Z) (total : spec_float) : det fr fx fg (softmax_norm t outd start step n total).
Proof. dt. Qed.
#[export] Hint Resolve dt_softmax_norm : dt.
Lemma dt_softmax_with_all (fr fg : bool) (input o : hval) : det fr true fg (softmax_with_all input o).
Proof. dt. Qed.
#[export] Hint Resolve dt_softmax_with_all : dt.
Lemma dt_softmax_advance (fr fx fg : bool) (n : nat) (axis : Z) (dims idx : list Z) : det fr fx fg (softmax_advance n axis dims idx).
Proof. dt. Qed.
#[export] Hint Resolve dt_softmax_advance : dt.
Lemma dt_lin_index (fr fx fg : bool) (ndim : Z) (index offset : list Z) : det fr fx fg (lin_index ndim index offset).
Proof. dt. Qed.
#[export] Hint Resolve dt_lin_index : dt.
Lemma dt_row_offsets (fr fx fg : bool) (ndim : Z) (dims : list Z) : det fr fx fg (row_offsets ndim dims).
Proof. dt. Qed.
#[export] Hint Resolve dt_row_offsets : dt.
Lemma dt_softmax_axis_kernel (fr fg : bool) (t : tcode) (input o : hval) (ndim : Z) (dims : list Z) (axis batch element_offset : Z) (offs : list Z) : det fr true fg (softmax_axis_kernel t input o ndim dims axis batch element_offset offs).
Proof. dt. Qed.
#[export] Hint Resolve dt_softmax_axis_kernel : dt.
Lemma dt_softmax_along_axis (fr fg : bool) (input : hval) (axis : Z) (o : hval) : det fr true fg (softmax_along_axis input axis o).
Proof. dt. Qed.
#[export] Hint Resolve dt_softmax_along_axis : dt.
Lemma dt_aitisa_softmax (fr fg : bool) (input : hval) (axis : Z) (o : hval) : det fr true fg (aitisa_softmax input axis o).
Proof. dt. Qed.
#[export] Hint Resolve dt_aitisa_softmax : dt.
Lemma dt_pooling_extent (fr fx fg : bool) (d k s p dil : Z) : det fr fx fg (pooling_extent d k s p dil).
Proof. dt. Qed.
#[export] Hint Resolve dt_pooling_extent : dt.
Lemma dt_pooling_create_output (fr fx fg : bool) (input : hval) (ksize stride padding dilation : list Z) (o : hval) : det fr fx fg (pooling_create_output input ksize stride padding dilation o).
Proof. dt. Qed.
#[export] Hint Resolve dt_pooling_create_output : dt.
Lemma dt_pool_tail (fr fx fg : bool) (head k dil : Z) : det fr fx fg (pool_tail head k dil).
Proof. dt. Qed.
#[export] Hint Resolve dt_pool_tail : dt.
Lemma dt_pool_position (fr fx fg : bool) (n : Z) (dims strides index : list Z) (bc : Z) : det fr fx fg (pool_position n dims strides index bc).
Proof. dt. Qed.
#[export] Hint Resolve dt_pool_position : dt.
Lemma dt_pool_kernel (fr fx fg : bool) (mode : pmode) (t : tcode) (ind : hval) (pos : Z) (temp : spec_float) : det fr fx fg (pool_kernel mode t ind pos temp).
Proof. dt. Qed.
#[export] Hint Resolve dt_pool_kernel : dt.
Lemma dt_pool_output (fr fx fg : bool) (mode : pmode) (t : tcode) (outd : hval) (pos : Z) (temp : spec_float) (window_size : Z) : det fr fx fg (pool_output mode t outd pos temp window_size).
Proof. dt. Qed.
#[export] Hint Resolve dt_pool_output : dt.
Lemma dt_pool_next (fr fx fg : bool) (n : nat) (dilation head tail index : list Z) : det fr fx fg (pool_next n dilation head tail index).
Proof. dt. Qed.
#[export] Hint Resolve dt_pool_next : dt.
Lemma dt_pool_slide (fr fx fg : bool) (n : nat) (dims ksize stride padding dilation : list Z) (head tail : list Z) : det fr fx fg (pool_slide n dims ksize stride padding dilation head tail).
Proof. dt. Qed.
#[export] Hint Resolve dt_pool_slide : dt.
Lemma dt_pool_init (fr fx fg : bool) (n : Z) (ksize padding dilation : list Z) : det fr fx fg (pool_init n ksize padding dilation).
Proof. dt. Qed.
#[export] Hint Resolve dt_pool_init : dt.
Lemma dt_conv_output_dims (fr fx fg : bool) (in_dims fil_dims stride padding dilation : list Z) (ndim : Z) : det fr fx fg (conv_output_dims in_dims fil_dims stride padding dilation ndim).
Proof. dt. Qed.
#[export] Hint Resolve dt_conv_output_dims : dt.
Lemma dt_conv_position (fr fx fg : bool) (sdim : Z) (in_dims base dilation fil tmp : list Z) : det fr fx fg (conv_position sdim in_dims base dilation fil tmp).
Proof. dt. Qed.
#[export] Hint Resolve dt_conv_position : dt.
Lemma dt_conv_channel (fr fx fg : bool) (input filter ind fild : hval) (ndim sdim : Z) (in_dims dilation base : list Z) (oc ic fil_space : Z) (acc : val) : det fr fx fg (conv_channel input filter ind fild ndim sdim in_dims dilation base oc ic fil_space acc).
Proof. dt. Qed.
#[export] Hint Resolve dt_conv_channel : dt.
Lemma dt_conv_element (fr fx fg : bool) (input filter new ind fild outd : hval) (ndim sdim : Z) (in_dims stride padding dilation : list Z) (b oc out_idx in_chan fil_space : Z) : det fr fx fg (conv_element input filter new ind fild outd ndim sdim in_dims stride padding dilation b oc out_idx in_chan fil_space).
Proof. dt. Qed.
#[export] Hint Resolve dt_conv_element : dt.
Lemma dt_aitisa_conv_float (fr fx : bool) (input filter : hval) (stride padding dilation : list Z) (o : hval) : det fr fx true (aitisa_conv_float input filter stride padding dilation o).
Proof. dt. Qed.
#[export] Hint Resolve dt_aitisa_conv_float : dt.
Lemma dt_aitisa_conv (fr fx : bool) (input filter : hval) (stride padding dilation : list Z) (groups : Z) (o : hval) : det fr fx true (aitisa_conv input filter stride padding dilation groups o).
Proof. dt. Qed.
#[export] Hint Resolve dt_aitisa_conv : dt.
Lemma dt_aitisa_conv2d (fr fx : bool) (input filter : hval) (stride padding dilation : list Z) (groups : Z) (o : hval) : det fr fx true (aitisa_conv2d input filter stride padding dilation groups o).
Proof. dt. Qed.
#[export] Hint Resolve dt_aitisa_conv2d : dt.
Lemma dt_aitisa_conv3d (fr fx : bool) (input filter : hval) (stride padding dilation : list Z) (groups : Z) (o : hval) : det fr fx true (aitisa_conv3d input filter stride padding dilation groups o).
Proof. dt. Qed.
#[export] Hint Resolve dt_aitisa_conv3d : dt.

Lemma dt_pool_window (fr fx fg : bool) mode t ind n dims strides dil head tail bc : det fr fx fg (pool_window mode t ind n dims strides dil head tail bc).
Proof. dt. Qed.
#[export] Hint Resolve dt_pool_window : dt.
Lemma dt_aitisa_pooling (fr fx fg : bool) t m k s p d o : det fr fx fg (aitisa_pooling t m k s p d o).
Proof. dt. Qed.
#[export] Hint Resolve dt_aitisa_pooling : dt.

Lemma dt_aitisa_binary_op (fr fx fg : bool) op t1 t2 o : det fr fx fg (aitisa_binary_op op t1 t2 o).
Proof. dt. Qed.
#[export] Hint Resolve dt_aitisa_binary_op : dt.
Lemma dt_aitisa_dot (fr fx fg : bool) t1 t2 o : det fr fx fg (aitisa_dot t1 t2 o).
Proof. dt. Qed.
#[export] Hint Resolve dt_aitisa_dot : dt.
Lemma dt_batch_norm_check (fr fx fg : bool) (input : hval) (axis : Z) (scale bias mean variance : hval) (epsilon : spec_float) : det fr fx fg (batch_norm_check input axis scale bias mean variance epsilon).
Proof. dt. Qed.
#[export] Hint Resolve dt_batch_norm_check : dt.
Lemma dt_batch_norm_create_output (fr fx fg : bool) (input o : hval) : det fr fx fg (batch_norm_create_output input o).
Proof. dt. Qed.
#[export] Hint Resolve dt_batch_norm_create_output : dt.
Lemma dt_bn_advance (fr fx fg : bool) (n : nat) (axis : Z) (dims idx : list Z) : det fr fx fg (bn_advance n axis dims idx).
Proof. dt. Qed.
#[export] Hint Resolve dt_bn_advance : dt.
Lemma dt_batch_norm_transport (fr fx fg : bool) (source destination : hval) (idx offs : list Z) (axis : Z) : det fr fx fg (batch_norm_transport source destination idx offs axis).
Proof. dt. Qed.
#[export] Hint Resolve dt_batch_norm_transport : dt.
Lemma dt_bn_row (fr fx fg : bool) (input scale bias mean denominator : hval) (begin size step : list Z) (out_data : hval) (ele s : Z) : det fr fx fg (bn_row input scale bias mean denominator begin size step out_data ele s).
Proof. dt. Qed.
#[export] Hint Resolve dt_bn_row : dt.
Lemma dt_batch_norm_without_channel (fr fx fg : bool) (input scale bias mean denominator o : hval) : det fr fx fg (batch_norm_without_channel input scale bias mean denominator o).
Proof. dt. Qed.
#[export] Hint Resolve dt_batch_norm_without_channel : dt.
Lemma dt_bn_channel (fr fx fg : bool) (input scale bias mean denominator o : hval) (begin size step : list Z) (axis c : Z) (idx offs : list Z) : det fr fx fg (bn_channel input scale bias mean denominator o begin size step axis c idx offs).
Proof. dt. Qed.
#[export] Hint Resolve dt_bn_channel : dt.
Lemma dt_batch_norm_with_channel (fr fx fg : bool) (input : hval) (axis : Z) (scales biases means denominators : list hval) (o : hval) : det fr fx fg (batch_norm_with_channel input axis scales biases means denominators o).
Proof. dt. Qed.
#[export] Hint Resolve dt_batch_norm_with_channel : dt.
Lemma dt_bn_denominator (fr fx fg : bool) (input variance : hval) (epsilon : spec_float) : det fr fx fg (bn_denominator input variance epsilon).
Proof. dt. Qed.
#[export] Hint Resolve dt_bn_denominator : dt.
Lemma dt_bn_spread (fr fx fg : bool) (destination parameter : hval) (n ele c : Z) : det fr fx fg (bn_spread destination parameter n ele c).
Proof. dt. Qed.
#[export] Hint Resolve dt_bn_spread : dt.
Lemma dt_bn_parameters (fr fx fg : bool) (dt : dtype) (dev : device) (dims : list Z) (ndim : Z) (scale bias mean variance eps : hval) (n ele c : Z) : det fr fx fg (bn_parameters dt dev dims ndim scale bias mean variance eps n ele c).
Proof. dt. Qed.
#[export] Hint Resolve dt_bn_parameters : dt.
Lemma dt_bn_intermediate (fr fx fg : bool) (input : hval) (axis : Z) (scale bias mean variance : hval) (epsilon : spec_float) : det fr fx fg (bn_intermediate input axis scale bias mean variance epsilon).
Proof. dt. Qed.
#[export] Hint Resolve dt_bn_intermediate : dt.
Lemma dt_aitisa_batch_norm (fr fx fg : bool) (input : hval) (axis : Z) (scale bias mean variance : hval) (epsilon : spec_float) (o : hval) : det fr fx fg (aitisa_batch_norm input axis scale bias mean variance epsilon o).
Proof. dt. Qed.
#[export] Hint Resolve dt_aitisa_batch_norm : dt.

(** ** The operations *)
Lemma op_det x o fr fx fg : (draws x = true -> fr = true) -> (exponentiates x = true -> fx = true) ->
  (forgets_return x = true -> fg = true) -> det fr fx fg (run_op x o).
Proof.
  intros H1 H2 H3. destruct x; cbn [draws exponentiates forgets_return] in *; cbn [run_op];
    try (specialize (H1 eq_refl); subst); try (specialize (H2 eq_refl); subst); try (specialize (H3 eq_refl); subst);
    auto with dt.
Qed.
(** Both ways: environments with the same bound on the iterations. *)
Lemma det_eq {A} fr fx fg (m : M A) E E' s : det fr fx fg m -> agree fr fx fg E E' -> agree fr fx fg E' E -> m E' s = m E s.
Proof.
  intros H a b. destruct (H E E' s a) as [e|e]; [|done]. destruct (H E' E s b) as [e'|e']; congruence.
Qed.
Lemma ag_rand_only r E : agree false true true E (with_rand r E) /\ agree false true true (with_rand r E) E.
Proof. split; split; done. Qed.
Lemma ag_exp_only f E : agree true false true E (with_exp f E) /\ agree true false true (with_exp f E) E.
Proof. split; split; done. Qed.
Lemma ag_garbage_only g E : agree true true false E (with_garbage g E) /\ agree true true false (with_garbage g E) E.
Proof. split; split; done. Qed.

Lemma op_rand x o r E s : draws x = false -> run_op x o (with_rand r E) s = run_op x o E s.
Proof. intros H. destruct (ag_rand_only r E). eapply (det_eq false true true); [apply op_det; intros; congruence|done..]. Qed.
Lemma op_exp x o f E s : exponentiates x = false -> run_op x o (with_exp f E) s = run_op x o E s.
Proof. intros H. destruct (ag_exp_only f E). eapply (det_eq true false true); [apply op_det; intros; congruence|done..]. Qed.
Lemma op_garbage x o g E s : forgets_return x = false -> run_op x o (with_garbage g E) s = run_op x o E s.
Proof. intros H. destruct (ag_garbage_only g E). eapply (det_eq true true false); [apply op_det; intros; congruence|done..]. Qed.
Lemma op_fuel x o n E s : (e_fuel E <= n)%nat -> run_op x o E s <> Diverge -> run_op x o (with_fuel n E) s = run_op x o E s.
Proof.
  intros Hn H. destruct (op_det x o true true true (fun _ => eq_refl) (fun _ => eq_refl) (fun _ => eq_refl) E (with_fuel n E) s)
    as [e|e]; [|done..]. by split.
Qed.

(** ** Convolution and resolve: all but the status *)
Definition likely {A} (m : M (status * A)) : Prop :=
  forall E E' s, agree true true false E E' -> agree true true false E' E -> alike (m E s) (m E' s).
Lemma alike_refl {A} (r : res (status * A)) : alike r r. Proof. by destruct r as [[]| | |]. Qed.
Lemma lk_det {A} (m : M (status * A)) : det true true false m -> likely m.
Proof. intros H E E' s a b. rewrite (det_eq _ _ _ _ _ _ s H a b). apply alike_refl. Qed.
Lemma lk_bind {A B} (m : M A) (k : A -> M (status * B)) : det true true false m -> (forall a, likely (k a)) -> likely (bind m k).
Proof.
  intros Hm Hk E E' s a b. unfold bind. rewrite (det_eq _ _ _ _ _ _ s Hm a b).
  destruct (m E s) as [y s'| | |]; try done. by apply Hk.
Qed.
Lemma lk_garbage {A} n (a : A) : likely (let* g := ask (fun E => e_garbage E n) in ret (g, a)).
Proof. done. Qed.
Lemma lk_conv_float a b c d e o : likely (aitisa_conv_float a b c d e o).
Proof.
  unfold aitisa_conv_float. repeat (apply lk_bind; [by dt|intros ?]).
  match goal with |- likely (let (_, _) := ?p in _) => destruct p as [st h] end.
  destruct (negb _); [apply lk_det; by dt|]. cbv zeta. repeat (first [apply lk_garbage|apply lk_bind; [by dt|intros ?]]).
Qed.
Lemma lk_conv a b c d e g o : likely (aitisa_conv a b c d e g o).
Proof.
  unfold aitisa_conv. apply lk_bind; [by dt|intros dt]. destruct (_ =? _); [|apply lk_det; by dt].
  intros E E' s x y. pose proof (lk_conv_float a b c d e o E E' s x y) as H. unfold bind.
  destruct (aitisa_conv_float a b c d e o E s) as [[u h] z| | |], (aitisa_conv_float a b c d e o E' s) as [[u' h'] z'| | |];
    cbn [alike] in *; try done.
  destruct H as [-> ->]. destruct (negb (bool_decide (u = SUCCESS))), (negb (bool_decide (u' = SUCCESS))); done.
Qed.
Lemma op_alike x o g E s : alike (run_op x o E s) (run_op x o (with_garbage g E) s).
Proof.
  destruct (ag_garbage_only g E) as [a b].
  destruct (forgets_return x) eqn:Hx; [|rewrite (op_garbage _ _ _ _ _ Hx); apply alike_refl].
  destruct x; try done; cbn [run_op].
  - by apply lk_conv.
  - unfold aitisa_conv2d. apply lk_bind; [by dt|intros n|done..]. destruct (negb _); [apply lk_det; by dt|apply lk_conv].
  - unfold aitisa_conv3d. apply lk_bind; [by dt|intros n|done..]. destruct (negb _); [apply lk_det; by dt|apply lk_conv].
Qed.
Lemma resolve_alike t g E s : alike (aitisa_resolve t E s) (aitisa_resolve t (with_garbage g E) s).
Proof.
  destruct (ag_garbage_only g E) as [a b]. unfold aitisa_resolve.
  repeat (first [apply lk_garbage|apply lk_bind; [by dt|intros ?|done..]]); try done.
  all: repeat (first [apply lk_garbage|apply lk_bind; [by dt|intros ?]]).
Qed.

(** No oracle at all: accesses, questions, destruction. *)
Lemma set_item_det fr fx fg t i bs : det fr fx fg (aitisa_tensor_set_item t i bs).
Proof. auto with dt. Qed.
Lemma destroy_det fr fx fg t : det fr fx fg (aitisa_destroy t).
Proof. auto with dt. Qed.
