(** * PropError: accuracy of floating-point products (C55) *)
From stdpp Require Import gmap list.
From Coq Require Import ZArith Lia Reals Lra Floats.SpecFloat.
From Flocq Require Core.
From Flocq Require Import IEEE754.BinarySingleNaN.
From Verif Require Import Base Mem Spec SpecReal SpecNN SpecError ModelCore ModelBasic ModelMath ModelNN Logic
  ProofCore ProofError ProofError2 Fixture RefuteConv.
Open Scope Z_scope.

(** ** C55: matrix products, dot products and convolutions are close to the real ones *)
Theorem C55_matmul_vector_vector : forall p1 p2 T1 T2 o E s,
  wf s -> holds (heap s) p1 T1 -> holds (heap s) p2 T2 ->
  is_float (a_type T1) = true -> a_type T2 = a_type T1 ->
  dev_type (a_dev T1) = 0 -> dev_type (a_dev T2) = 0 -> init T1 -> init T2 ->
  forall k, a_dims T1 = [k] -> a_dims T2 = [k] -> k <= INT_MAX ->
  exists T3, valid T3 /\ a_type T3 = a_type T1 /\ a_dev T3 = a_dev T1 /\ a_dims T3 = [1] /\
    accurate (a_type T1) (terms k (fun q => at_ T1 [q]) (fun q => at_ T2 [q])) (at_ T3 [0]) /\
    makes_or_nomem (aitisa_matmul (HPtr p1) (HPtr p2) o) E s o T3.
Proof. exact matmul_vv_acc. Qed.
Print Assumptions C55_matmul_vector_vector.
Theorem C55_matmul_matrix_vector : forall p1 p2 T1 T2 o E s,
  wf s -> holds (heap s) p1 T1 -> holds (heap s) p2 T2 ->
  is_float (a_type T1) = true -> a_type T2 = a_type T1 ->
  dev_type (a_dev T1) = 0 -> dev_type (a_dev T2) = 0 -> init T1 -> init T2 ->
  forall m k, a_dims T1 = [m; k] -> a_dims T2 = [k] -> k <= INT_MAX -> m <= INT_MAX ->
  fits (tsz (a_type T1)) [m] ->
  exists T3, valid T3 /\ a_type T3 = a_type T1 /\ a_dev T3 = a_dev T1 /\ a_dims T3 = [m] /\
    (forall i, 0 <= i < m ->
      accurate (a_type T1) (terms k (fun q => at_ T1 [i; q]) (fun q => at_ T2 [q])) (at_ T3 [i])) /\
    makes_or_nomem (aitisa_matmul (HPtr p1) (HPtr p2) o) E s o T3.
Proof. exact matmul_mv_acc. Qed.
Print Assumptions C55_matmul_matrix_vector.
Theorem C55_matmul_vector_matrix : forall p1 p2 T1 T2 o E s,
  wf s -> holds (heap s) p1 T1 -> holds (heap s) p2 T2 ->
  is_float (a_type T1) = true -> a_type T2 = a_type T1 ->
  dev_type (a_dev T1) = 0 -> dev_type (a_dev T2) = 0 -> init T1 -> init T2 ->
  forall k n, a_dims T1 = [k] -> a_dims T2 = [k; n] -> k <= INT_MAX -> n <= INT_MAX ->
  fits (tsz (a_type T1)) [n] ->
  exists T3, valid T3 /\ a_type T3 = a_type T1 /\ a_dev T3 = a_dev T1 /\ a_dims T3 = [n] /\
    (forall j, 0 <= j < n ->
      accurate (a_type T1) (terms k (fun q => at_ T1 [q]) (fun q => at_ T2 [q; j])) (at_ T3 [j])) /\
    makes_or_nomem (aitisa_matmul (HPtr p1) (HPtr p2) o) E s o T3.
Proof. exact matmul_vm_acc. Qed.
Print Assumptions C55_matmul_vector_matrix.
Theorem C55_matmul_matrix_matrix : forall p1 p2 T1 T2 o E s,
  wf s -> holds (heap s) p1 T1 -> holds (heap s) p2 T2 ->
  is_float (a_type T1) = true -> a_type T2 = a_type T1 ->
  dev_type (a_dev T1) = 0 -> dev_type (a_dev T2) = 0 -> init T1 -> init T2 ->
  forall m k n, a_dims T1 = [m; k] -> a_dims T2 = [k; n] ->
  m <= INT_MAX -> k <= INT_MAX -> n <= INT_MAX -> m * n <= INT_MAX -> fits (tsz (a_type T1)) [m; n] ->
  exists T3, valid T3 /\ a_type T3 = a_type T1 /\ a_dev T3 = a_dev T1 /\ a_dims T3 = [m; n] /\
    (forall i j, 0 <= i < m -> 0 <= j < n ->
      accurate (a_type T1) (terms k (fun q => at_ T1 [i; q]) (fun q => at_ T2 [q; j])) (at_ T3 [i; j])) /\
    makes_or_nomem (aitisa_matmul (HPtr p1) (HPtr p2) o) E s o T3.
Proof. exact matmul_mm_acc. Qed.
Print Assumptions C55_matmul_matrix_matrix.
Theorem C55_matmul_batch : forall p1 p2 T1 T2 o E s,
  wf s -> holds (heap s) p1 T1 -> holds (heap s) p2 T2 ->
  is_float (a_type T1) = true -> a_type T2 = a_type T1 ->
  dev_type (a_dev T1) = 0 -> dev_type (a_dev T2) = 0 -> init T1 -> init T2 ->
  alloc_all E -> hooks_ok E ->
  Forall (fun d => 0 < d <= INT_MAX) (a_dims T1) -> Forall (fun d => 0 < d <= INT_MAX) (a_dims T2) ->
  forall b1 b2 bd m k n, bd <> [] -> a_dims T1 = b1 ++ [m; k] -> a_dims T2 = b2 ++ [k; n] ->
  bcast b1 b2 = Some bd -> prodZ (bd ++ [m; n]) <= INT_MAX -> fits (tsz (a_type T1)) (bd ++ [m; n]) ->
  exists T3, valid T3 /\ a_type T3 = a_type T1 /\ a_dev T3 = a_dev T1 /\ a_dims T3 = bd ++ [m; n] /\
    (forall c i j, in_box bd c -> 0 <= i < m -> 0 <= j < n ->
      accurate (a_type T1)
        (terms k (fun q => at_ T1 (bproj b1 c ++ [i; q])) (fun q => at_ T2 (bproj b2 c ++ [q; j])))
        (at_ T3 (c ++ [i; j]))) /\
    makes (aitisa_matmul (HPtr p1) (HPtr p2) o) E s T3.
Proof. exact matmul_tt_acc. Qed.
Print Assumptions C55_matmul_batch.
Theorem C55_matmul_batch_vector : forall p1 p2 T1 T2 o E s,
  wf s -> holds (heap s) p1 T1 -> holds (heap s) p2 T2 ->
  is_float (a_type T1) = true -> a_type T2 = a_type T1 ->
  dev_type (a_dev T1) = 0 -> dev_type (a_dev T2) = 0 -> init T1 -> init T2 ->
  alloc_all E -> hooks_ok E ->
  Forall (fun d => 0 < d <= INT_MAX) (a_dims T1) -> Forall (fun d => 0 < d <= INT_MAX) (a_dims T2) ->
  forall b1 m k, b1 <> [] -> a_dims T1 = b1 ++ [m; k] -> a_dims T2 = [k] ->
  prodZ (b1 ++ [m]) <= INT_MAX -> fits (tsz (a_type T1)) (b1 ++ [m]) ->
  exists T3, valid T3 /\ a_type T3 = a_type T1 /\ a_dev T3 = a_dev T1 /\ a_dims T3 = b1 ++ [m] /\
    (forall c i, in_box b1 c -> 0 <= i < m ->
      accurate (a_type T1) (terms k (fun q => at_ T1 (c ++ [i; q])) (fun q => at_ T2 [q])) (at_ T3 (c ++ [i]))) /\
    makes (aitisa_matmul (HPtr p1) (HPtr p2) o) E s T3.
Proof. exact matmul_tv_acc. Qed.
Print Assumptions C55_matmul_batch_vector.
Theorem C55_matmul_vector_batch : forall p1 p2 T1 T2 o E s,
  wf s -> holds (heap s) p1 T1 -> holds (heap s) p2 T2 ->
  is_float (a_type T1) = true -> a_type T2 = a_type T1 ->
  dev_type (a_dev T1) = 0 -> dev_type (a_dev T2) = 0 -> init T1 -> init T2 ->
  alloc_all E -> hooks_ok E ->
  Forall (fun d => 0 < d <= INT_MAX) (a_dims T1) -> Forall (fun d => 0 < d <= INT_MAX) (a_dims T2) ->
  forall b2 k n, b2 <> [] -> a_dims T1 = [k] -> a_dims T2 = b2 ++ [k; n] ->
  prodZ (b2 ++ [n]) <= INT_MAX -> fits (tsz (a_type T1)) (b2 ++ [n]) ->
  exists T3, valid T3 /\ a_type T3 = a_type T1 /\ a_dev T3 = a_dev T1 /\ a_dims T3 = b2 ++ [n] /\
    (forall c j, in_box b2 c -> 0 <= j < n ->
      accurate (a_type T1) (terms k (fun q => at_ T1 [q]) (fun q => at_ T2 (c ++ [q; j]))) (at_ T3 (c ++ [j]))) /\
    makes (aitisa_matmul (HPtr p1) (HPtr p2) o) E s T3.
Proof. exact matmul_vt_acc. Qed.
Print Assumptions C55_matmul_vector_batch.
Theorem C55_dot_vectors : forall p1 p2 T1 T2 o E s,
  wf s -> holds (heap s) p1 T1 -> holds (heap s) p2 T2 ->
  is_float (a_type T1) = true -> a_type T2 = a_type T1 ->
  dev_type (a_dev T1) = 0 -> dev_type (a_dev T2) = 0 -> init T1 -> init T2 ->
  forall k, a_dims T1 = [k] -> a_dims T2 = [k] -> k <= INT_MAX ->
  exists w, accurate (a_type T1) (terms k (fun q => at_ T1 [q]) (fun q => at_ T2 [q])) w /\
    makes_or_nomem (aitisa_dot (HPtr p1) (HPtr p2) o) E s o (AT (a_type T1) (a_dev T1) [1] [w]).
Proof. exact dot_vv_acc. Qed.
Print Assumptions C55_dot_vectors.
Theorem C55_dot_tensor_vector : forall p1 p2 T1 T2 o E s,
  wf s -> holds (heap s) p1 T1 -> holds (heap s) p2 T2 ->
  is_float (a_type T1) = true -> a_type T2 = a_type T1 ->
  dev_type (a_dev T1) = 0 -> dev_type (a_dev T2) = 0 -> init T1 -> init T2 ->
  alloc_all E -> hooks_ok E -> Forall (fun d => 0 < d <= INT_MAX) (a_dims T1) ->
  forall b k, b <> [] -> a_dims T1 = b ++ [k] -> a_dims T2 = [k] ->
  prodZ b * Z.of_nat (tsz (a_type T1)) <= INT_MAX -> fits (tsz (a_type T1)) b ->
  exists T3, valid T3 /\ a_type T3 = a_type T1 /\ a_dev T3 = a_dev T1 /\ a_dims T3 = b /\
    (forall c, in_box b c ->
      accurate (a_type T1) (terms k (fun q => at_ T1 (c ++ [q])) (fun q => at_ T2 [q])) (at_ T3 c)) /\
    makes (aitisa_dot (HPtr p1) (HPtr p2) o) E s T3.
Proof. exact dot_tv_acc. Qed.
Print Assumptions C55_dot_tensor_vector.
Theorem C55_dot_tensors : forall p1 p2 T1 T2 o E s,
  wf s -> holds (heap s) p1 T1 -> holds (heap s) p2 T2 ->
  is_float (a_type T1) = true -> a_type T2 = a_type T1 ->
  dev_type (a_dev T1) = 0 -> dev_type (a_dev T2) = 0 -> init T1 -> init T2 ->
  alloc_all E -> hooks_ok E ->
  Forall (fun d => 0 < d <= INT_MAX) (a_dims T1) -> Forall (fun d => 0 < d <= INT_MAX) (a_dims T2) ->
  forall b1 b2 k n, (2 <= length b1)%nat -> (1 <= length b2)%nat ->
  a_dims T1 = b1 ++ [k] -> a_dims T2 = b2 ++ [k; n] ->
  prodZ b1 <= INT_MAX -> prodZ b2 * n <= INT_MAX -> fits (tsz (a_type T1)) (b1 ++ b2 ++ [n]) ->
  exists T3, valid T3 /\ a_type T3 = a_type T1 /\ a_dev T3 = a_dev T1 /\ a_dims T3 = b1 ++ b2 ++ [n] /\
    (forall c e j, in_box b1 c -> in_box b2 e -> 0 <= j < n ->
      accurate (a_type T1) (terms k (fun q => at_ T1 (c ++ [q])) (fun q => at_ T2 (e ++ [q; j])))
        (at_ T3 (c ++ e ++ [j]))) /\
    makes (aitisa_dot (HPtr p1) (HPtr p2) o) E s T3.
Proof. exact dot_tt_acc. Qed.
Print Assumptions C55_dot_tensors.
Theorem C55_convolution : forall p pf T F nb nc oc fc sd ks ss ps ls g o E s,
  wf s -> alloc_all E -> hooks_ok E -> holds (heap s) p T -> holds (heap s) pf F ->
  a_type T = F32 -> a_type F = F32 ->
  a_dims T = nb :: nc :: sd -> a_dims F = oc :: fc :: ks -> nc <= fc -> 0 < nc ->
  (length sd <= 3)%nat -> win_ok sd ks ss ps ls ->
  fits (tsz F32) (nb :: oc :: win_outs sd ks ss ps ls) -> init T -> init F ->
  exists T3, a_type T3 = F32 /\ a_dev T3 = a_dev T /\ a_dims T3 = nb :: oc :: win_outs sd ks ss ps ls /\
    valid T3 /\
    (forall b c x, in_box (a_dims T3) (b :: c :: x) ->
       accurate F32 (conv_terms T F ss ps ls nc b c x) (at_ T3 (b :: c :: x))) /\
    makes_saying (conv_status E) (aitisa_conv (HPtr p) (HPtr pf) ss ps ls g o) E s T3.
Proof. exact conv_acc. Qed.
Print Assumptions C55_convolution.
(** How large the error is for any number of terms up to about 2^23 (float) or 2^52 (double) *)
Theorem C55_bound : forall t n A, (0 <= A)%R -> (INR (n + 1) * uround t <= / 2)%R ->
  (dot_error t n A <= 2 * INR (n + 1) * uround t * A + 2 * INR n * tiny t)%R.
Proof. exact dot_error_simple. Qed.
Print Assumptions C55_bound.
Theorem C55_no_overflow : forall t l, (INR (length l + 1) * uround t <= / 2)%R ->
  (2 * dot_abs l + 2 * INR (length l) * tiny t < Raux.bpow Zaux.radix2 (femax t))%R -> dot_safe t l.
Proof. exact dot_safe_simple. Qed.
Print Assumptions C55_no_overflow.

(** Tenths, which no float holds exactly: the product of these vectors is inexact, and
    safely finite. *)
Definition tenths (zs : list Z) : list val :=
  (fun z => VF (flt_op F32 OpDiv (flt_of_Z F32 z) (flt_of_Z F32 10))) <$> zs.
Definition T_t1 : atensor := AT F32 cpu [3] (tenths [1; 2; 3]).
Definition T_t2 : atensor := AT F32 cpu [3] (tenths [7; -9; 13]).
Lemma T_t1_valid : valid T_t1. Proof. lit_valid. Qed.
Lemma T_t2_valid : valid T_t2. Proof. lit_valid. Qed.
Definition terms_t := terms 3 (fun q => at_ T_t1 [q]) (fun q => at_ T_t2 [q]).
Definition lit_t : list (val * val) := Eval vm_compute in terms_t.
Lemma terms_t_lit : terms_t = lit_t. Proof. vm_compute. reflexivity. Qed.
Ltac bp := repeat match goal with |- context [Raux.bpow Zaux.radix2 ?e] =>
  let e' := eval vm_compute in e in
  let v := eval vm_compute in (2 ^ Z.abs e') in
  match e' with
  | Zpos _ => change (Raux.bpow Zaux.radix2 e) with (IZR v)
  | Zneg _ => change (Raux.bpow Zaux.radix2 e) with (/ IZR v)%R
  end end.
Example C55_ex :
  wf (fx [T_t1; T_t2]) /\ holds (heap (fx [T_t1; T_t2])) 0 T_t1 /\ holds (heap (fx [T_t1; T_t2])) 5 T_t2 /\
  init T_t1 /\ init T_t2 /\ a_dims T_t1 = [3] /\ a_dims T_t2 = [3] /\
  Forall (fun p => finite_val p.1 /\ finite_val p.2) terms_t /\ dot_safe F32 terms_t /\
  exists w, inner F32 3 (fun q => at_ T_t1 [q]) (fun q => at_ T_t2 [q]) = Some w /\
    finite_val w /\ val_real w <> dot_real terms_t /\
    exists r s', aitisa_dot (HPtr 0) (HPtr 5) HNull E0 (fx [T_t1; T_t2]) = Done r s' /\
      peek E0 s' r = Some (SUCCESS, [1], [w]).
Proof.
  split_and!; [apply fx_wf|exact (fx_holds [T_t1; T_t2] 0 T_t1 eq_refl T_t1_valid)
    |exact (fx_holds [T_t1; T_t2] 1 T_t2 eq_refl T_t2_valid)|lit_init|lit_init|done|done| | |].
  - vm_compute. repeat constructor; eexists; split; reflexivity.
  - apply dot_safe_simple; rewrite terms_t_lit; unfold lit_t, uround, tiny, dot_abs;
      cbn -[Raux.bpow]; unfold Defs.F2R; cbn [Defs.Fnum Defs.Fexp]; rewrite ?opp_IZR; bp.
    + lra.
    + repeat match goal with |- context [Rabs ?x] =>
        assert (Rabs x <= 1)%R by (apply Rabs_le; lra); generalize dependent (Rabs x); intros end. lra.
  - eexists. split; [vm_compute; reflexivity|]. split; [eexists; split; reflexivity|]. split.
    + rewrite terms_t_lit. unfold lit_t. cbn -[Raux.bpow]. unfold Defs.F2R; cbn [Defs.Fnum Defs.Fexp]; rewrite ?opp_IZR; bp. lra.
    + apply run_ex. vm_compute. reflexivity.
Qed.

(** The other theorems apply to these. *)
Definition T_t3 : atensor := AT F32 cpu [2; 3] (tenths [1; 2; 3; 4; 5; -6]).
Definition T_t4 : atensor := AT F32 cpu [3; 1] (tenths [7; -9; 13]).
Definition T_t5 : atensor := AT F32 cpu [2; 1; 3] (tenths [1; 2; 3; 4; 5; -6]).
Definition T_t6 : atensor := AT F32 cpu [1; 3; 2] (tenths [7; -9; 13; 4; 2; 21]).
Lemma T_t3_valid : valid T_t3. Proof. lit_valid. Qed.
Lemma T_t4_valid : valid T_t4. Proof. lit_valid. Qed.
Lemma T_t5_valid : valid T_t5. Proof. lit_valid. Qed.
Lemma T_t6_valid : valid T_t6. Proof. lit_valid. Qed.
Definition s_t : st := fx [T_t1; T_t3; T_t4; T_t5; T_t6].
Lemma s_t_holds :
  wf s_t /\ holds (heap s_t) 0 T_t1 /\ holds (heap s_t) 5 T_t3 /\ holds (heap s_t) 10 T_t4 /\
  holds (heap s_t) 15 T_t5 /\ holds (heap s_t) 20 T_t6 /\ Forall init [T_t1; T_t3; T_t4; T_t5; T_t6].
Proof.
  unfold s_t. split_and!; [apply fx_wf|exact (fx_holds [T_t1; T_t3; T_t4; T_t5; T_t6] 0 T_t1 eq_refl T_t1_valid)
    |exact (fx_holds [T_t1; T_t3; T_t4; T_t5; T_t6] 1 T_t3 eq_refl T_t3_valid)|exact (fx_holds [T_t1; T_t3; T_t4; T_t5; T_t6] 2 T_t4 eq_refl T_t4_valid)
    |exact (fx_holds [T_t1; T_t3; T_t4; T_t5; T_t6] 3 T_t5 eq_refl T_t5_valid)|exact (fx_holds [T_t1; T_t3; T_t4; T_t5; T_t6] 4 T_t6 eq_refl T_t6_valid)|].
  rewrite !Forall_cons. split_and!; [lit_init..|apply Forall_nil_2].
Qed.
Ltac use_t := destruct s_t_holds as (Hw & H1 & H3 & H4 & H5 & H6 & HI);
  rewrite !Forall_cons in HI; destruct HI as (I1 & I3 & I4 & I5 & I6 & _).
Example C55_matrix_vector_ex : exists T3, a_dims T3 = [2] /\
  makes_or_nomem (aitisa_matmul (HPtr 5) (HPtr 0) HNull) E0 s_t HNull T3.
Proof.
  use_t. destruct (C55_matmul_matrix_vector 5 0 T_t3 T_t1 HNull E0 s_t Hw H3 H1 eq_refl eq_refl eq_refl eq_refl I3 I1
    2 3 eq_refl eq_refl ltac:(done) ltac:(done) ltac:(lit_fits)) as (T3 & _ & _ & _ & Hd & _ & Hm). exists T3. split; [exact Hd|exact Hm].
Qed.
Example C55_matrix_matrix_ex : exists T3, a_dims T3 = [2; 1] /\
  makes_or_nomem (aitisa_matmul (HPtr 5) (HPtr 10) HNull) E0 s_t HNull T3.
Proof.
  use_t. destruct (C55_matmul_matrix_matrix 5 10 T_t3 T_t4 HNull E0 s_t Hw H3 H4 eq_refl eq_refl eq_refl eq_refl I3 I4
    2 3 1 eq_refl eq_refl ltac:(done) ltac:(done) ltac:(done) ltac:(done) ltac:(lit_fits)) as (T3 & _ & _ & _ & Hd & _ & Hm).
  exists T3. split; [exact Hd|exact Hm].
Qed.
Example C55_vector_matrix_ex : exists T3, a_dims T3 = [1] /\
  makes_or_nomem (aitisa_matmul (HPtr 0) (HPtr 10) HNull) E0 s_t HNull T3.
Proof.
  use_t. destruct (C55_matmul_vector_matrix 0 10 T_t1 T_t4 HNull E0 s_t Hw H1 H4 eq_refl eq_refl eq_refl eq_refl I1 I4
    3 1 eq_refl eq_refl ltac:(done) ltac:(done) ltac:(lit_fits)) as (T3 & _ & _ & _ & Hd & _ & Hm). exists T3. split; [exact Hd|exact Hm].
Qed.
Example C55_batch_ex : exists T3, a_dims T3 = [2; 1; 2] /\
  makes (aitisa_matmul (HPtr 15) (HPtr 20) HNull) E0 s_t T3.
Proof.
  use_t. destruct (C55_matmul_batch 15 20 T_t5 T_t6 HNull E0 s_t Hw H5 H6 eq_refl eq_refl eq_refl eq_refl I5 I6
    ltac:(done) eq_refl ltac:(repeat constructor; done) ltac:(repeat constructor; done)
    [2] [1] [2] 1 3 2 ltac:(done) eq_refl eq_refl eq_refl ltac:(done) ltac:(lit_fits)) as (T3 & _ & _ & _ & Hd & _ & Hm).
  exists T3. split; [exact Hd|exact Hm].
Qed.
Example C55_batch_vector_ex : exists T3, a_dims T3 = [2; 1] /\
  makes (aitisa_matmul (HPtr 15) (HPtr 0) HNull) E0 s_t T3.
Proof.
  use_t. destruct (C55_matmul_batch_vector 15 0 T_t5 T_t1 HNull E0 s_t Hw H5 H1 eq_refl eq_refl eq_refl eq_refl I5 I1
    ltac:(done) eq_refl ltac:(repeat constructor; done) ltac:(repeat constructor; done)
    [2] 1 3 ltac:(done) eq_refl eq_refl ltac:(done) ltac:(lit_fits)) as (T3 & _ & _ & _ & Hd & _ & Hm).
  exists T3. split; [exact Hd|exact Hm].
Qed.
Example C55_vector_batch_ex : exists T3, a_dims T3 = [1; 2] /\
  makes (aitisa_matmul (HPtr 0) (HPtr 20) HNull) E0 s_t T3.
Proof.
  use_t. destruct (C55_matmul_vector_batch 0 20 T_t1 T_t6 HNull E0 s_t Hw H1 H6 eq_refl eq_refl eq_refl eq_refl I1 I6
    ltac:(done) eq_refl ltac:(repeat constructor; done) ltac:(repeat constructor; done)
    [1] 3 2 ltac:(done) eq_refl eq_refl ltac:(done) ltac:(lit_fits)) as (T3 & _ & _ & _ & Hd & _ & Hm).
  exists T3. split; [exact Hd|exact Hm].
Qed.
Example C55_tensor_vector_ex : exists T3, a_dims T3 = [2; 1] /\
  makes (aitisa_dot (HPtr 15) (HPtr 0) HNull) E0 s_t T3.
Proof.
  use_t. destruct (C55_dot_tensor_vector 15 0 T_t5 T_t1 HNull E0 s_t Hw H5 H1 eq_refl eq_refl eq_refl eq_refl I5 I1
    ltac:(done) eq_refl ltac:(repeat constructor; done)
    [2; 1] 3 ltac:(done) eq_refl eq_refl ltac:(done) ltac:(lit_fits)) as (T3 & _ & _ & _ & Hd & _ & Hm).
  exists T3. split; [exact Hd|exact Hm].
Qed.
Example C55_tensors_ex : exists T3, a_dims T3 = [2; 1; 1; 2] /\
  makes (aitisa_dot (HPtr 15) (HPtr 20) HNull) E0 s_t T3.
Proof.
  use_t. destruct (C55_dot_tensors 15 20 T_t5 T_t6 HNull E0 s_t Hw H5 H6 eq_refl eq_refl eq_refl eq_refl I5 I6
    ltac:(done) eq_refl ltac:(repeat constructor; done) ltac:(repeat constructor; done)
    [2; 1] [1] 3 2 ltac:(cbn; lia) ltac:(cbn; lia) eq_refl eq_refl ltac:(done) ltac:(done) ltac:(lit_fits))
    as (T3 & _ & _ & _ & Hd & _ & Hm).
  exists T3. split; [exact Hd|exact Hm].
Qed.
Example C55_convolution_ex : exists T3, a_dims T3 = [1; 1; 3; 1] /\
  makes_saying (conv_status E0) (aitisa_conv (HPtr 0) (HPtr 5) [1; 1] [1; 0] [1; 1] 1 HNull) E0 (fx [T_cv; T_k22]) T3.
Proof.
  destruct (C55_convolution 0 5 T_cv T_k22 1 1 1 1 [2; 2] [2; 2] [1; 1] [1; 0] [1; 1] 1 HNull E0 (fx [T_cv; T_k22]))
    as (T3 & _ & _ & Hd & _ & _ & Hm);
    [apply fx_wf|done|done|exact (fx_holds [T_cv; T_k22] 0 T_cv eq_refl T_cv_valid)
    |exact (fx_holds [T_cv; T_k22] 1 T_k22 eq_refl T_k22_valid)|done|done|reflexivity|reflexivity|lia|lia|cbn; lia|
    |change (fits (tsz F32) [1; 1; 3; 1]); lit_fits|lit_init|lit_init|exists T3; split; [exact Hd|exact Hm]].
  cbn. unfold win_ok1. lims. lia.
Qed.
(** Outside [dot_safe] an intermediate sum may overflow although the sum of products is 0. *)
Definition big : val := VF (flt_of_Z F32 (2 ^ 100)).
Definition nbig : val := VF (flt_of_Z F32 (- 2 ^ 100)).
Example C55_overflow_ex :
  inner F32 2 (fun _ => big) (fun q => if q =? 0 then big else nbig) = Some (VF S754_nan) /\
  dot_real (terms 2 (fun _ => big) (fun q => if q =? 0 then big else nbig)) = 0%R.
Proof.
  split; [vm_compute; reflexivity|].
  change (terms 2 (fun _ => big) (fun q => if q =? 0 then big else nbig)) with [(big, big); (big, nbig)].
  unfold dot_real. cbn [foldr fst snd].
  assert (val_real nbig = - val_real big)%R as ->; [|ring].
  change nbig with (VF (SFopp (flt_of_Z F32 (2 ^ 100)))). unfold big, val_real. generalize (flt_of_Z F32 (2 ^ 100)) as x.
  intros [?|?| |sg m e]; cbn; try lra. unfold Defs.F2R, cond_Zopp. cbn. destruct sg; cbn [negb]; rewrite ?opp_IZR; lra.
Qed.
