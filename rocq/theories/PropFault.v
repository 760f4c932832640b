(** * PropFault: C49, allocators that refuse requests *)
From stdpp Require Import gmap list.
From Coq Require Import ZArith Lia.
From Verif Require Import Base Mem Spec SpecNN SpecHeap SpecFault ModelCore ModelBasic ModelMath ModelNN Fixture.
From Verif Require Import Logic ProofCore ProofDropout ProofFault2 RefuteFault RefuteConv RefutePool RefuteNorm PropHeap PropNN.
Open Scope Z_scope.

(** Creation, full, cast, reshape, squeeze, sqrt, products of vectors and matrices,
    dot on two vectors or two matrices, relu, sigmoid, tanh and softmax, with arbitrary
    arguments, in an arbitrary state: whichever requests are refused, either
    none of them was made and the call ran as if memory were plentiful, or it returned
    STATUS_ALLOC_FAILED and everything that was in memory is unchanged.  *output is
    unchanged too, except by softmax.  (The other operations: the refutations below.) *)
Theorem C49_reported_partial : forall x o E ok s, wf s -> careful x E s ->
  reports (run_op x o) E ok s (kept_output x o).
Proof. exact careful_reports. Qed.
Print Assumptions C49_reported_partial.

(** ** Operations that use the result of a refused request *)
(** The convolution of any float tensor, first request. *)
Theorem C49_conv_refuted : forall p pf T F ss ps ls g o E ok s,
  wf s -> holds (heap s) p T -> holds (heap s) pf F -> a_type T = F32 -> refuses_nth ok s 0 ->
  aitisa_conv (HPtr p) (HPtr pf) ss ps ls g o (schedule E ok) s = UB UB_null.
Proof. exact conv_refused. Qed.
Print Assumptions C49_conv_refuted.
(** Any valid pooling, first request. *)
Theorem C49_pooling_refuted : forall m p T nb nc sd ks ss ps ls o E ok s,
  wf s -> holds (heap s) p T -> a_dims T = nb :: nc :: sd -> (1 <= length sd <= 3)%nat -> win_ok sd ks ss ps ls ->
  refuses_nth ok s 0 -> aitisa_pooling (HPtr p) m ks ss ps ls o (schedule E ok) s = UB UB_null.
Proof. exact pooling_refused. Qed.
Print Assumptions C49_pooling_refuted.
(** Any batched product, first request. *)
Theorem C49_matmul_tv_refuted : forall p1 p2 T1 T2 batch m k o E ok s,
  wf s -> holds (heap s) p1 T1 -> holds (heap s) p2 T2 ->
  dev_type (a_dev T1) = 0 -> dev_type (a_dev T2) = 0 -> batch <> [] ->
  a_dims T1 = batch ++ [m; k] -> a_dims T2 = [k] -> refuses_nth ok s 0 ->
  aitisa_matmul (HPtr p1) (HPtr p2) o (schedule E ok) s = UB UB_null.
Proof. exact matmul_tv_refused. Qed.
Print Assumptions C49_matmul_tv_refuted.
Theorem C49_matmul_vt_refuted : forall p1 p2 T1 T2 batch k n o E ok s,
  wf s -> holds (heap s) p1 T1 -> holds (heap s) p2 T2 ->
  dev_type (a_dev T1) = 0 -> dev_type (a_dev T2) = 0 -> batch <> [] ->
  a_dims T1 = [k] -> a_dims T2 = batch ++ [k; n] -> refuses_nth ok s 0 ->
  aitisa_matmul (HPtr p1) (HPtr p2) o (schedule E ok) s = UB UB_null.
Proof. exact matmul_vt_refused. Qed.
Print Assumptions C49_matmul_vt_refuted.
Theorem C49_matmul_tt_refuted : forall p1 p2 T1 T2 b1 b2 m k n o E ok s,
  wf s -> holds (heap s) p1 T1 -> holds (heap s) p2 T2 ->
  dev_type (a_dev T1) = 0 -> dev_type (a_dev T2) = 0 ->
  a_dims T1 = b1 ++ [m; k] -> a_dims T2 = b2 ++ [k; n] -> bcast b1 b2 <> None -> (b1 <> [] \/ b2 <> []) ->
  refuses_nth ok s 0 -> aitisa_matmul (HPtr p1) (HPtr p2) o (schedule E ok) s = UB UB_oob.
Proof. exact matmul_tt_refused. Qed.
Print Assumptions C49_matmul_tt_refuted.
(** Any valid slice with an axis left, second request. *)
Theorem C49_slice_refuted : forall p T bs ss ts o E ok s,
  wf s -> holds (heap s) p T -> slice_ok (a_dims T) bs ss ts -> slice_dims ss ts <> [] ->
  refuses_nth ok s 1 -> aitisa_slice (HPtr p) bs ss ts o (schedule E ok) s = UB UB_oob.
Proof. exact slice_refused_at. Qed.
Print Assumptions C49_slice_refuted.
(** Any valid duplication or dropout, fifth request. *)
Theorem C49_duplicate_refuted : forall p T o E ok s,
  wf s -> holds (heap s) p T -> a_dims T <> [] -> Forall (fun d => 0 < d <= INT_MAX) (a_dims T) ->
  refuses_nth ok s 4 -> aitisa_duplicate (HPtr p) o (schedule E ok) s = UB UB_oob.
Proof. exact duplicate_refused. Qed.
Print Assumptions C49_duplicate_refuted.
Theorem C49_dropout_refuted : forall p T rate o E ok s,
  wf s -> holds (heap s) p T -> a_dims T <> [] -> Forall (fun d => 0 < d <= INT_MAX) (a_dims T) ->
  rate_ok rate -> refuses_nth ok s 4 -> aitisa_dropout (HPtr p) rate o (schedule E ok) s = UB UB_oob.
Proof. exact dropout_refused. Qed.
Print Assumptions C49_dropout_refuted.
(** Any addition, subtraction, multiplication or division of non-empty tensors: the first
    request after those of the creation (3 for rank 0, 5 otherwise). *)
Theorem C49_arithmetic_refuted : forall op p1 p2 T1 T2 o E ok s,
  wf s -> holds (heap s) p1 T1 -> holds (heap s) p2 T2 ->
  a_type T2 = a_type T1 -> a_dims T2 = a_dims T1 ->
  dev_type (a_dev T1) = 0 -> dev_type (a_dev T2) = 0 -> 0 < prodZ (a_dims T1) ->
  refuses_nth ok s (match a_dims T1 with [] => 3 | _ => 5 end) ->
  aitisa_binary_op op (HPtr p1) (HPtr p2) o (schedule E ok) s = UB UB_null.
Proof. exact binary_refused. Qed.
Print Assumptions C49_arithmetic_refuted.
(** Softmax reports the refusal but leaves an indeterminate *output. *)
Theorem C49_softmax_output_refuted : forall p T axis o E ok s,
  holds (heap s) p T -> -1 <= axis < Z.of_nat (length (a_dims T)) -> refuses_nth ok s 0 ->
  exists s', aitisa_softmax (HPtr p) axis o (schedule E ok) s = Done (ALLOC_FAILED, HUndef) s'.
Proof. exact softmax_clobbers. Qed.
Print Assumptions C49_softmax_output_refuted.

(** ** Examples *)
(** All requests granted but number [k] of the call. *)
Definition but (s : st) (k j : nat) : bool := negb (j =? ctr s + k)%nat.
Lemma but_refuses s k : refuses_nth (but s k) s k.
Proof.
  split.
  - intros j Hj. unfold but. destruct (Nat.eqb_spec j (ctr s + k)); [lia|done].
  - unfold but. by rewrite Nat.eqb_refl.
Qed.
(** R: STATUS_ALLOC_FAILED, *output unchanged; C: *output overwritten; U: undefined
    behaviour; S: success *)
Inductive outcome := R | C | U | S | Other.
Definition outcome_of (c : list atensor * oper) (k : nat) : outcome :=
  match run_op c.2 HNull (schedule Eok (but (fx c.1) k)) (fx c.1) with
  | Done (ALLOC_FAILED, HNull) _ => R | Done (ALLOC_FAILED, _) _ => C | Done (SUCCESS, _) _ => S | UB _ => U | _ => Other end.
Definition requests_of (c : list atensor * oper) : nat :=
  match run_op c.2 HNull (plenty Eok) (fx c.1) with Done _ s' => ctr s' - ctr (fx c.1) | _ => 0 end%nat.
Definition sweep (c : list atensor * oper) : list outcome := outcome_of c <$> seq 0 (requests_of c).
(** Every request of a call of every operation refused in turn. *)
Example C49_sweep : sweep <$> take 22 calls =
  [ [R; R; R; R; R]; [R; R; R; R]; [R; R; R; R; R]; [R; R; R; R; R]; [];
    [R; R; R; R; R]; [R; R; R; R; R; R; R]; [R; U; C; C; C; C; C; C; C; C];
    [R; R; R; R; U; R; R; R; R; R; R; R; R]; [R; R; R; R; R; U; U; U]; [R; R; R; R; R; U; U; U];
    [R; R; R; R; R]; [R; R; R; R; R]; [R; R; R; R; R];
    [R; R; R; R; R]; [R; R; R; R; R]; [R; R; R; R; R]; [C; C; C; C; C; C; C];
    [R; R; R; R; U; R; R; R; R; R; R; R; R]; [U; U; U; U; U; U; R; R; R; R; R];
    [U; U; U; U; U; U; U; U; R; R; R; R; R]; [U; U; U; U; U; U; U; U; R; R; R; R; R] ].
Proof. vm_compute. reflexivity. Qed.
(** Batch normalisation: 76 requests, undefined behaviour for 16 of them. *)
Example C49_sweep_batch_norm :
  let l := sweep ([T_bn; T_sc; T_bi; T_me; T_va], OBatchNorm (HPtr 0) 1 (HPtr 5) (HPtr 10) (HPtr 15) (HPtr 20) fzero) in
  take 19 l = [R; R; R; R; R; C; C; C; C; C; C; C; C; C; C; U; U; U; C] /\
  (length l, length (List.filter (fun x => match x with U => true | _ => false end) l)) = (76, 16)%nat.
Proof. vm_compute. split; reflexivity. Qed.

(** The hypotheses of the theorems can be met. *)
Example C49_ex_careful : wf (fx [T_f32]) /\
  careful (OCast (HPtr 0) (dtype_of F64)) Eok (fx [T_f32]) /\ careful (OSqueeze (HPtr 0) [0] 1) Eok (fx [T_f32]) /\
  careful (OMatmul (HPtr 0) (HPtr 0)) Eok (fx [T_f32]) /\ careful (ODot (HPtr 0) (HPtr 0)) Eok (fx [T_f32]).
Proof.
  split_and!; [apply fx_wf|done|done|..]; intros E n1 n2 s1 s2 H1 H2; vm_compute in H1, H2;
    injection H1 as <- <-; injection H2 as <- <-; lia.
Qed.
(** Both cases of [reports] occur. *)
Example C49_ex_reported :
  reported (run_op (OCast (HPtr 0) (dtype_of F64)) HNull) Eok (but (fx [T_i32]) 2) (fx [T_i32]) (fun h => h = HNull) /\
  undisturbed (run_op (OCast (HPtr 0) (dtype_of F64)) HNull) Eok (but (fx [T_i32]) 7) (fx [T_i32]).
Proof.
  split.
  - destruct (C49_reported_partial (OCast (HPtr 0) (dtype_of F64)) HNull Eok (but (fx [T_i32]) 2) (fx [T_i32])) as [[H1 _]|H];
      [apply fx_wf|done| |exact H]. vm_compute in H1. discriminate.
  - destruct (C49_reported_partial (OCast (HPtr 0) (dtype_of F64)) HNull Eok (but (fx [T_i32]) 7) (fx [T_i32])) as [H|H];
      [apply fx_wf|done|exact H|].
    destruct H as (k & h & s' & H & _). vm_compute in H. discriminate.
Qed.
Example C49_ex_conv :
  aitisa_conv (HPtr 0) (HPtr 5) [1; 1] [0; 0] [1; 1] 1 HNull (schedule E0 (but (fx [T_cv; T_k22]) 0)) (fx [T_cv; T_k22]) = UB UB_null.
Proof.
  apply (C49_conv_refuted _ _ T_cv T_k22); [apply fx_wf|exact (fx_holds [T_cv; T_k22] 0 T_cv eq_refl T_cv_valid)|
    exact (fx_holds [T_cv; T_k22] 1 T_k22 eq_refl T_k22_valid)|done|apply but_refuses].
Qed.
Example C49_ex_pooling :
  aitisa_pooling (HPtr 0) PMax [2; 2] [2; 2] [1; 1] [2; 2] HNull (schedule E0 (but (fx [T_img]) 0)) (fx [T_img]) = UB UB_null.
Proof.
  apply (C49_pooling_refuted _ _ T_img 1 1 [3; 3]); [apply fx_wf|exact (fx_holds [T_img] 0 T_img eq_refl T_img_valid)|done|
    cbn; lia| |apply but_refuses]. cbn. unfold win_ok1. lims. lia.
Qed.
Definition T_b : atensor := AT I32 cpu [1; 2; 3] (VI <$> [1; 2; 3; 4; 5; 6]).
Definition T_b3 : atensor := AT I32 cpu [1; 3; 1] (VI <$> [1; 2; 3]).
Definition T_v2 : atensor := AT I32 cpu [2] (VI <$> [1; 2]).
Definition T_v3 : atensor := AT I32 cpu [3] (VI <$> [1; 2; 3]).
Lemma T_b_valid : valid T_b. Proof. lit_valid. Qed.
Lemma T_b3_valid : valid T_b3. Proof. lit_valid. Qed.
Lemma T_v2_valid : valid T_v2. Proof. lit_valid. Qed.
Lemma T_v3_valid : valid T_v3. Proof. lit_valid. Qed.
Example C49_ex_matmul :
  aitisa_matmul (HPtr 0) (HPtr 5) HNull (schedule E0 (but (fx [T_b; T_v3]) 0)) (fx [T_b; T_v3]) = UB UB_null /\
  aitisa_matmul (HPtr 0) (HPtr 5) HNull (schedule E0 (but (fx [T_v2; T_b]) 0)) (fx [T_v2; T_b]) = UB UB_null /\
  aitisa_matmul (HPtr 0) (HPtr 5) HNull (schedule E0 (but (fx [T_b; T_b3]) 0)) (fx [T_b; T_b3]) = UB UB_oob.
Proof.
  split_and!.
  - apply (C49_matmul_tv_refuted _ _ T_b T_v3 [1] 2 3); try done; [apply fx_wf|exact (fx_holds [T_b; T_v3] 0 T_b eq_refl T_b_valid)|
      exact (fx_holds [T_b; T_v3] 1 T_v3 eq_refl T_v3_valid)|apply but_refuses].
  - apply (C49_matmul_vt_refuted _ _ T_v2 T_b [1] 2 3); try done; [apply fx_wf|exact (fx_holds [T_v2; T_b] 0 T_v2 eq_refl T_v2_valid)|
      exact (fx_holds [T_v2; T_b] 1 T_b eq_refl T_b_valid)|apply but_refuses].
  - apply (C49_matmul_tt_refuted _ _ T_b T_b3 [1] [1] 2 3 1); try done; [apply fx_wf|exact (fx_holds [T_b; T_b3] 0 T_b eq_refl T_b_valid)|
      exact (fx_holds [T_b; T_b3] 1 T_b3 eq_refl T_b3_valid)|by left|apply but_refuses].
Qed.
Example C49_ex_slice :
  aitisa_slice (HPtr 0) [0; 1] [2; 2] [1; 1] HNull (schedule E0 (but (fx [T_i32]) 1)) (fx [T_i32]) = UB UB_oob /\
  aitisa_duplicate (HPtr 0) HNull (schedule E0 (but (fx [T_i32]) 4)) (fx [T_i32]) = UB UB_oob /\
  aitisa_dropout (HPtr 0) half HNull (schedule E0 (but (fx [T_i32]) 4)) (fx [T_i32]) = UB UB_oob /\
  aitisa_add (HPtr 0) (HPtr 0) HNull (schedule E0 (but (fx [T_i32]) 5)) (fx [T_i32]) = UB UB_null /\
  exists s', aitisa_softmax (HPtr 0) (-1) HNull (schedule E0 (but (fx [T_i32]) 0)) (fx [T_i32]) = Done (ALLOC_FAILED, HUndef) s'.
Proof.
  pose proof (fx_holds [T_i32] 0 T_i32 eq_refl T_i32_valid) as H. pose proof (fx_wf [T_i32]) as W.
  split_and!.
  - apply (C49_slice_refuted _ T_i32); [exact W|exact H| |discriminate|apply but_refuses]. cbn. lims. lia.
  - apply (C49_duplicate_refuted _ T_i32); [exact W|exact H|discriminate| |apply but_refuses]. repeat constructor; vm_compute; discriminate.
  - apply (C49_dropout_refuted _ T_i32); [exact W|exact H|discriminate| |apply half_ok|apply but_refuses]. repeat constructor; vm_compute; discriminate.
  - exact (C49_arithmetic_refuted OpAdd 0 0 T_i32 T_i32 HNull E0 _ _ W H H eq_refl eq_refl eq_refl eq_refl eq_refl (but_refuses _ 5)).
  - apply (C49_softmax_output_refuted _ T_i32); [exact H|cbn; lia|apply but_refuses].
Qed.
