(** * PropFault2: C49, batch normalisation and dot when a request is refused *)
From stdpp Require Import gmap list.
From Coq Require Import ZArith Lia Floats.SpecFloat.
From Verif Require Import Base Mem Spec SpecReal SpecNN SpecNorm SpecHeap SpecFault ModelCore ModelBasic ModelMath ModelNN Fixture.
From Verif Require Import Logic ProofCore RefuteFault RefuteFault2 RefuteNorm PropFault.
Open Scope Z_scope.

(** Any batch normalisation with the check passed and a channel to work on: request number
    15 (from 0), which is the first buffer of aitisa_add for a matrix and [temp], which is not
    tested for NULL, otherwise.  (The next request must be granted.) *)
Theorem C49_batch_norm_refuted : forall p pS pB pM pV T Sc Bi Me Va axis eps e o E ok s,
  wf s -> holds (heap s) p T -> holds (heap s) pS Sc -> holds (heap s) pB Bi -> holds (heap s) pM Me -> holds (heap s) pV Va ->
  bn_ok T axis Sc Bi Me Va eps -> bn_sizes T axis -> dev_type (a_dev T) = 0 -> dev_type (a_dev Va) = 0 ->
  of_double (a_type T) eps = Some e -> refuses_nth ok s 15 -> ok (ctr s + 16)%nat = true ->
  aitisa_batch_norm (HPtr p) axis (HPtr pS) (HPtr pB) (HPtr pM) (HPtr pV) eps o (schedule E ok) s = UB UB_null.
Proof. exact batch_norm_refused. Qed.
Print Assumptions C49_batch_norm_refuted.
(** The product of a scalar and a non-empty tensor, either way round: the first request
    after those of two creations. *)
Theorem C49_dot_scalar_left_refuted : forall p1 p2 T1 T2 o E ok s,
  wf s -> holds (heap s) p1 T1 -> holds (heap s) p2 T2 -> a_type T2 = a_type T1 ->
  dev_type (a_dev T1) = 0 -> dev_type (a_dev T2) = 0 -> forall x v v',
  a_dims T1 = [] -> 0 < prodZ (a_dims T2) -> prodZ (a_dims T2) <= INT_MAX -> a_vals T1 = [v] ->
  to_double (a_type T1) v = Some x -> of_double (a_type T1) x = Some v' ->
  refuses_nth ok s (2 * (match a_dims T2 with [] => 3 | _ => 5 end)) ->
  aitisa_dot (HPtr p1) (HPtr p2) o (schedule E ok) s = UB UB_null.
Proof. exact scalar_left_refused. Qed.
Print Assumptions C49_dot_scalar_left_refuted.
Theorem C49_dot_scalar_right_refuted : forall p1 p2 T1 T2 o E ok s,
  wf s -> holds (heap s) p1 T1 -> holds (heap s) p2 T2 -> a_type T2 = a_type T1 ->
  dev_type (a_dev T1) = 0 -> dev_type (a_dev T2) = 0 -> forall x v v',
  a_dims T2 = [] -> a_dims T1 <> [] -> 0 < prodZ (a_dims T1) -> prodZ (a_dims T1) <= INT_MAX -> a_vals T2 = [v] ->
  to_double (a_type T1) v = Some x -> of_double (a_type T1) x = Some v' ->
  refuses_nth ok s (2 * (match a_dims T1 with [] => 3 | _ => 5 end)) ->
  aitisa_dot (HPtr p1) (HPtr p2) o (schedule E ok) s = UB UB_null.
Proof. exact scalar_right_refused. Qed.
Print Assumptions C49_dot_scalar_right_refuted.
(** The product of any tensor and a vector, request number 10: the second of the first slice. *)
Theorem C49_dot_tv_refuted : forall p1 p2 T1 T2 o E ok s,
  wf s -> holds (heap s) p1 T1 -> holds (heap s) p2 T2 -> a_type T2 = a_type T1 ->
  dev_type (a_dev T1) = 0 -> dev_type (a_dev T2) = 0 -> forall b k, hooks_ok E ->
  Forall (fun d => 0 < d <= INT_MAX) (a_dims T1) -> b <> [] -> a_dims T1 = b ++ [k] -> a_dims T2 = [k] ->
  refuses_nth ok s 10 -> aitisa_dot (HPtr p1) (HPtr p2) o (schedule E ok) s = UB UB_oob.
Proof. exact dot_tv_refused. Qed.
Print Assumptions C49_dot_tv_refuted.
(** The product of any two tensors of rank 3 and above, request number 13. *)
Theorem C49_dot_tt_refuted : forall p1 p2 T1 T2 o E ok s,
  wf s -> holds (heap s) p1 T1 -> holds (heap s) p2 T2 -> a_type T2 = a_type T1 ->
  dev_type (a_dev T1) = 0 -> dev_type (a_dev T2) = 0 -> forall b1 b2 k n, hooks_ok E ->
  Forall (fun d => 0 < d <= INT_MAX) (a_dims T1) -> Forall (fun d => 0 < d <= INT_MAX) (a_dims T2) ->
  (2 <= length b1)%nat -> (1 <= length b2)%nat -> fits (tsz (a_type T1)) (b1 ++ b2 ++ [n]) ->
  a_dims T1 = b1 ++ [k] -> a_dims T2 = b2 ++ [k; n] ->
  refuses_nth ok s 13 -> aitisa_dot (HPtr p1) (HPtr p2) o (schedule E ok) s = UB UB_oob.
Proof. exact dot_tt_refused. Qed.
Print Assumptions C49_dot_tt_refuted.

(** ** Examples *)
Definition T_s7 : atensor := AT I32 cpu [] [VI 7].
Lemma T_s7_valid : valid T_s7. Proof. lit_valid. Qed.
(** Every request of the four calls refused in turn. *)
Example C49_sweep_dot :
  sweep ([T_s7; T_v3], ODot (HPtr 0) (HPtr 5)) = [R; R; R; R; R; R; R; R; R; R; U; U; U] /\
  take 13 (sweep ([T_b; T_v3], ODot (HPtr 0) (HPtr 5))) = [R; R; R; R; R; R; C; C; C; C; U; C; C] /\
  take 15 (sweep ([T_b; T_b3], ODot (HPtr 0) (HPtr 5))) = [R; R; R; R; R; R; C; C; C; C; C; C; C; U; C].
Proof. vm_compute. split_and!; reflexivity. Qed.
Lemma small_pos l : Forall (fun d => 0 < d <= 10) l -> Forall (fun d => 0 < d <= INT_MAX) l.
Proof. intros H. eapply Forall_impl; [exact H|]. intros x. unfold INT_MAX. cbv beta. lia. Qed.
Example C49_ex_dot :
  aitisa_dot (HPtr 0) (HPtr 5) HNull (schedule E0 (but (fx [T_s7; T_v3]) 10)) (fx [T_s7; T_v3]) = UB UB_null /\
  aitisa_dot (HPtr 0) (HPtr 5) HNull (schedule E0 (but (fx [T_v3; T_s7]) 10)) (fx [T_v3; T_s7]) = UB UB_null /\
  aitisa_dot (HPtr 0) (HPtr 5) HNull (schedule E0 (but (fx [T_b; T_v3]) 10)) (fx [T_b; T_v3]) = UB UB_oob /\
  aitisa_dot (HPtr 0) (HPtr 5) HNull (schedule E0 (but (fx [T_b; T_b3]) 13)) (fx [T_b; T_b3]) = UB UB_oob.
Proof.
  split_and!.
  - eapply (C49_dot_scalar_left_refuted 0 5 T_s7 T_v3 HNull E0 _ _ (fx_wf _) (fx_holds [T_s7; T_v3] 0 T_s7 eq_refl T_s7_valid)
      (fx_holds [T_s7; T_v3] 1 T_v3 eq_refl T_v3_valid) eq_refl eq_refl eq_refl) with (v := VI 7);
      [reflexivity|vm_compute; reflexivity|vm_compute; discriminate|reflexivity|vm_compute; reflexivity|vm_compute; reflexivity|apply but_refuses].
  - eapply (C49_dot_scalar_right_refuted 0 5 T_v3 T_s7 HNull E0 _ _ (fx_wf _) (fx_holds [T_v3; T_s7] 0 T_v3 eq_refl T_v3_valid)
      (fx_holds [T_v3; T_s7] 1 T_s7 eq_refl T_s7_valid) eq_refl eq_refl eq_refl) with (v := VI 7);
      [reflexivity|discriminate|vm_compute; reflexivity|vm_compute; discriminate|reflexivity|vm_compute; reflexivity|vm_compute; reflexivity|apply but_refuses].
  - apply (C49_dot_tv_refuted _ _ T_b T_v3) with (b := [1; 2]) (k := 3); try done;
      [apply fx_wf|exact (fx_holds [T_b; T_v3] 0 T_b eq_refl T_b_valid)|exact (fx_holds [T_b; T_v3] 1 T_v3 eq_refl T_v3_valid)| |apply but_refuses].
    apply small_pos. repeat constructor; lia.
  - apply (C49_dot_tt_refuted _ _ T_b T_b3) with (b1 := [1; 2]) (b2 := [1]) (k := 3) (n := 1); try done;
      [apply fx_wf|exact (fx_holds [T_b; T_b3] 0 T_b eq_refl T_b_valid)|exact (fx_holds [T_b; T_b3] 1 T_b3 eq_refl T_b3_valid)|..|apply but_refuses].
    + apply small_pos. repeat constructor; lia.
    + apply small_pos. repeat constructor; lia.
    + lit_fits.
Qed.
(** Two axes; three axes with the channels last. *)
Example C49_ex_batch_norm :
  let s := fx [T_bn; T_sc; T_bi; T_me; T_va] in let s3 := fx [T_bn3; T_sc; T_bi; T_me; T_va] in
  aitisa_batch_norm (HPtr 0) 1 (HPtr 5) (HPtr 10) (HPtr 15) (HPtr 20) fzero HNull (schedule E0 (but s 15)) s = UB UB_null /\
  aitisa_batch_norm (HPtr 0) 2 (HPtr 5) (HPtr 10) (HPtr 15) (HPtr 20) fzero HNull (schedule E0 (but s3 15)) s3 = UB UB_null.
Proof.
  intros s s3. destruct bn_fx as (W & H1 & H2 & H3 & H4 & H5 & _). destruct bn3_fx as (W3 & K1 & K2 & K3 & K4 & K5 & _).
  split.
  - eapply (C49_batch_norm_refuted 0 5 10 15 20 T_bn T_sc T_bi T_me T_va); try done; [bok 2| |apply but_refuses].
    split_and!; [by repeat constructor|by repeat constructor|cbn; lia].
  - eapply (C49_batch_norm_refuted 0 5 10 15 20 T_bn3 T_sc T_bi T_me T_va); try done; [bok 2| |apply but_refuses].
    split_and!; [by repeat constructor|by repeat constructor|]. intros _. vm_compute. split_and!; discriminate.
Qed.
