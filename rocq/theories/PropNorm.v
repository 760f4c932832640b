(** * PropNorm: properties of batch normalisation (C46) *)
From stdpp Require Import gmap list.
From Coq Require Import ZArith Lia Reals Floats.SpecFloat.
From Verif Require Import Base Mem Spec SpecReal SpecNN SpecNorm ModelCore ModelBasic ModelMath ModelNN Logic
  ProofCore ProofCore2 ProofNorm6 RefuteConv RefuteNorm Fixture.
Open Scope Z_scope.

(** Every element type: whenever the denominators and the elements of [T3] are what
    the formula gives, the call makes [T3]. *)
Theorem C46_batch_norm : forall E s p pS pB pM pV T Sc Bi Me Va axis eps o,
  wf s -> alloc_all E -> hooks_ok E ->
  holds (heap s) p T -> holds (heap s) pS Sc -> holds (heap s) pB Bi -> holds (heap s) pM Me -> holds (heap s) pV Va ->
  forall ds T3, bn_ok T axis Sc Bi Me Va eps -> bn_sizes T axis -> init Va ->
  Forall (fun U => dev_type (a_dev U) = 0) [T; Sc; Bi; Me; Va] ->
  (forall k, 0 <= k < nth (Z.to_nat axis) (a_dims T) 0 -> bn_den (a_type T) eps (at_ Va [k]) (ds k)) ->
  valid T3 -> a_type T3 = a_type T -> a_dev T3 = a_dev T -> a_dims T3 = a_dims T ->
  (forall c, in_box (a_dims T) c -> let k := chan axis c in
     bn_out (a_type T) (ds k) (at_ Sc [k]) (at_ Bi [k]) (at_ Me [k]) (at_ T c) = Some (at_ T3 c)) ->
  makes (aitisa_batch_norm (HPtr p) axis (HPtr pS) (HPtr pB) (HPtr pM) (HPtr pV) eps o) E s T3.
Proof. exact @bn_rule. Qed.
Print Assumptions C46_batch_norm.
(** The formula in terms of real numbers *)
Theorem C46_meaning : forall t eps va sc bi me x d w,
  valid_binary (fprec F64) (femax F64) eps = true ->
  val_ok t va -> val_ok t sc -> val_ok t bi -> val_ok t me -> val_ok t x ->
  bn_den t eps va d -> bn_out t d sc bi me x = Some w -> bn_is t eps va sc bi me x w.
Proof. exact bn_meaning. Qed.
Print Assumptions C46_meaning.
(** Float tensors with non-negative variances: always defined *)
Theorem C46_floats : forall p pS pB pM pV T Sc Bi Me Va axis eps o E s,
  wf s -> alloc_all E -> hooks_ok E ->
  holds (heap s) p T -> holds (heap s) pS Sc -> holds (heap s) pB Bi -> holds (heap s) pM Me -> holds (heap s) pV Va ->
  is_float (a_type T) = true -> bn_ok T axis Sc Bi Me Va eps -> bn_sizes T axis ->
  valid_binary (fprec F64) (femax F64) eps = true ->
  Forall (fun U => dev_type (a_dev U) = 0 /\ init U) [T; Sc; Bi; Me; Va] ->
  Forall (fun v => ~ negative v) (a_vals Va) ->
  exists T3, a_type T3 = a_type T /\ a_dev T3 = a_dev T /\ a_dims T3 = a_dims T /\ valid T3 /\
    (forall c, in_box (a_dims T) c -> let k := chan axis c in
       bn_is (a_type T) eps (at_ Va [k]) (at_ Sc [k]) (at_ Bi [k]) (at_ Me [k]) (at_ T c) (at_ T3 c)) /\
    makes (aitisa_batch_norm (HPtr p) axis (HPtr pS) (HPtr pB) (HPtr pM) (HPtr pV) eps o) E s T3.
Proof. exact bn_float. Qed.
Print Assumptions C46_floats.
(** Arguments that fail a check: nothing is allocated or written. *)
Theorem C46_rejects : forall E s p pS pB pM pV T Sc Bi Me Va axis eps o,
  holds (heap s) p T -> holds (heap s) pS Sc -> holds (heap s) pB Bi -> holds (heap s) pM Me -> holds (heap s) pV Va ->
  bn_verdict T axis Sc Bi Me Va eps <> SUCCESS ->
  refuses (aitisa_batch_norm (HPtr p) axis (HPtr pS) (HPtr pB) (HPtr pM) (HPtr pV) eps o) E s o
    (bn_verdict T axis Sc Bi Me Va eps).
Proof. exact @bn_rejects. Qed.
Print Assumptions C46_rejects.
Theorem C46_accepts : forall T axis Sc Bi Me Va eps,
  bn_verdict T axis Sc Bi Me Va eps = SUCCESS <-> bn_ok T axis Sc Bi Me Va eps.
Proof. exact bn_verdict_ok. Qed.
Print Assumptions C46_accepts.
(** But a negative variance is noticed late: the output handle has been replaced by
    an unwritten tensor and memory is lost. *)
Theorem C46_negative_variance_refuted : exists E s T Sc Bi Me Va,
  alloc_all E /\ hooks_ok E /\ bn_given s T Sc Bi Me Va /\ bn_ok T 1 Sc Bi Me Va fzero /\ bn_sizes T 1 /\
  exists r s', aitisa_batch_norm (HPtr 0) 1 (HPtr 5) (HPtr 10) (HPtr 15) (HPtr 20) fzero HNull E s = Done r s' /\
    peek E s' r = Some (MATH_ERROR, [1; 2], [VU; VU]) /\ size (heap s') = (size (heap s) + 20)%nat.
Proof. exact bn_negative. Qed.
Print Assumptions C46_negative_variance_refuted.
Theorem C46_integers_refuted : exists E s s2 T Sc Bi Me Va Va2,
  alloc_all E /\ hooks_ok E /\ bn_given s T Sc Bi Me Va /\ bn_given s2 T Sc Bi Me Va2 /\
  bn_ok T 1 Sc Bi Me Va fzero /\ bn_ok T 1 Sc Bi Me Va2 S754_nan /\ Forall (fun v => ~ negative v) (a_vals Va) /\
  (exists u, aitisa_batch_norm (HPtr 0) 1 (HPtr 5) (HPtr 10) (HPtr 15) (HPtr 20) fzero HNull E s = UB u) /\
  aitisa_batch_norm (HPtr 0) 1 (HPtr 5) (HPtr 10) (HPtr 15) (HPtr 20) S754_nan HNull E s2 = UB UB_fconv.
Proof. exact bn_integers_undefined. Qed.
Print Assumptions C46_integers_refuted.
Theorem C46_empty_refuted : exists E s T Sc Bi Me Va,
  alloc_all E /\ hooks_ok E /\ bn_given s T Sc Bi Me Va /\ bn_ok T 1 Sc Bi Me Va fzero /\ a_dims T = [1; 2; 0] /\
  exists r s', aitisa_batch_norm (HPtr 0) 1 (HPtr 5) (HPtr 10) (HPtr 15) (HPtr 20) fzero HNull E s = Done r s' /\
    peek E s' r = Some (INVALID_ARGUMENT, [1; 2; 0], []) /\ size (heap s') = (size (heap s) + 11)%nat.
Proof. exact bn_empty. Qed.
Print Assumptions C46_empty_refuted.

(** Two axes; three axes with the channels last; a rejected call. *)
Example C46_ex :
  bn_given (fx [T_bn; T_sc; T_bi; T_me; T_va]) T_bn T_sc T_bi T_me T_va /\
  bn_ok T_bn 1 T_sc T_bi T_me T_va fzero /\ bn_sizes T_bn 1 /\ Forall (fun v => ~ negative v) (a_vals T_va) /\
  exists r s', aitisa_batch_norm (HPtr 0) 1 (HPtr 5) (HPtr 10) (HPtr 15) (HPtr 20) fzero HNull E0
      (fx [T_bn; T_sc; T_bi; T_me; T_va]) = Done r s' /\
    peek E0 s' r = Some (SUCCESS, [1; 2], fl [21; 202]).
Proof.
  split_and!; [exact bn_fx|bok 2| | |].
  - split_and!; [by repeat constructor|by repeat constructor|cbn; lia].
  - repeat constructor; unfold negative; (intros [H|H]; [|discriminate H]); revert H; apply Rle_not_lt;
      apply Float_prop.F2R_ge_0; done.
  - apply run_ex. vm_compute. reflexivity.
Qed.
Example C46_ex3 :
  bn_given (fx [T_bn3; T_sc; T_bi; T_me; T_va]) T_bn3 T_sc T_bi T_me T_va /\
  bn_ok T_bn3 2 T_sc T_bi T_me T_va fzero /\ bn_sizes T_bn3 2 /\
  bn_verdict T_bn3 0 T_sc T_bi T_me T_va fzero = INVALID_ARGUMENT /\
  exists r s', aitisa_batch_norm (HPtr 0) 2 (HPtr 5) (HPtr 10) (HPtr 15) (HPtr 20) fzero HNull E0
      (fx [T_bn3; T_sc; T_bi; T_me; T_va]) = Done r s' /\
    peek E0 s' r = Some (SUCCESS, [1; 2; 2], fl [21; 202; 41; 302]).
Proof.
  split_and!; [exact bn3_fx|bok 2| |done|].
  - split_and!; [by repeat constructor|by repeat constructor|].
    intros _. vm_compute. split_and!; discriminate.
  - apply run_ex. vm_compute. reflexivity.
Qed.
