(** * RefuteNorm: batch normalisation witnesses *)
From stdpp Require Import gmap list.
From Coq Require Import ZArith Lia Floats.SpecFloat.
From Verif Require Import Base Mem Spec SpecReal SpecNN SpecNorm ModelCore ModelBasic ModelMath ModelNN Logic
  ProofCore ProofCore2 Fixture RefuteConv.
Open Scope Z_scope.

Definition ints (l : list Z) : list val := VI <$> l.
(** One sample of two channels; a sample of shape 2x2 with the channel last *)
Definition T_bn : atensor := AT F32 cpu [1; 2] (fl [5; 7]).
Definition T_bn3 : atensor := AT F32 cpu [1; 2; 2] (fl [5; 7; 9; 10]).
Definition T_sc : atensor := AT F32 cpu [2] (fl [10; 100]).
Definition T_bi : atensor := AT F32 cpu [2] (fl [1; 2]).
Definition T_me : atensor := AT F32 cpu [2] (fl [1; 1]).
Definition T_va : atensor := AT F32 cpu [2] (fl [4; 9]).
Definition T_vn : atensor := AT F32 cpu [2] (fl [4; -9]).
Definition T_bni : atensor := AT I32 cpu [1; 2] (ints [5; 7]).
Definition T_one : atensor := AT I32 cpu [2] (ints [1; 1]).
Definition T_v0 : atensor := AT I32 cpu [2] (ints [4; 0]).
Definition T_bn0 : atensor := AT F32 cpu [1; 2; 0] [].
Lemma T_bn_valid : valid T_bn. Proof. lit_valid. Qed.
Lemma T_bn3_valid : valid T_bn3. Proof. lit_valid. Qed.
Lemma T_sc_valid : valid T_sc. Proof. lit_valid. Qed.
Lemma T_bi_valid : valid T_bi. Proof. lit_valid. Qed.
Lemma T_me_valid : valid T_me. Proof. lit_valid. Qed.
Lemma T_va_valid : valid T_va. Proof. lit_valid. Qed.
Lemma T_vn_valid : valid T_vn. Proof. lit_valid. Qed.
Lemma T_bni_valid : valid T_bni. Proof. lit_valid. Qed.
Lemma T_one_valid : valid T_one. Proof. lit_valid. Qed.
Lemma T_v0_valid : valid T_v0. Proof. lit_valid. Qed.
Lemma T_bn0_valid : valid T_bn0. Proof. lit_valid. Qed.

(** A memory with the five tensors of a call *)
Definition bn_given (s : st) (T Sc Bi Me Va : atensor) : Prop :=
  wf s /\ holds (heap s) 0 T /\ holds (heap s) 5 Sc /\ holds (heap s) 10 Bi /\ holds (heap s) 15 Me /\
  holds (heap s) 20 Va /\ Forall (fun U => dev_type (a_dev U) = 0 /\ init U) [T; Sc; Bi; Me; Va].
Ltac given A HA B HB C HC D HD G HG :=
  split_and!; [apply fx_wf|exact (fx_holds [A; B; C; D; G] 0 A eq_refl HA)|exact (fx_holds [A; B; C; D; G] 1 B eq_refl HB)
    |exact (fx_holds [A; B; C; D; G] 2 C eq_refl HC)|exact (fx_holds [A; B; C; D; G] 3 D eq_refl HD)
    |exact (fx_holds [A; B; C; D; G] 4 G eq_refl HG)|lit_init].
Lemma bn_fx : bn_given (fx [T_bn; T_sc; T_bi; T_me; T_va]) T_bn T_sc T_bi T_me T_va.
Proof. given T_bn T_bn_valid T_sc T_sc_valid T_bi T_bi_valid T_me T_me_valid T_va T_va_valid. Qed.
Lemma bn3_fx : bn_given (fx [T_bn3; T_sc; T_bi; T_me; T_va]) T_bn3 T_sc T_bi T_me T_va.
Proof. given T_bn3 T_bn3_valid T_sc T_sc_valid T_bi T_bi_valid T_me T_me_valid T_va T_va_valid. Qed.

Lemma bn_ok_lit T axis Sc Bi Me Va eps ch :
  (2 <= length (a_dims T) <= 5)%nat -> (axis = 1 \/ axis = Z.of_nat (length (a_dims T)) - 1) ->
  a_type Sc = a_type T -> a_type Bi = a_type T -> a_type Me = a_type T -> a_type Va = a_type T ->
  a_dims T !! Z.to_nat axis = Some ch -> a_dims Sc = [ch] -> a_dims Bi = [ch] -> a_dims Me = [ch] -> a_dims Va = [ch] ->
  SFltb eps fzero = false -> bn_ok T axis Sc Bi Me Va eps.
Proof. intros. unfold bn_ok. split_and!; try done; lia || eauto 10. Qed.
Ltac bok c := apply (bn_ok_lit _ _ _ _ _ _ _ c); cbn; try done; lia.

(** A negative variance: MATH_ERROR, but *output has been replaced by a tensor that
    was never written, and four tensors are left over. *)
Lemma bn_negative : exists E s T Sc Bi Me Va,
  alloc_all E /\ hooks_ok E /\ bn_given s T Sc Bi Me Va /\ bn_ok T 1 Sc Bi Me Va fzero /\ bn_sizes T 1 /\
  exists r s', aitisa_batch_norm (HPtr 0) 1 (HPtr 5) (HPtr 10) (HPtr 15) (HPtr 20) fzero HNull E s = Done r s' /\
    peek E s' r = Some (MATH_ERROR, [1; 2], [VU; VU]) /\ size (heap s') = (size (heap s) + 20)%nat.
Proof.
  exists E0, (fx [T_bn; T_sc; T_bi; T_me; T_vn]), T_bn, T_sc, T_bi, T_me, T_vn.
  split_and!; [done|done| | | |].
  - given T_bn T_bn_valid T_sc T_sc_valid T_bi T_bi_valid T_me T_me_valid T_vn T_vn_valid.
  - bok 2.
  - split_and!; [by repeat constructor|by repeat constructor|cbn; lia].
  - apply run_ex. vm_compute. done.
Qed.

(** Integers: a variance and epsilon of zero make the division undefined, and so
    does an epsilon that is NaN, which passes the check. *)
Lemma bn_integers_undefined : exists E s s2 T Sc Bi Me Va Va2,
  alloc_all E /\ hooks_ok E /\ bn_given s T Sc Bi Me Va /\ bn_given s2 T Sc Bi Me Va2 /\
  bn_ok T 1 Sc Bi Me Va fzero /\ bn_ok T 1 Sc Bi Me Va2 S754_nan /\ Forall (fun v => ~ negative v) (a_vals Va) /\
  (exists u, aitisa_batch_norm (HPtr 0) 1 (HPtr 5) (HPtr 10) (HPtr 15) (HPtr 20) fzero HNull E s = UB u) /\
  aitisa_batch_norm (HPtr 0) 1 (HPtr 5) (HPtr 10) (HPtr 15) (HPtr 20) S754_nan HNull E s2 = UB UB_fconv.
Proof.
  exists E0, (fx [T_bni; T_one; T_one; T_one; T_v0]), (fx [T_bni; T_one; T_one; T_one; T_one]),
    T_bni, T_one, T_one, T_one, T_v0, T_one.
  split_and!; [done|done| | | | | | |].
  - given T_bni T_bni_valid T_one T_one_valid T_one T_one_valid T_one T_one_valid T_v0 T_v0_valid.
  - given T_bni T_bni_valid T_one T_one_valid T_one T_one_valid T_one T_one_valid T_one T_one_valid.
  - bok 2.
  - bok 2.
  - repeat constructor; cbn; lia.
  - eexists. vm_compute. reflexivity.
  - vm_compute. reflexivity.
Qed.

(** A spatial extent of zero is refused, but after *output was replaced. *)
Lemma bn_empty : exists E s T Sc Bi Me Va,
  alloc_all E /\ hooks_ok E /\ bn_given s T Sc Bi Me Va /\ bn_ok T 1 Sc Bi Me Va fzero /\ a_dims T = [1; 2; 0] /\
  exists r s', aitisa_batch_norm (HPtr 0) 1 (HPtr 5) (HPtr 10) (HPtr 15) (HPtr 20) fzero HNull E s = Done r s' /\
    peek E s' r = Some (INVALID_ARGUMENT, [1; 2; 0], []) /\ size (heap s') = (size (heap s) + 11)%nat.
Proof.
  exists E0, (fx [T_bn0; T_sc; T_bi; T_me; T_va]), T_bn0, T_sc, T_bi, T_me, T_va.
  split_and!; [done|done| | |done|].
  - given T_bn0 T_bn0_valid T_sc T_sc_valid T_bi T_bi_valid T_me T_me_valid T_va T_va_valid.
  - bok 2.
  - apply run_ex. vm_compute. done.
Qed.
