(** * PropMore: resolve for every tensor (C08); a vanishing epsilon for every batch normalisation (C67);
    destroying under other hooks than those that allocated (C50) *)
From stdpp Require Import gmap list.
From Coq Require Import ZArith Lia Reals Lra Floats.SpecFloat.
From Flocq Require Import Core IEEE754.BinarySingleNaN.
From Verif Require Import Base Mem Spec SpecReal SpecNorm SpecError ModelCore ModelNN Logic ProofCore ProofCore2
  RefuteNorm ProofAcc3 ProofMore Fixture.
From Verif Require Import SpecHist ProofHist2 PropHist.
Open Scope Z_scope.

(** The status is whatever the environment puts there; the length is right exactly below 4 GiB. *)
Theorem C08_exact : forall E s p T, holds (heap s) p T ->
  let bytes := prodZ (a_dims T) * Z.of_nat (tsz (a_type T)) in
  exists r, aitisa_resolve (HPtr p) E s = Done (e_garbage E 0%nat, r) s /\
    r_len r = bytes mod 2 ^ 32 /\ (r_len r = bytes <-> bytes < 2 ^ 32).
Proof. exact resolve_exact. Qed.
Print Assumptions C08_exact.
Example C08_exact_ex : holds (heap (fx [T_f32])) 0 T_f32.
Proof. exact (fx_holds [T_f32] 0 T_f32 eq_refl T_f32_valid). Qed.

(** Float tensors and an eps below 2^-150: no element of a channel with variance 0 is finite. *)
Theorem C67_small_eps_always_refuted : forall p pS pB pM pV T Sc Bi Me Va axis eps o E s,
  wf s -> alloc_all E -> hooks_ok E ->
  holds (heap s) p T -> holds (heap s) pS Sc -> holds (heap s) pB Bi -> holds (heap s) pM Me -> holds (heap s) pV Va ->
  a_type T = F32 -> bn_ok T axis Sc Bi Me Va eps -> bn_sizes T axis ->
  valid_binary (fprec F64) (femax F64) eps = true -> is_finite_SF eps = true -> (0 < RV eps < bpow radix2 (-150))%R ->
  Forall (fun U => dev_type (a_dev U) = 0 /\ init U) [T; Sc; Bi; Me; Va] ->
  Forall (fun v => ~ negative v) (a_vals Va) ->
  exists T3, a_type T3 = F32 /\ a_dims T3 = a_dims T /\
    (forall c b, in_box (a_dims T) c -> at_ Va [chan axis c] = VF (S754_zero b) -> ~ finite_val (at_ T3 c)) /\
    makes (aitisa_batch_norm (HPtr p) axis (HPtr pS) (HPtr pB) (HPtr pM) (HPtr pV) eps o) E s T3.
Proof. exact bn_vanishes. Qed.
Print Assumptions C67_small_eps_always_refuted.
Example C67_small_eps_ex :
  bn_given (fx [T_bnx; T_sc; T_bi; T_me; T_vz]) T_bnx T_sc T_bi T_me T_vz /\ a_type T_bnx = F32 /\
  bn_ok T_bnx 1 T_sc T_bi T_me T_vz eps200 /\ bn_sizes T_bnx 1 /\ (0 < RV eps200 < bpow radix2 (-150))%R /\
  Forall (fun v => ~ negative v) (a_vals T_vz) /\ at_ T_vz [chan 1 [0; 1]] = VF (S754_zero false).
Proof.
  split_and!; [|done| | | | | |done].
  - given T_bnx T_bnx_valid T_sc T_sc_valid T_bi T_bi_valid T_me T_me_valid T_vz T_vz_valid.
  - bok 2.
  - split_and!; [by repeat constructor|by repeat constructor|cbn; lia].
  - rewrite RV_eps. apply bpow_gt_0.
  - rewrite RV_eps. apply bpow_lt. lia.
  - repeat constructor; intros [H|H]; try done; by apply Rlt_irrefl in H.
Qed.

(** Both conditions on hook changes (C50) are needed for every tensor and buffer of every history:
    under a deallocation hook that does not belong to the allocator in use, none of them can be
    released. *)
Theorem C50_foreign_hook_always_refuted : forall c E, reachable c -> e_dealloc E <> e_alloc (c_env c) ->
  (forall p, p ∈ c_live c -> aitisa_destroy (HPtr p) E (c_mem c) = UB UB_free) /\
  (forall b, b ∈ c_bufs c -> raw_dealloc (HPtr b) E (c_mem c) = UB UB_free).
Proof. exact history_wrong. Qed.
Print Assumptions C50_foreign_hook_always_refuted.
Example C50_foreign_hook_ex : reachable h_mid /\ e_dealloc h_E1 <> e_alloc (c_env h_mid) /\
  c_live h_mid = [10%nat; 5%nat] /\ c_bufs h_mid = [18%nat].
Proof. split_and!; [exact C04_mid_ex|done|done|done]. Qed.
