(** * PropNorm2: every outcome of batch normalisation (C46) *)
From stdpp Require Import gmap list.
From Coq Require Import ZArith Lia Floats.SpecFloat.
From Verif Require Import Base Mem Spec SpecReal SpecNN SpecNorm SpecNorm2 ModelCore ModelBasic ModelMath ModelNN Logic
  ProofCore ProofCore2 ProofNorm11 RefuteConv RefuteNorm Fixture.
Open Scope Z_scope.

(** Arguments that pass the checks, in initialised tensors: an epsilon outside the
    element type is undefined; so is a sum va + epsilon that overflows; a negative
    sum is MATH_ERROR.  With two axes all sums come first, with more the channels are
    taken one after the other.  With all denominators there, the call is undefined if
    one output element is, and otherwise makes exactly the tensor of the formula.
    The last part says that nothing else can happen. *)
Theorem C46_exact : forall E s p pS pB pM pV T Sc Bi Me Va axis eps o,
  wf s -> alloc_all E -> hooks_ok E ->
  holds (heap s) p T -> holds (heap s) pS Sc -> holds (heap s) pB Bi -> holds (heap s) pM Me -> holds (heap s) pV Va ->
  bn_ok T axis Sc Bi Me Va eps -> bn_sizes T axis ->
  Forall (fun U => dev_type (a_dev U) = 0 /\ init U) [T; Sc; Bi; Me; Va] ->
  let t := a_type T in
  let ch := nth (Z.to_nat axis) (a_dims T) 0 in
  let run := aitisa_batch_norm (HPtr p) axis (HPtr pS) (HPtr pB) (HPtr pM) (HPtr pV) eps o in
  (of_double t eps = None -> run E s = UB UB_fconv) /\
  (forall k, 0 <= k < ch -> bn_undef t eps (at_ Va [k]) ->
     (length (a_dims T) = 2%nat \/ forall j, 0 <= j < k -> ~ bn_neg t eps (at_ Va [j])) -> run E s = UB UB_overflow) /\
  (forall k, 0 <= k < ch -> bn_neg t eps (at_ Va [k]) ->
     (forall j, 0 <= j < ch -> length (a_dims T) = 2%nat \/ j < k -> ~ bn_undef t eps (at_ Va [j])) ->
     exists h s', run E s = Done (MATH_ERROR, h) s') /\
  (forall ds, (forall k, 0 <= k < ch -> bn_den t eps (at_ Va [k]) (ds k)) ->
     let f c := let k := chan axis c in bn_out t (ds k) (at_ Sc [k]) (at_ Bi [k]) (at_ Me [k]) (at_ T c) in
     ((exists c, in_box (a_dims T) c /\ f c = None) -> run E s = UB UB_overflow) /\
     ((forall c, in_box (a_dims T) c -> f c <> None) ->
        makes run E s (AT t (a_dev T) (a_dims T) (tab (a_dims T) (fun c => default VU (f c)))))) /\
  (of_double t eps = None \/
   (exists k, 0 <= k < ch /\ (bn_undef t eps (at_ Va [k]) \/ bn_neg t eps (at_ Va [k])) /\
      forall j, 0 <= j < k -> ~ bn_undef t eps (at_ Va [j]) /\ ~ bn_neg t eps (at_ Va [j])) \/
   exists ds, forall k, 0 <= k < ch -> bn_den t eps (at_ Va [k]) (ds k)).
Proof. exact @bn_exact. Qed.
Print Assumptions C46_exact.
(** The call works exactly when all denominators and all elements exist. *)
Theorem C46_success_iff : forall E s p pS pB pM pV T Sc Bi Me Va axis eps o,
  wf s -> alloc_all E -> hooks_ok E ->
  holds (heap s) p T -> holds (heap s) pS Sc -> holds (heap s) pB Bi -> holds (heap s) pM Me -> holds (heap s) pV Va ->
  bn_ok T axis Sc Bi Me Va eps -> bn_sizes T axis ->
  Forall (fun U => dev_type (a_dev U) = 0 /\ init U) [T; Sc; Bi; Me; Va] ->
  (exists T3, makes (aitisa_batch_norm (HPtr p) axis (HPtr pS) (HPtr pB) (HPtr pM) (HPtr pV) eps o) E s T3) <->
  exists ds, (forall k, 0 <= k < nth (Z.to_nat axis) (a_dims T) 0 -> bn_den (a_type T) eps (at_ Va [k]) (ds k)) /\
    forall c, in_box (a_dims T) c -> let k := chan axis c in
      bn_out (a_type T) (ds k) (at_ Sc [k]) (at_ Bi [k]) (at_ Me [k]) (at_ T c) <> None.
Proof. exact @bn_iff. Qed.
Print Assumptions C46_success_iff.

(** The sums -5 + 1 < 0 and 2147483647 + 1, with two and with three axes; a zero
    denominator. *)
Definition one64 : spec_float := S754_finite false 4503599627370496 (-52).
Definition T_vx : atensor := AT I32 cpu [2] (ints [-5; 2147483647]).
Definition T_bni3 : atensor := AT I32 cpu [1; 2; 2] (ints [5; 7; 9; 10]).
Lemma T_vx_valid : valid T_vx. Proof. lit_valid. Qed.
Lemma T_bni3_valid : valid T_bni3. Proof. lit_valid. Qed.
Example C46_exact_ex :
  (bn_given (fx [T_bni; T_one; T_one; T_one; T_vx]) T_bni T_one T_one T_one T_vx /\
   bn_ok T_bni 1 T_one T_one T_one T_vx one64 /\ bn_sizes T_bni 1 /\ bn_undef I32 one64 (at_ T_vx [1]) /\
   aitisa_batch_norm (HPtr 0) 1 (HPtr 5) (HPtr 10) (HPtr 15) (HPtr 20) one64 HNull E0
     (fx [T_bni; T_one; T_one; T_one; T_vx]) = UB UB_overflow) /\
  (bn_given (fx [T_bni3; T_one; T_one; T_one; T_vx]) T_bni3 T_one T_one T_one T_vx /\
   bn_ok T_bni3 1 T_one T_one T_one T_vx one64 /\ bn_sizes T_bni3 1 /\ bn_neg I32 one64 (at_ T_vx [0]) /\
   exists r s', aitisa_batch_norm (HPtr 0) 1 (HPtr 5) (HPtr 10) (HPtr 15) (HPtr 20) one64 HNull E0
     (fx [T_bni3; T_one; T_one; T_one; T_vx]) = Done r s' /\ peek E0 s' r = Some (MATH_ERROR, [1; 2; 2], [VU; VU; VU; VU])) /\
  (bn_given (fx [T_bni; T_one; T_one; T_one; T_v0]) T_bni T_one T_one T_one T_v0 /\
   bn_ok T_bni 1 T_one T_one T_one T_v0 fzero /\ bn_sizes T_bni 1 /\
   bn_den I32 fzero (at_ T_v0 [0]) (VI 2) /\ bn_den I32 fzero (at_ T_v0 [1]) (VI 0) /\
   bn_out I32 (VI 0) (VI 1) (VI 1) (VI 1) (at_ T_bni [0; 1]) = None).
Proof.
  assert (bn_sizes T_bni 1) as S2 by (split_and!; [by repeat constructor|by repeat constructor|cbn; lia]).
  assert (bn_sizes T_bni3 1) as S3.
  { split_and!; [by repeat constructor|by repeat constructor|]. intros _. vm_compute. split_and!; discriminate. }
  split; [|split].
  - split; [given T_bni T_bni_valid T_one T_one_valid T_one T_one_valid T_one T_one_valid T_vx T_vx_valid|].
    split; [bok 2|]. split; [exact S2|]. split; [exists (VI 1); by vm_compute|]. vm_compute. reflexivity.
  - split; [given T_bni3 T_bni3_valid T_one T_one_valid T_one T_one_valid T_one T_one_valid T_vx T_vx_valid|].
    split; [bok 2|]. split; [exact S3|]. split; [|apply run_ex; vm_compute; reflexivity].
    exists (VI 1), (VI (-4)). split; [by vm_compute|]. split; [by vm_compute|]. cbn. lia.
  - split; [given T_bni T_bni_valid T_one T_one_valid T_one T_one_valid T_one T_one_valid T_v0 T_v0_valid|].
    split; [bok 2|]. split; [exact S2|]. split; [|split; [|by vm_compute]].
    + eexists (VI 0), (VI 4), _. split_and!; [by vm_compute|by vm_compute|cbn; lia|by vm_compute|by vm_compute].
    + eexists (VI 0), (VI 0), _. split_and!; [by vm_compute|by vm_compute|cbn; lia|by vm_compute|by vm_compute].
Qed.
