(** * PropConv3: filters that are larger than the padded input (C44, C45) *)
From stdpp Require Import gmap list.
From Coq Require Import ZArith Lia Floats.SpecFloat.
From Verif Require Import Base Mem Spec SpecNN SpecConv SpecCreate ModelCore ModelNN Logic ProofCore ProofCore2
  ProofConvWin ProofConv2 ProofConv4 ProofConv6 ProofConv7 ProofConv8 RefuteConv Fixture.
Open Scope Z_scope.

(** [cv_ok] extends [win_ok] by the windows that exceed the padded input by less than a step,
    for which the truncating division of C finds one position. *)
Theorem C44_windows : forall ds ks ss ps ls,
  (win_ok ds ks ss ps ls -> cv_ok ds ks ss ps ls /\ cv_outs ds ks ss ps ls = win_outs ds ks ss ps ls) /\
  (forall d k s p l, cv_ok1 d k s p l -> d + 2 * p < l * (k - 1) + 1 -> cv_out d k s p l = 1).
Proof. exact windows. Qed.
Print Assumptions C44_windows.

(** Every outcome, also of filters that do not fit: [C44_exact] for [cv_ok]. *)
Theorem C44_exact_any : forall p pf T F nb nc oc fc sd ks ss ps ls g o E s,
  wf s -> alloc_all E -> hooks_ok E -> holds (heap s) p T -> holds (heap s) pf F ->
  a_type T = F32 -> a_type F = F32 ->
  a_dims T = nb :: nc :: sd -> a_dims F = oc :: fc :: ks -> nc <= fc -> 0 < nc ->
  (length sd <= 3)%nat -> cv_ok sd ks ss ps ls ->
  fits (tsz F32) (nb :: oc :: cv_outs sd ks ss ps ls) ->
  ((forall b c x, in_box (nb :: oc :: cv_outs sd ks ss ps ls) (b :: c :: x) ->
      mac_all F32 (zero_val F32) (conv_terms T F ss ps ls nc b c x) <> None) ->
   exists T3, a_type T3 = F32 /\ a_dev T3 = a_dev T /\ a_dims T3 = nb :: oc :: cv_outs sd ks ss ps ls /\ valid T3 /\
     (forall b c x, in_box (a_dims T3) (b :: c :: x) ->
        mac_all F32 (zero_val F32) (conv_terms T F ss ps ls nc b c x) = Some (at_ T3 (b :: c :: x))) /\
     makes_saying (conv_status E) (aitisa_conv (HPtr p) (HPtr pf) ss ps ls g o) E s T3) /\
  ((exists b c x, in_box (nb :: oc :: cv_outs sd ks ss ps ls) (b :: c :: x) /\
      mac_all F32 (zero_val F32) (conv_terms T F ss ps ls nc b c x) = None) ->
   aitisa_conv (HPtr p) (HPtr pf) ss ps ls g o E s = UB UB_uninit).
Proof. exact conv_exact. Qed.
Print Assumptions C44_exact_any.

(** A filter that exceeds the padded input by less than a step is never refused: for every
    initialised input and filter there is a result, with one position along that axis. *)
Theorem C45_large_filter_always_refuted : forall p pf T F nb nc oc fc sd ks ss ps ls g o E s i d k st pd l,
  wf s -> alloc_all E -> hooks_ok E -> holds (heap s) p T -> holds (heap s) pf F ->
  a_type T = F32 -> a_type F = F32 ->
  a_dims T = nb :: nc :: sd -> a_dims F = oc :: fc :: ks -> nc <= fc -> 0 < nc ->
  (length sd <= 3)%nat -> cv_ok sd ks ss ps ls ->
  fits (tsz F32) (nb :: oc :: cv_outs sd ks ss ps ls) -> init T -> init F ->
  sd !! i = Some d -> ks !! i = Some k -> ss !! i = Some st -> ps !! i = Some pd -> ls !! i = Some l ->
  d + 2 * pd < l * (k - 1) + 1 ->
  exists T3, init T3 /\ a_dims T3 !! S (S i) = Some 1 /\
    (forall b c x, in_box (a_dims T3) (b :: c :: x) ->
       mac_all F32 (zero_val F32) (conv_terms T F ss ps ls nc b c x) = Some (at_ T3 (b :: c :: x))) /\
    makes_saying (conv_status E) (aitisa_conv (HPtr p) (HPtr pf) ss ps ls g o) E s T3.
Proof. exact conv_large. Qed.
Print Assumptions C45_large_filter_always_refuted.

(** One that exceeds it by a step or more: an empty tensor when no extent is negative and one
    is 0, whatever the filter; STATUS_ALLOC_FAILED and eight arrays that are never released
    when the number of elements is negative. *)
Theorem C45_no_position_always_refuted : forall p pf T F nb nc oc fc sd ks ss ps ls g o E s,
  wf s -> alloc_all E -> hooks_ok E -> holds (heap s) p T -> holds (heap s) pf F ->
  a_type T = F32 -> a_dims T = nb :: nc :: sd -> a_dims F = oc :: fc :: ks ->
  (length sd <= 3)%nat -> sane sd ks ss ps ls ->
  fits (tsz F32) (nb :: oc :: cv_outs sd ks ss ps ls) -> 0 ∈ cv_outs sd ks ss ps ls ->
  makes_saying (conv_status E) (aitisa_conv (HPtr p) (HPtr pf) ss ps ls g o) E s
    (AT F32 (a_dev T) (nb :: oc :: cv_outs sd ks ss ps ls) []).
Proof. exact conv_none. Qed.
Print Assumptions C45_no_position_always_refuted.
Theorem C45_negative_always_refuted : forall p pf T F nb nc oc fc sd ks ss ps ls g o E s,
  wf s -> alloc_all E -> holds (heap s) p T -> holds (heap s) pf F ->
  a_type T = F32 -> a_dims T = nb :: nc :: sd -> a_dims F = oc :: fc :: ks ->
  (length sd <= 3)%nat -> sane sd ks ss ps ls ->
  countable 4 (nb :: oc :: cv_outs sd ks ss ps ls) -> prodZ (nb :: oc :: cv_outs sd ks ss ps ls) < 0 ->
  exists s', aitisa_conv (HPtr p) (HPtr pf) ss ps ls g o E s = Done (ALLOC_FAILED, o) s' /\ keeps s s' /\
    exists L, length L = 8%nat /\ NoDup L /\ Forall (fun c => heap s !! c = None /\ is_Some (heap s' !! c)) L.
Proof. exact conv_refused. Qed.
Print Assumptions C45_negative_always_refuted.

(** When several extents are negative, so that the number of elements is positive again, the
    program aborts at the first element. *)
Theorem C45_two_negative_always_refuted : forall p pf T F nb nc oc fc sd ks ss ps ls g o E s,
  wf s -> alloc_all E -> holds (heap s) p T -> holds (heap s) pf F ->
  a_type T = F32 -> a_type F = F32 -> a_dims T = nb :: nc :: sd -> a_dims F = oc :: fc :: ks ->
  nc <= fc -> 0 < nc -> 0 < nb -> 0 < oc ->
  (length sd <= 3)%nat -> sane sd ks ss ps ls -> Forall (fun d => 0 < d) sd -> init T -> init F ->
  4 * prodZ (Z.max 1 <$> (Z.abs <$> (nb :: oc :: cv_outs sd ks ss ps ls))) <= INT64_MAX ->
  0 < prodZ (cv_outs sd ks ss ps ls) -> (exists d, d ∈ cv_outs sd ks ss ps ls /\ d < 0) ->
  aitisa_conv (HPtr p) (HPtr pf) ss ps ls g o E s = Abort.
Proof. exact conv_two_negative. Qed.
Print Assumptions C45_two_negative_always_refuted.

(** The input 1 2 / 3 4: a filter of 3x3 in steps of 2 has one position; a column of 3 in steps
    of 1 has none; a column of 4 has -1; a filter of 4x4 has -1 times -1. *)
Definition T_k31 : atensor := AT F32 cpu [1; 1; 3; 1] (fl [1; 10; 100]).
Definition T_k41 : atensor := AT F32 cpu [1; 1; 4; 1] (fl [1; 10; 100; 1000]).
Lemma T_k31_valid : valid T_k31. Proof. lit_valid. Qed.
Lemma T_k41_valid : valid T_k41. Proof. lit_valid. Qed.
Definition T_k44x : atensor := AT F32 cpu [1; 1; 4; 4] (fl (replicate 16 1)).
Lemma T_k44x_valid : valid T_k44x. Proof. lit_valid. Qed.
Example C45_large_ex :
  cv_ok [2; 2] [3; 3] [2; 2] [0; 0] [1; 1] /\ cv_outs [2; 2] [3; 3] [2; 2] [0; 0] [1; 1] = [1; 1] /\
  ~ win_ok [2; 2] [3; 3] [2; 2] [0; 0] [1; 1] /\ init T_cv /\ init T_k33 /\
  holds (heap (fx [T_cv; T_k33])) 0 T_cv /\ holds (heap (fx [T_cv; T_k33])) 5 T_k33 /\
  exists r s', aitisa_conv (HPtr 0) (HPtr 5) [2; 2] [0; 0] [1; 1] 1 HNull E0 (fx [T_cv; T_k33]) = Done r s' /\
    peek E0 s' r = Some (conv_status E0, [1; 1; 1; 1], fl [37]).
Proof.
  split_and!; [|done| |lit_init|lit_init|exact (fx_holds [T_cv; T_k33] 0 T_cv eq_refl T_cv_valid)
    |exact (fx_holds [T_cv; T_k33] 1 T_k33 eq_refl T_k33_valid)|].
  - cbn. unfold cv_ok1, sane1. lims. lia.
  - cbn. unfold win_ok1. lia.
  - apply run_ex. vm_compute. reflexivity.
Qed.
Example C45_no_position_ex :
  sane [2; 2] [3; 1] [1; 1] [0; 0] [1; 1] /\ cv_outs [2; 2] [3; 1] [1; 1] [0; 0] [1; 1] = [0; 2] /\
  fits (tsz F32) [1; 1; 0; 2] /\
  holds (heap (fx [T_cv; T_k31])) 0 T_cv /\ holds (heap (fx [T_cv; T_k31])) 5 T_k31 /\
  exists r s', aitisa_conv (HPtr 0) (HPtr 5) [1; 1] [0; 0] [1; 1] 1 HNull E0 (fx [T_cv; T_k31]) = Done r s' /\
    peek E0 s' r = Some (conv_status E0, [1; 1; 0; 2], []).
Proof.
  split_and!; [|done|lit_fits|exact (fx_holds [T_cv; T_k31] 0 T_cv eq_refl T_cv_valid)
    |exact (fx_holds [T_cv; T_k31] 1 T_k31 eq_refl T_k31_valid)|].
  - cbn. unfold sane1. lims. lia.
  - apply run_ex. vm_compute. reflexivity.
Qed.
Example C45_negative_ex :
  sane [2; 2] [4; 1] [1; 1] [0; 0] [1; 1] /\ cv_outs [2; 2] [4; 1] [1; 1] [0; 0] [1; 1] = [-1; 2] /\
  countable 4 [1; 1; -1; 2] /\ prodZ [1; 1; -1; 2] < 0 /\
  holds (heap (fx [T_cv; T_k41])) 0 T_cv /\ holds (heap (fx [T_cv; T_k41])) 5 T_k41 /\
  exists s', aitisa_conv (HPtr 0) (HPtr 5) [1; 1] [0; 0] [1; 1] 1 HNull E0 (fx [T_cv; T_k41]) = Done (ALLOC_FAILED, HNull) s'.
Proof.
  split_and!; [|done|split|done|exact (fx_holds [T_cv; T_k41] 0 T_cv eq_refl T_cv_valid)
    |exact (fx_holds [T_cv; T_k41] 1 T_k41 eq_refl T_k41_valid)|].
  - cbn. unfold sane1. lims. lia.
  - intros k. do 5 (destruct k as [|k]; [vm_compute; split; discriminate|]). rewrite take_ge by (cbn; lia). vm_compute; split; discriminate.
  - vm_compute; split; discriminate.
  - eexists. vm_compute. reflexivity.
Qed.
Example C45_two_negative_ex :
  sane [2; 2] [4; 4] [1; 1] [0; 0] [1; 1] /\ cv_outs [2; 2] [4; 4] [1; 1] [0; 0] [1; 1] = [-1; -1] /\
  init T_cv /\ init T_k44x /\
  4 * prodZ (Z.max 1 <$> (Z.abs <$> [1; 1; -1; -1])) <= INT64_MAX /\ 0 < prodZ [-1; -1] /\
  holds (heap (fx [T_cv; T_k44x])) 0 T_cv /\ holds (heap (fx [T_cv; T_k44x])) 5 T_k44x /\
  aitisa_conv (HPtr 0) (HPtr 5) [1; 1] [0; 0] [1; 1] 1 HNull E0 (fx [T_cv; T_k44x]) = Abort.
Proof.
  split_and!; [|done|lit_init|lit_init|vm_compute; discriminate|done|exact (fx_holds [T_cv; T_k44x] 0 T_cv eq_refl T_cv_valid)
    |exact (fx_holds [T_cv; T_k44x] 1 T_k44x eq_refl T_k44x_valid)|].
  - cbn. unfold sane1. lims. lia.
  - vm_compute. reflexivity.
Qed.
