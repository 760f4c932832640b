(** * PropBasic2: properties of conversions, squeeze, slice and duplicate
    (C16, C18, C20-C25) *)
From stdpp Require Import gmap list.
From Coq Require Import ZArith Lia Floats.SpecFloat.
From Verif Require Import Base Mem Spec SpecReal ModelCore ModelBasic Logic ProofCore ProofCore2
  ProofCore3 ProofKernel ProofBasic ProofSqueeze ProofFloat ProofKernel2 ProofSlice ProofFloat2 ProofCast
  RefuteBasic Fixture.
Open Scope Z_scope.

(** ** C16: the element conversion is the C conversion, described on the reals *)
Theorem C16_conversion : forall t1 t2 v,
  val_ok t1 v -> conv_spec t1 t2 v (cast_val t1 t2 v).
Proof. exact cast_val_spec. Qed.
Print Assumptions C16_conversion.

Example C16_conversion_ex :
  val_ok I32 (VI (-7)) /\ cast_val I32 U8 (VI (-7)) = Some (VI 249) /\
  val_ok F64 (VF (S754_finite true 15 (-2))) = (true = true /\ false = true) /\
  cast_val F64 I8 (VF (S754_finite true 15 (-2))) = Some (VI (-3)) /\
  cast_val I32 F32 (VI 16777217) = Some (VF (flt_of_Z F32 16777216)).
Proof. split_and!; [by vm_compute|reflexivity|reflexivity|reflexivity|reflexivity]. Qed.

(** ** C18: widening casts *)
Theorem C18_widen_and_back : forall p T t2 o o' E s,
  wf s -> alloc_all E -> holds (heap s) p T -> init T -> t2 <> a_type T ->
  contains t2 (a_type T) -> fits (tsz t2) (a_dims T) ->
  exists s1 q ws, aitisa_cast (HPtr p) (dtype_of t2) o E s = Done (SUCCESS, HPtr q) s1 /\
    created E s s1 q (AT t2 (a_dev T) (a_dims T) ws) /\
    makes (aitisa_cast (HPtr q) (dtype_of (a_type T)) o') E s1 T.
Proof. exact cast_roundtrip. Qed.
Print Assumptions C18_widen_and_back.

(** Which pairs these are: in particular every integer type of at most 32 bits
    fits in a double. *)
Theorem C18_pairs :
  (forall t, is_float t = false -> (tsz t <= 4)%nat -> contains F64 t) /\
  contains F64 F32 /\ contains I64 U32 /\ contains F32 I16 /\ contains F32 U16 /\
  ~ contains F64 I64 /\ ~ contains F32 I32 /\ ~ contains U64 I8.
Proof. exact contains_pairs. Qed.
Print Assumptions C18_pairs.

Example C18_ex :
  wf (fx [T_i32]) /\ holds (heap (fx [T_i32])) 0 T_i32 /\ init T_i32 /\ F64 <> a_type T_i32 /\
  contains F64 I32 /\ fits (tsz F64) (a_dims T_i32).
Proof.
  split_and!; [apply fx_wf|exact (fx_holds [T_i32] 0 T_i32 eq_refl T_i32_valid)| |done| |lit_fits].
  - repeat constructor; vm_compute; discriminate.
  - vm_compute. split; discriminate.
Qed.

(** ** C20: squeeze without axes *)
Theorem C20_squeeze_all : forall p T o E s,
  wf s -> hooks_ok E -> holds (heap s) p T -> Forall (fun d => d <> 0) (a_dims T) ->
  makes_or_nomem (aitisa_squeeze (HPtr p) [] 0 o) E s o
    (AT (a_type T) (a_dev T) (filter (fun d => d <> 1) (a_dims T)) (a_vals T)).
Proof. exact squeeze_unit. Qed.
Print Assumptions C20_squeeze_all.

Example C20_ex :
  wf (fx [T_u8]) /\ hooks_ok E0 /\ holds (heap (fx [T_u8])) 0 T_u8 /\
  Forall (fun d => d <> 0) (a_dims T_u8) /\ filter (fun d => d <> 1) (a_dims T_u8) = [3; 2].
Proof.
  split_and!; [apply fx_wf|done|exact (fx_holds [T_u8] 0 T_u8 eq_refl T_u8_valid)|by repeat constructor|reflexivity].
Qed.

(** ** C21: squeeze with axes *)
Theorem C21_squeeze_named : forall p T axis o E s,
  wf s -> hooks_ok E -> holds (heap s) p T -> Forall (fun d => d <> 0) (a_dims T) ->
  axis <> [] -> NoDup axis -> Forall (fun a => 0 <= a < Z.of_nat (length (a_dims T))) axis ->
  makes_or_nomem (aitisa_squeeze (HPtr p) axis (Z.of_nat (length axis)) o) E s o
    (AT (a_type T) (a_dev T)
        (squeeze_dims (fun i => bool_decide (Z.of_nat i ∈ axis)) (a_dims T)) (a_vals T)).
Proof. exact squeeze_named. Qed.
Print Assumptions C21_squeeze_named.

Theorem C21_negative_axis : forall p T axis o E s,
  holds (heap s) p T -> Exists (fun a => a < 0) axis ->
  refuses (aitisa_squeeze (HPtr p) axis (Z.of_nat (length axis)) o) E s o INVALID_ARGUMENT.
Proof. exact squeeze_negative. Qed.
Print Assumptions C21_negative_axis.

Theorem C21_negative_count : forall p T axis n o E s,
  holds (heap s) p T -> n < 0 ->
  refuses (aitisa_squeeze (HPtr p) axis n o) E s o INVALID_ARGUMENT.
Proof. exact squeeze_negative_count. Qed.
Print Assumptions C21_negative_count.

Theorem C21_repeated_axis_refuted : exists E s p T axis e,
  wf s /\ alloc_all E /\ holds (heap s) p T /\
  Forall (fun a => 0 <= a < Z.of_nat (length (a_dims T))) axis /\
  aitisa_squeeze (HPtr p) axis (Z.of_nat (length axis)) HNull E s = UB e.
Proof. exact squeeze_repeated_ub. Qed.
Print Assumptions C21_repeated_axis_refuted.

Theorem C21_large_axis_refuted : exists E s p T axis e,
  wf s /\ alloc_all E /\ holds (heap s) p T /\ NoDup axis /\ Forall (fun a => 0 <= a) axis /\
  aitisa_squeeze (HPtr p) axis (Z.of_nat (length axis)) HNull E s = UB e.
Proof. exact squeeze_large_ub. Qed.
Print Assumptions C21_large_axis_refuted.

Theorem C21_zero_extent_refuted : exists E s p T e,
  wf s /\ alloc_all E /\ holds (heap s) p T /\
  aitisa_squeeze (HPtr p) [] 0 HNull E s = UB e.
Proof. exact squeeze_zero_ub. Qed.
Print Assumptions C21_zero_extent_refuted.

Example C21_ex :
  NoDup [1; 2] /\ Forall (fun a => 0 <= a < Z.of_nat (length (a_dims T_u8))) [1; 2] /\
  squeeze_dims (fun i => bool_decide (Z.of_nat i ∈ [1; 2])) (a_dims T_u8) = [3; 2] /\
  squeeze_dims (fun i => bool_decide (Z.of_nat i ∈ [0; 2])) (a_dims T_u8) = [3; 1; 2] /\
  Exists (fun a => a < 0) [2; -1].
Proof.
  split_and!.
  - apply NoDup_cons. split; [|apply NoDup_singleton]. rewrite elem_of_list_singleton. lia.
  - repeat constructor; cbn; lia.
  - reflexivity.
  - reflexivity.
  - right. left. lia.
Qed.

(** ** C22: slice *)
Theorem C22_slice : forall p T bs ss ts o E s,
  wf s -> alloc_all E -> hooks_ok E -> holds (heap s) p T ->
  a_dims T <> [] -> slice_ok (a_dims T) bs ss ts -> prodZ (slice_dims ss ts) <= INT_MAX ->
  makes (aitisa_slice (HPtr p) bs ss ts o) E s
    (AT (a_type T) (a_dev T) (slice_dims ss ts)
        (tab (slice_dims ss ts) (fun c => at_ T (slice_src bs ss ts c)))).
Proof. exact slice_rule. Qed.
Print Assumptions C22_slice.

(** How to read [tab]: the element at coordinate [c]. *)
Theorem C22_elements : forall t dev dims (f : list Z -> val) c,
  in_box dims c -> at_ (AT t dev dims (tab dims f)) c = f c.
Proof. exact at_tab. Qed.
Print Assumptions C22_elements.

Example C22_ex :
  wf (fx [T_i32]) /\ holds (heap (fx [T_i32])) 0 T_i32 /\
  slice_ok (a_dims T_i32) [1; 0] [0; 3] [1; 2] /\
  slice_dims [0; 3] [1; 2] = [2] /\
  tab [2] (fun c => at_ T_i32 (slice_src [1; 0] [0; 3] [1; 2] c)) = VI <$> [12; -1].
Proof.
  split_and!; [apply fx_wf|exact (fx_holds [T_i32] 0 T_i32 eq_refl T_i32_valid)| |reflexivity|reflexivity].
  apply slice_ok_intro; [done|done|done|].
  intros [|[|i]] d b s t H1 H2 H3 H4; [| |done]; cbn in *; simplify_eq; vm_compute; intuition discriminate.
Qed.
Example C22_run : exists r s',
  aitisa_slice (HPtr 0) [0; 0] [2; 3] [1; 2] HNull E0 (fx [T_i32]) = Done r s' /\
  peek E0 s' r = Some (SUCCESS, [2; 2], VI <$> [5; 0; 12; -1]).
Proof. apply run_ex. vm_compute. reflexivity. Qed.

(** ** C23: slice rejects invalid requests (begin + size not overflowing) *)
Theorem C23_slice_rejects : forall p T bs ss ts o E s,
  holds (heap s) p T ->
  length bs = length (a_dims T) -> length ss = length (a_dims T) -> length ts = length (a_dims T) ->
  Forall (fun z => INT_MIN <= z <= INT_MAX) bs -> Forall (fun z => z <= INT_MAX) ts ->
  Forall2 (fun b s => b + s <= INT_MAX) bs ss ->
  ~ slice_ok (a_dims T) bs ss ts ->
  refuses (aitisa_slice (HPtr p) bs ss ts o) E s o INVALID_ARGUMENT.
Proof. exact slice_reject. Qed.
Print Assumptions C23_slice_rejects.

Theorem C23_overflow_refuted : exists E s p T bs ss ts,
  wf s /\ alloc_all E /\ holds (heap s) p T /\
  length bs = length (a_dims T) /\ length ss = length (a_dims T) /\ length ts = length (a_dims T) /\
  Forall (fun z => INT_MIN <= z <= INT_MAX) (bs ++ ss ++ ts) /\
  aitisa_slice (HPtr p) bs ss ts HNull E s = UB UB_overflow.
Proof. exact slice_overflow_ub. Qed.
Print Assumptions C23_overflow_refuted.

Theorem C23_scalar_refuted : exists E s p T e,
  wf s /\ alloc_all E /\ holds (heap s) p T /\ aitisa_slice (HPtr p) [] [] [] HNull E s = UB e.
Proof. exact slice_scalar_ub. Qed.
Print Assumptions C23_scalar_refuted.

Example C23_ex : ~ slice_ok [2; 3] [0; 1] [2; 3] [1; 1] /\ ~ slice_ok [2; 3] [0; 0] [2; 3] [1; 0].
Proof. unfold slice_ok. cbn. lia. Qed.

(** ** C24: extents through double division *)
Theorem C24_extent : forall s t E x, 0 <= s <= INT_MAX -> 1 <= t <= INT_MAX ->
  slice_extent s t E x = Done (cdiv s t) x.
Proof. exact slice_extent_ok. Qed.
Print Assumptions C24_extent.

(** The ceiling, characterised. *)
Theorem C24_ceiling : forall s t, 1 <= t -> (cdiv s t - 1) * t < s <= cdiv s t * t.
Proof. exact cdiv_bounds. Qed.
Print Assumptions C24_ceiling.

(** It holds far beyond int. *)
Theorem C24_extent_wide : forall s t, 0 <= s < 2 ^ 52 -> 1 <= t <= 2 ^ 52 ->
  flt_trunc (dbl_ceil (ddiv (dbl_of_Z s) (dbl_of_Z t))) = Some (cdiv s t).
Proof. exact ceil_div_double. Qed.
Print Assumptions C24_extent_wide.

Example C24_ex : cdiv 7 2 = 4 /\ cdiv INT_MAX 3 = 715827883 /\ 0 <= INT_MAX <= INT_MAX.
Proof. vm_compute. intuition discriminate. Qed.

(** ** C25: duplicate *)
Theorem C25_duplicate : forall p T o E s,
  wf s -> alloc_all E -> hooks_ok E -> holds (heap s) p T -> a_dims T <> [] ->
  Forall (fun d => 0 < d <= INT_MAX) (a_dims T) -> prodZ (a_dims T) <= INT_MAX ->
  makes (aitisa_duplicate (HPtr p) o) E s T.
Proof. exact duplicate_rule. Qed.
Print Assumptions C25_duplicate.

Theorem C25_zero_extent : forall p T o E s,
  wf s -> alloc_all E -> hooks_ok E -> holds (heap s) p T ->
  Forall (fun d => d <= INT_MAX) (a_dims T) -> 0 ∈ a_dims T ->
  exists s', aitisa_duplicate (HPtr p) o E s = Done (INVALID_ARGUMENT, o) s' /\ heap s' = heap s.
Proof. exact duplicate_zero. Qed.
Print Assumptions C25_zero_extent.

Theorem C25_scalar_refuted : exists E s p T e,
  wf s /\ alloc_all E /\ holds (heap s) p T /\ aitisa_duplicate (HPtr p) HNull E s = UB e.
Proof. exact duplicate_scalar_ub. Qed.
Print Assumptions C25_scalar_refuted.

Theorem C25_truncation_refuted : exists E s p T T',
  wf s /\ alloc_all E /\ holds (heap s) p T /\
  makes (aitisa_duplicate (HPtr p) HNull) E s T' /\
  prodZ (a_dims T) = 4294967297 /\ prodZ (a_dims T') = 1.
Proof. exact duplicate_truncates. Qed.
Print Assumptions C25_truncation_refuted.

Example C25_ex :
  wf (fx [T_i32]) /\ hooks_ok E0 /\ holds (heap (fx [T_i32])) 0 T_i32 /\ a_dims T_i32 <> [] /\
  Forall (fun d => 0 < d <= INT_MAX) (a_dims T_i32) /\ prodZ (a_dims T_i32) <= INT_MAX /\
  holds (heap (fx [T_empty])) 0 T_empty /\ 0 ∈ a_dims T_empty.
Proof.
  split_and!; [apply fx_wf|done|exact (fx_holds [T_i32] 0 T_i32 eq_refl T_i32_valid)|done| |vm_compute; discriminate
    |exact (fx_holds [T_empty] 0 T_empty eq_refl T_empty_valid)|left].
  repeat constructor; vm_compute; discriminate.
Qed.
