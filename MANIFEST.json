{
 "claims": [
  {
   "property": "C01",
   "status": "proved",
   "theorems": [
    "C01_create_fresh",
    "C01_create_any_dtype",
    "C01_created_denotes",
    "C01_created_preserves"
   ],
   "note": ""
  },
  {
   "property": "C02",
   "status": "proved",
   "theorems": [
    "C02_create_over_buffer",
    "C02_length_mismatch"
   ],
   "note": ""
  },
  {
   "property": "C03",
   "status": "proved",
   "theorems": [
    "C03_destroy_exact",
    "C03_destroy_null",
    "C03_create_destroy_restores",
    "C03_destroy_created",
    "C03_destroy_twice"
   ],
   "note": ""
  },
  {
   "property": "C04",
   "status": "proved",
   "theorems": [
    "C04_memory",
    "C04_programs"
   ],
   "note": "C04_programs: every program of calls, element writes and destructions that the value specification SpecProg.astep covers, of any length and over any number of variables (memory always available, paired hooks). C04_memory: the memory part for arbitrary histories, arguments and refused allocations, including caller buffers and hook changes. Data buffers given to aitisa_create are in C04_memory only; the preconditions are those written in SpecProg (each is needed: see the refuted theorems of the operation concerned)."
  },
  {
   "property": "C05",
   "status": "proved",
   "theorems": [
    "C05_create_any_allocator",
    "C05_create_data_any_allocator"
   ],
   "note": ""
  },
  {
   "property": "C06",
   "status": "partial",
   "theorems": [
    "C06_failed_create_leaks_nothing_refuted",
    "C06_mismatch_always_leaks_refuted",
    "C06_first_failure_partial"
   ],
   "note": "REFUTED (finding): create leaks when a later allocation fails or when the caller's buffer length does not match; both runs are exhibited. C06_first_failure_partial is the true remainder: failure of the first allocation leaves memory as it was."
  },
  {
   "property": "C07",
   "status": "proved",
   "theorems": [
    "C07_resolve_reports"
   ],
   "note": ""
  },
  {
   "property": "C08",
   "status": "partial",
   "theorems": [
    "C08_resolve_status_refuted",
    "C08_resolve_length_refuted",
    "C08_exact"
   ],
   "note": "REFUTED (finding): aitisa_resolve falls off its end (no return statement), so the returned status is unspecified, and len is truncated to 32 bits. C08_exact gives the outcome for every tensor: the status is whatever was left in the register, everything else is right except that the length is right exactly below 4 GiB. See also C07."
  },
  {
   "property": "C09",
   "status": "proved",
   "theorems": [
    "C09_set_item_owned",
    "C09_set_item_one_block",
    "C09_set_item_out_of_range"
   ],
   "note": ""
  },
  {
   "property": "C10",
   "status": "proved",
   "theorems": [
    "C10_index_to_coords_and_back",
    "C10_coords_to_index_and_back"
   ],
   "note": ""
  },
  {
   "property": "C11",
   "status": "proved",
   "theorems": [
    "C11_offset_to_coords_and_back",
    "C11_coords_to_offset_and_back",
    "C11_all_strides",
    "C11_one_stride",
    "C11_offset_is_linear_index"
   ],
   "note": ""
  },
  {
   "property": "C12",
   "status": "proved",
   "theorems": [
    "C12_out_of_range_aborts"
   ],
   "note": ""
  },
  {
   "property": "C13",
   "status": "proved",
   "theorems": [
    "C13_success_iff",
    "C13_pairwise_maximum",
    "C13_joint_shape",
    "C13_symmetric",
    "C13_associative"
   ],
   "note": ""
  },
  {
   "property": "C14",
   "status": "partial",
   "theorems": [
    "C14_zero_extent_refuted",
    "C14_exact"
   ],
   "note": "REFUTED (finding): broadcasting 0 against 1 yields extent 1. C14_exact: for every pair of shapes, the computed shape is the joint shape if and only if no extent below 1 is aligned with a 1."
  },
  {
   "property": "C15",
   "status": "proved",
   "theorems": [
    "C15_full",
    "C15_undefined_value",
    "C15_undefined_count"
   ],
   "note": ""
  },
  {
   "property": "C16",
   "status": "proved",
   "theorems": [
    "C16_cast",
    "C16_conversion"
   ],
   "note": ""
  },
  {
   "property": "C17",
   "status": "partial",
   "theorems": [
    "C17_cast_to_own_type_refuted",
    "C17_cast_to_own_type_never_refuted"
   ],
   "note": "REFUTED (finding): casting to the tensor's own type returns SUCCESS without writing *output, for every tensor."
  },
  {
   "property": "C18",
   "status": "proved",
   "theorems": [
    "C18_widen_and_back",
    "C18_pairs"
   ],
   "note": ""
  },
  {
   "property": "C19",
   "status": "proved",
   "theorems": [
    "C19_reshape",
    "C19_mismatch",
    "C19_back"
   ],
   "note": ""
  },
  {
   "property": "C20",
   "status": "proved",
   "theorems": [
    "C20_squeeze_all"
   ],
   "note": ""
  },
  {
   "property": "C21",
   "status": "partial",
   "theorems": [
    "C21_squeeze_named",
    "C21_negative_axis",
    "C21_negative_count",
    "C21_repeated_axis_refuted",
    "C21_large_axis_refuted",
    "C21_zero_extent_refuted",
    "C21_large_axis",
    "C21_every",
    "C21_zero_extent",
    "C21_repeated_axis"
   ],
   "note": "REFUTED in part (finding): repeated axes, too large axes and zero extents all reach undefined behaviour (the three *_refuted theorems). The remaining clauses are proved for all inputs: C21_squeeze_named, C21_negative_axis, C21_negative_count. C21_large_axis, C21_repeated_axis and C21_zero_extent are these findings for every such input, and C21_every gives the outcome for every list of axes in range (allocation refused, out of bounds, uninitialised, mismatch, or the squeezed tensor)."
  },
  {
   "property": "C22",
   "status": "partial",
   "theorems": [
    "C22_slice",
    "C22_elements",
    "C22_undefined_count"
   ],
   "note": "REFUTED in part (finding): a box of more than INT_MAX elements overflows the int loop counter (C22_undefined_count). C22_slice is the claim for all others."
  },
  {
   "property": "C23",
   "status": "partial",
   "theorems": [
    "C23_slice_rejects",
    "C23_overflow_refuted",
    "C23_scalar_refuted",
    "C23_first_axis",
    "C23_every_scalar_refuted"
   ],
   "note": "REFUTED in part (finding): begin+size is an int addition that can overflow (undefined behaviour) and every rank-0 slice writes out of bounds (C23_every_scalar_refuted). C23_slice_rejects proves the rejection for every invalid request whose begin+size does not overflow; C23_first_axis gives the exact verdict at the first axis that is not in order."
  },
  {
   "property": "C24",
   "status": "proved",
   "theorems": [
    "C24_extent",
    "C24_ceiling",
    "C24_extent_wide"
   ],
   "note": ""
  },
  {
   "property": "C25",
   "status": "partial",
   "theorems": [
    "C25_duplicate",
    "C25_zero_extent",
    "C25_scalar_refuted",
    "C25_truncation_refuted",
    "C25_every_tensor"
   ],
   "note": "REFUTED in part (finding): rank-0 tensors reach undefined behaviour, and extents above INT_MAX are truncated silently. C25_duplicate and C25_zero_extent are the true parts; C25_every_tensor gives the outcome for every tensor when no allocation is refused (undefined, refused, or a copy of the box of truncated extents)."
  },
  {
   "property": "C26",
   "status": "partial",
   "theorems": [
    "C26_arithmetic"
   ],
   "note": "REFUTED in part (finding): tensors of more than INT_MAX elements overflow the int loop counter (C61_arithmetic_undefined), and the result of malloc is not checked (C49). C26_arithmetic is the claim for all other tensors; C61 gives the exact condition."
  },
  {
   "property": "C27",
   "status": "proved",
   "theorems": [
    "C27_not_cpu",
    "C27_type_mismatch",
    "C27_dims_mismatch"
   ],
   "note": ""
  },
  {
   "property": "C28",
   "status": "partial",
   "theorems": [
    "C28_int32_refuted",
    "C28_uint16_refuted",
    "C28_total_partial"
   ],
   "note": "REFUTED (finding): int32 addition and uint16 multiplication overflow (undefined behaviour). C28_total_partial: int8, uint8, int16, uint32 and uint64 never overflow."
  },
  {
   "property": "C29",
   "status": "proved",
   "theorems": [
    "C29_sqrt",
    "C29_negative"
   ],
   "note": ""
  },
  {
   "property": "C30",
   "status": "partial",
   "theorems": [
    "C30_int64_refuted",
    "C30_floor_partial",
    "C30_exact",
    "C30_boundary",
    "C30_always_refuted"
   ],
   "note": "REFUTED (finding) for 64-bit types: the root goes through double and can be one too large. C30_floor_partial proves the claim for all values below 2^52, hence for all types of at most 32 bits. C30_exact gives the result for every integer tensor (the root, or one more exactly when the nearest double is close enough to the next square); C30_boundary: right for all values below 2^52 and wrong one below the square of every integer above 2^26 (C30_always_refuted)."
  },
  {
   "property": "C31",
   "status": "partial",
   "theorems": [
    "C31_vector_vector",
    "C31_matrix_vector",
    "C31_vector_matrix",
    "C31_matrix_matrix",
    "C31_result_exists",
    "C31_inner_defined",
    "C31_inner_integer",
    "C31_inner_value",
    "C31_mismatch"
   ],
   "note": "REFUTED in part (finding): extents beyond INT_MAX overflow the int loop counters, as may the accumulated sums of int32, int64 and uint16; C69 gives the exact condition and the outcome otherwise. All four rank combinations, under any allocator. Side conditions: extents at most INT_MAX (the kernels count in int) and every inner product defined in C (C31_inner_defined: always so except for int32, int64, uint16, whose accumulation can overflow)."
  },
  {
   "property": "C32",
   "status": "partial",
   "theorems": [
    "C32_exact_batch_matrix",
    "C32_exact_batch_vector",
    "C32_exact_vector_batch",
    "C32_batch_matrix",
    "C32_batch_vector",
    "C32_vector_batch"
   ],
   "note": "REFUTED in part (finding): a broadcast result with more than INT_MAX elements, a contracted extent above INT_MAX or an overflowing inner product is undefined. C32_exact_* decide every case with positive extents and a representable result shape: the product as stated when batch_ok holds, signed overflow otherwise. Memory is assumed to be available (the scratch allocations are not checked by the code)."
  },
  {
   "property": "C33",
   "status": "partial",
   "theorems": [
    "C33_type_refuted",
    "C33_bounds_refuted",
    "C33_vector_types",
    "C33_scalar_partial",
    "C33_not_cpu_partial",
    "C33_batch_partial",
    "C33_types_always_refuted"
   ],
   "note": "REFUTED in part (finding): operand types are never compared, so the second operand is read at the first operand's type. C33_types_always_refuted shows that every pair of operands of different types that has a product, whatever the ranks (vector, matrix, stacks of matrices with broadcasting), is undefined behaviour; C33_bounds_refuted gives the out-of-bounds case. The shape part holds: C31_mismatch, C33_scalar_partial, C33_batch_partial (which also leaks one block), C33_not_cpu_partial."
  },
  {
   "property": "C34",
   "status": "partial",
   "theorems": [
    "C34_vectors",
    "C34_vectors_mismatch",
    "C34_matrices",
    "C34_types",
    "C34_dot_is_matmul"
   ],
   "note": "REFUTED in part (finding): vectors longer than INT_MAX overflow the int loop counter (C34_dot_is_matmul with C69_vector_vector). C34_dot_is_matmul: on vectors aitisa_dot and aitisa_matmul are equal whatever the operands and the allocator. Vector length at most INT_MAX (int loop counter in the C code)."
  },
  {
   "property": "C35",
   "status": "partial",
   "theorems": [
    "C35_tensor_vector",
    "C35_tensor_tensor",
    "C35_tensor_vector_mismatch",
    "C35_tensor_tensor_mismatch",
    "C35_other_ranks",
    "C35_zero_extent",
    "C35_exact_tensor_vector",
    "C35_exact_tensor_tensor"
   ],
   "note": "REFUTED in part (finding): the code counts results and byte offsets in int, so a result of more than INT_MAX vectors, a tensor-vector result beyond 2 GiB or an overflowing inner product is undefined. C35_exact_* decide every case whose extents are in 1..INT_MAX and whose result shape is representable. Allocations are assumed to succeed; extents above INT_MAX (which the code converts to int) are not covered. A zero contracted extent is rejected after *output is set (C35_zero_extent)."
  },
  {
   "property": "C36",
   "status": "partial",
   "theorems": [
    "C36_exact_refuted",
    "C36_defined_refuted",
    "C36_left_partial",
    "C36_right_partial",
    "C36_other_types_partial",
    "C36_scalar_left",
    "C36_scalar_right",
    "C36_nearest",
    "C36_fits"
   ],
   "note": "REFUTED (finding): the scalar is read as a double and converted back (dot.c get_value / aitisa_full), so an int64 scalar 2^53+1 is replaced by 2^53 and INT64_MAX makes the conversion undefined (C36_exact_refuted, C36_defined_refuted). Proved: exact scaling for every type when an integer scalar is at most 2^53 in magnitude, hence for every value of all types but the 64-bit integers. For every integer scalar C36_scalar_left and C36_scalar_right give the outcome: the tensor is multiplied by the double nearest to the scalar, and the conversion back is undefined exactly when that double does not fit the type (C36_fits)."
  },
  {
   "property": "C37",
   "status": "proved",
   "theorems": [
    "C37_relu",
    "C37_total",
    "C37_idempotent",
    "C37_unsigned"
   ],
   "note": ""
  },
  {
   "property": "C38",
   "status": "proved",
   "theorems": [
    "C38_sigmoid",
    "C38_sigmoid_total",
    "C38_tanh",
    "C38_tanh_total",
    "C38_sigmoid_value",
    "C38_tanh_value",
    "C38_sigmoid_refused_types",
    "C38_tanh_refused_types"
   ],
   "note": "Proved for an arbitrary exp and an arbitrary allocator. NOT_SUPPORTED for other types comes after *output has been overwritten with a fresh, unfilled tensor (see the refused_types theorems)."
  },
  {
   "property": "C39",
   "status": "partial",
   "theorems": [
    "C39_all",
    "C39_axis",
    "C39_all_float",
    "C39_axis_float",
    "C39_other_axes",
    "C39_integer_refuted",
    "C39_exact_all",
    "C39_exact_axis"
   ],
   "note": "REFUTED in part (finding): on integer tensors the exponential is converted to the element type before normalising, which is undefined when it is out of range. C39_exact_all and C39_exact_axis give the exact outcome for every tensor: the reference result when it exists, undefined behaviour otherwise (C71 says when, for integers). Proved for every float/double tensor (C39_all_float, C39_axis_float); axis form under 2*size <= INT64_MAX (implied by representability except for 1-byte types)."
  },
  {
   "property": "C40",
   "status": "partial",
   "theorems": [
    "C40_dropout",
    "C40_rate_zero",
    "C40_rate_one",
    "C40_rate_rejected",
    "C40_nan_refuted",
    "C40_empty_refuted",
    "C40_only_dropout_draws"
   ],
   "note": "REFUTED in part (finding): a NaN rate passes the range check and reaches an undefined conversion on every tensor; tensors with a zero extent are refused. The rest is proved for every tensor with positive int extents, every rate in [0,1] and every random sequence."
  },
  {
   "property": "C41",
   "status": "partial",
   "theorems": [
    "C41_average",
    "C41_float",
    "C41_integer",
    "C41_rank",
    "C41_too_large",
    "C41_int64_refuted",
    "C41_extent_refuted",
    "C41_exact"
   ],
   "note": "REFUTED in part (finding): averages of int64 elements near INT64_MAX convert an out-of-range double (undefined), and output extents are computed in double and are wrong above 2^53. Proved for every input with 1-3 spatial axes of extent <= 2^51 and every positive parameter in int range: C41_average (all element types, whenever the conversions are defined), C41_float (unconditional on float types), C41_integer (exact truncated quotient for bounded integers). Also: other ranks refused, too large windows refused with INVALID_ARGUMENT but six scratch blocks leak. C41_exact decides every such input: the averages when all of them exist, undefined behaviour (the conversion back) as soon as one does not."
  },
  {
   "property": "C42",
   "status": "partial",
   "theorems": [
    "C42_mode_always_refuted",
    "C42_max_refuted",
    "C42_max_partial",
    "C42_computes",
    "C42_mode_refuted",
    "C42_exact"
   ],
   "note": "REFUTED (finding): the running maximum starts at 0, so a window of negative numbers yields 0 (C42_max_refuted; C42_max_partial shows this happens for exactly the windows without an element >= 0 and that all others give the true maximum). An unknown mode string returns SUCCESS with unwritten output (C42_mode_refuted). C42_mode_always_refuted: this is so for every input. C42_exact decides every input: the maxima with 0 when all of them exist, undefined behaviour as soon as one does not convert back."
  },
  {
   "property": "C43",
   "status": "proved",
   "theorems": [
    "C43_terminates",
    "C43_average_steps",
    "C43_max_steps",
    "C43_stride_needed",
    "C43_batch_norm"
   ],
   "note": "Every operation except pooling and batch normalisation finishes for any arguments and state at all (C43_terminates); batch normalisation does for any arguments whose input has fewer than 2^32 channels, which are counted in uint32_t (C43_batch_norm). Pooling finishes with fuel max(window elements, outputs per channel) (C41_average, C42_computes) and not with less (C43_*_steps), so one window pass per output element."
  },
  {
   "property": "C44",
   "status": "partial",
   "theorems": [
    "C44_convolution",
    "C44_defined",
    "C44_integers",
    "C44_2d",
    "C44_3d",
    "C44_types",
    "C44_exact",
    "C44_windows",
    "C44_exact_any"
   ],
   "note": "Zero channels excluded, for which the claim is false. Proved for every float input with 1-3 spatial axes, at least one channel, a filter with at least as many channels, and every positive stride/dilation, non-negative padding (win_ok); C44_convolution gives the value at every coordinate as the left-to-right single precision sum, C44_defined that it exists and is produced whenever the inputs are initialised, C44_integers that it is the exact sum when all values are small integers. Zero channels are excluded (nothing is ever written, see C45_no_channels_refuted). The returned status is C45. For zero channels C45_no_channels_always_refuted shows for every input that not one element is written. C44_exact: for every input of these shapes, initialised or not, the call makes the result when no element that is read is uninitialised and is undefined (UB_uninit) otherwise. C44_windows, C44_exact_any: the same for filters that exceed the padded input by less than one step, which the code treats as having one position."
  },
  {
   "property": "C45",
   "status": "partial",
   "theorems": [
    "C45_success_partial",
    "C45_status_refuted",
    "C45_large_filter_refuted",
    "C45_groups_refuted",
    "C45_no_channels_refuted",
    "C45_filter_type_refuted",
    "C45_groups_always_refuted",
    "C45_filter_type_always_refuted",
    "C45_large_filter_always_refuted",
    "C45_no_position_always_refuted",
    "C45_negative_always_refuted",
    "C45_two_negative_always_refuted",
    "C45_no_channels_always_refuted"
   ],
   "note": "REFUTED (finding): conv_float and aitisa_conv fall off their end without a return, so the status is indeterminate (C45_status_refuted; C45_success_partial: success is reported exactly as far as that indeterminate value happens to be STATUS_SUCCESS); a kernel larger than the padded input is not rejected and yields values, negative extents or an abort (C45_large_filter_refuted); groups is ignored and grouped filters abort (C45_groups_refuted); zero input channels leave the output unwritten; the filter's element type is not checked. C45_no_channels_always_refuted is the last finding but one for every input. C45_groups_always_refuted: for every initialised input and filter with fewer (but some) channels than the input, the call aborts as soon as some window has an element of the input in it. C45_filter_type_always_refuted: for every filter of another element type of at least four bytes the call is then undefined. The large filter for every input: by less than a step it yields values (C45_large_filter_always_refuted); by more, an empty tensor when an extent is 0 and none negative (C45_no_position_always_refuted), STATUS_ALLOC_FAILED and eight leaked arrays when the number of elements is negative (C45_negative_always_refuted), an abort when two extents are negative (C45_two_negative_always_refuted)."
  },
  {
   "property": "C46",
   "status": "partial",
   "theorems": [
    "C46_batch_norm",
    "C46_meaning",
    "C46_floats",
    "C46_rejects",
    "C46_accepts",
    "C46_negative_variance_refuted",
    "C46_integers_refuted",
    "C46_empty_refuted",
    "C46_exact",
    "C46_success_iff"
   ],
   "note": "C46_batch_norm proves the formula at every coordinate for every element type, ranks 2-5 and both channel axes (extents positive and within int; with 3+ axes the per-channel byte offsets, which the code computes in uint32_t, below 2^32); C46_meaning reads it over the reals; C46_floats shows it is always defined and produced for initialised floats with non-negative variances; C46_rejects/C46_accepts give the verdict of the checks, with no effect on refusal. C46_exact lists every outcome of an accepted call on initialised tensors (success with exactly the formula, UB when epsilon, a sum or an element does not exist in the element type, MATH_ERROR for a negative sum, and which of them comes first for rank 2 and for higher ranks); C46_success_iff: it succeeds exactly when all denominators and elements exist. REFUTED (findings): a negative variance is only noticed after the output was allocated and *output overwritten, and leaks four tensors (C46_negative_variance_refuted); integer inputs with var+eps = 0 or a NaN epsilon are undefined behaviour (C46_integers_refuted); a zero spatial extent is refused after *output was replaced (C46_empty_refuted)."
  },
  {
   "property": "C47",
   "status": "proved",
   "theorems": [
    "C47_inputs_unchanged",
    "C47_queries"
   ],
   "note": "For all 21 tensor-producing entry points with arbitrary (also dangling, NULL or aliasing) arguments, arbitrary allocator behaviour and any returned status; the query functions leave the whole state unchanged."
  },
  {
   "property": "C48",
   "status": "proved",
   "theorems": [
    "C48_no_leak"
   ],
   "note": "For all 21 entry points with arbitrary arguments and any allocator; new blocks are exactly the distinct blocks of the output tensor, and destroying it restores the previous heap. A cast to the same type code does nothing (output variable untouched), stated as the second disjunct. A buffer handed to create is released together with the tensor. Conv: only if the missing return happens to yield SUCCESS (garbage status modelled)."
  },
  {
   "property": "C49",
   "status": "partial",
   "theorems": [
    "C49_reported_partial",
    "C49_conv_refuted",
    "C49_pooling_refuted",
    "C49_matmul_tv_refuted",
    "C49_matmul_vt_refuted",
    "C49_matmul_tt_refuted",
    "C49_slice_refuted",
    "C49_duplicate_refuted",
    "C49_dropout_refuted",
    "C49_arithmetic_refuted",
    "C49_softmax_output_refuted",
    "C49_batch_norm_refuted",
    "C49_dot_scalar_left_refuted",
    "C49_dot_scalar_right_refuted",
    "C49_dot_tv_refuted",
    "C49_dot_tt_refuted"
   ],
   "note": "REFUTED (finding): convolution, pooling, batched matrix products, slice, duplicate, dropout, element-wise arithmetic, batch normalisation and dot (a scalar with a tensor, a tensor with a vector, two tensors) dereference the result of a refused request: undefined behaviour for every valid call when the named request is refused. Softmax and slice report the failure but leave an indeterminate *output. What holds: creation, full, cast, reshape, squeeze, sqrt, products of vectors and matrices, dot on vectors and matrices, relu, sigmoid, tanh and softmax, with arbitrary arguments and an arbitrary set of refused requests, report every refusal with STATUS_ALLOC_FAILED and keep existing memory."
  },
  {
   "property": "C50",
   "status": "partial",
   "theorems": [
    "C50_release",
    "C50_no_bad_free",
    "C50_only_the_hook_partial",
    "C50_all_through_hook_refuted",
    "C50_changed_alive_refuted",
    "C50_not_together_refuted",
    "C50_foreign_hook_always_refuted"
   ],
   "note": "First half proved (C50_release, C50_no_bad_free). REFUTED (finding): elementwise operations, dot and batch normalisation call malloc() directly; with a hook that always has memory aitisa_add can still dereference NULL (C50_all_through_hook_refuted). All other operations use only the hook (C50_only_the_hook_partial). C50_foreign_hook_always_refuted: under a deallocation hook of another allocator no live tensor or buffer of any history can be released."
  },
  {
   "property": "C51",
   "status": "proved",
   "theorems": [
    "C51_commute",
    "C51_sub_self",
    "C51_sub_self_float",
    "C51_div_self",
    "C51_add_sub",
    "C51_cast_cast",
    "C51_reshape_reshape",
    "C51_cast_reshape",
    "C51_squeeze_reshape",
    "C51_slice_full",
    "C51_slice_slice",
    "C51_relu_relu",
    "C51_dot_matmul"
   ],
   "note": "Laws are stated between actual runs: the second operation runs in any state that holds the first one's result. x - x = 0 is exact for integers and for finite floats; commutation is of the results (the result device is that of the left operand)."
  },
  {
   "property": "C52",
   "status": "partial",
   "theorems": [
    "C52_elementwise",
    "C52_cast",
    "C52_softmax",
    "C52_slice",
    "C52_duplicate",
    "C52_dropout",
    "C52_conv",
    "C52_pooling",
    "C52_dot_scalar",
    "C52_full_refuted",
    "C52_arithmetic_refuted",
    "C52_matmul_refuted",
    "C52_matmul_matrix_refuted",
    "C52_dot_refuted",
    "C52_batch_norm_refuted",
    "C52_cast_same_refuted",
    "C52_reshape_refuted"
   ],
   "note": "Refusal with NOT_SUPPORTED proved for sqrt, relu, sigmoid, tanh, cast, softmax, slice, duplicate, dropout, convolution, pooling and dot with a scalar, without any hypothesis on the operand's buffer (so its elements are never accessed). REFUTED (finding) for full, arithmetic, matmul of vectors and matrices, dot and batch_norm (function table indexed out of bounds: undefined behaviour for every unknown code), for a cast to the tensor's own code and for reshape (both report SUCCESS)."
  },
  {
   "property": "C53",
   "status": "partial",
   "theorems": [
    "C53_safe_partial",
    "C53_live_partial",
    "C53_step_partial",
    "C53_release_partial",
    "C53_end_partial",
    "C53_counters_partial",
    "C53_self_assignment_refuted",
    "C53_moved_from_refuted",
    "C53_move_then_copy_refuted",
    "C53_assignment_leak_refuted",
    "C53_result_leak_refuted",
    "C53_set_data_leak_refuted",
    "C53_overflow_refuted",
    "C53_tensor_over_sample_refuted",
    "C53_tensor_over_sample_hooks_refuted",
    "C53_short_vector_refuted",
    "C53_short_vectors_refuted",
    "C53_sample_move",
    "C53_sample_destroy",
    "C53_sample_leak_refuted"
   ],
   "note": "REFUTED (finding): self-assignment of an unshared input double-frees; copying or assigning a moved-from object dereferences NULL; operator= and ~Result leak the counter cell; set_data on an object leaks its old buffer; INT_MAX copies overflow the counter; get_binary_sample's tensors free the sample's buffers. Under the discipline of SpecSample (none of these) every history is safe, owned buffers are live, and each buffer is released exactly by the step that removes its last owner. A std::vector of extents shorter than ndim is read past its end (C53_short_vector_refuted). Whole samples: the move constructor of Sample copies, leaving the source alive (C53_sample_move); destroying a sample releases exactly what nothing else owns (C53_sample_destroy); every sample made and destroyed leaves the counter of its result behind (C53_sample_leak_refuted)."
  },
  {
   "property": "C54",
   "status": "partial",
   "theorems": [
    "C54_negative_extents_refuted",
    "C54_negative_count_partial",
    "C54_every"
   ],
   "note": "REFUTED (finding): extents are never checked for sign; any list with a non-negative size in bytes is accepted, negative extents included. C54_every gives the outcome for every list when no allocation is refused: accepted, reported as an allocation failure (negative size; memory leaked), or signed overflow (also for tensors without elements)."
  },
  {
   "property": "C55",
   "status": "proved",
   "theorems": [
    "C55_matmul_vector_vector",
    "C55_matmul_matrix_vector",
    "C55_matmul_vector_matrix",
    "C55_matmul_matrix_matrix",
    "C55_matmul_batch",
    "C55_matmul_batch_vector",
    "C55_matmul_vector_batch",
    "C55_dot_vectors",
    "C55_dot_tensor_vector",
    "C55_dot_tensors",
    "C55_convolution",
    "C55_bound",
    "C55_no_overflow"
   ],
   "note": ""
  },
  {
   "property": "C56",
   "status": "partial",
   "theorems": [
    "C56_axis_partial",
    "C56_all_partial",
    "C56_bound",
    "C56_overflow_refuted",
    "C56_underflow_refuted"
   ],
   "note": "REFUTED (finding): no maximum is subtracted before exponentiation, so every lane with an exponential that overflows to infinity contains NaN (C56_overflow_refuted), as does every lane whose exponentials all underflow to 0 (C56_underflow_refuted). C56_axis_partial and C56_all_partial prove the property for lanes whose exponentials are finite, not all 0, and with a sum below half the largest double; C56_bound simplifies the bound. Order is that of the exponentials: exp is an arbitrary function of the model's environment."
  },
  {
   "property": "C57",
   "status": "proved",
   "theorems": [
    "C57_sigmoid",
    "C57_bound",
    "C57_exp_exists"
   ],
   "note": ""
  },
  {
   "property": "C58",
   "status": "partial",
   "theorems": [
    "C58_tanh",
    "C58_bound",
    "C58_odd",
    "C58_relative_refuted"
   ],
   "note": "REFUTED (finding): under every accurate exp, tanh is NaN for all |x| >= 710 (inf/inf; last clauses of tanh_close in C58_tanh), where the true value is +-1; and near 0 there is no relative accuracy: even with the correctly rounded exp all elements of magnitude up to 2^-55 are sent to 0 (C58_relative_refuted). C58_tanh also proves the absolute error bound for |x| <= 709 (simplified by C58_bound), and between 709 and 710 the same bound or NaN, as exp is finite or not; C58_odd: exactly odd, for all elements"
  },
  {
   "property": "C59",
   "status": "partial",
   "theorems": [
    "C59_all_partial",
    "C59_axis_partial",
    "C59_overflow_refuted",
    "C59_underflow_refuted"
   ],
   "note": "REFUTED (finding): under every accurate exp, one finite element of at least 89 (float) or 710 (double) gives NaN (C59_overflow_refuted), and so do float elements all at most -105 (C59_underflow_refuted). C59_all_partial and C59_axis_partial prove the bound for elements between -80 and 88 (float) or -600 and 672 (double)."
  },
  {
   "property": "C60",
   "status": "proved",
   "theorems": [
    "C60_integer_root"
   ],
   "note": "near_root is the integer square root or one more within 2^13 of the next square; C60_run shows 2^62-1 yielding 2^31."
  },
  {
   "property": "C61",
   "status": "proved",
   "theorems": [
    "C61_arithmetic",
    "C61_arithmetic_undefined",
    "C61_cast",
    "C61_cast_undefined"
   ],
   "note": "Both directions: C61_arithmetic and C61_cast are equivalences; the _undefined theorems say which behaviour is undefined otherwise. The kernel loop counter is an int, hence the INT_MAX bound for arithmetic; cast loops over int64_t."
  },
  {
   "property": "C62",
   "status": "partial",
   "theorems": [
    "C62_no_leak_refuted",
    "C62_balance",
    "C62_count",
    "C62_create"
   ],
   "note": "REFUTED (finding): none of the eight operations releases anything on its error paths. C62_no_leak_refuted: whenever the (j+1)-th of its requests is the first refused, the call returns STATUS_ALLOC_FAILED with exactly its j granted blocks leaked. C62_balance is the general balance under any allocator, C62_count turns it into numbers of blocks, C62_create gives the numbers for aitisa_create (5 requests, 3 for rank 0)."
  },
  {
   "property": "C63",
   "status": "proved",
   "theorems": [
    "C63_natural_assign",
    "C63_unknown_type",
    "C63_operand"
   ],
   "note": "Lengths are unsigned int (below 2^32), operands below 2^32 bytes. random_assign is not modelled: a random input is any input."
  },
  {
   "property": "C64",
   "status": "proved",
   "theorems": [
    "C64_compare",
    "C64_sample",
    "C64_float_exact",
    "C64_int_exact",
    "C64_devices",
    "C64_float_tolerance"
   ],
   "note": "The user is an arbitrary collection of functions on an arbitrary tensor type that leaves existing memory alone; printing and timing left out; std::abs assumed."
  },
  {
   "property": "C65",
   "status": "partial",
   "theorems": [
    "C65_cpu",
    "C65_natural",
    "C65_cuda_refuted",
    "C65_narrow_refuted",
    "C65_natural_exact",
    "C65_natural_always_refuted"
   ],
   "note": "REFUTED (finding): on CUDA samples the library refuses its operands, the unset result is resolved and the behaviour is undefined (C65_cuda_refuted); 256 naturally assigned uint8 contain a zero divisor (C65_narrow_refuted). C65_cpu: on CPU samples the verdict is true iff every float result element is finite; C65_natural: naturally assigned arithmetic samples of wide types and any shape pass. C65_natural_exact and C65_natural_always_refuted decide every naturally assigned arithmetic sample below 4 GiB, of every type (the narrow ones included): it passes if no element operation is undefined, and otherwise the harness is undefined for every user."
  },
  {
   "property": "C66",
   "status": "partial",
   "theorems": [
    "C66_sample",
    "C66_float",
    "C66_double",
    "C66_double_refuted",
    "C66_itself",
    "C66_relu_itself",
    "C66_tanh_itself_refuted"
   ],
   "note": "REFUTED (finding): the activation harness demands the result on device 1 (CUDA), so the library on the CPU never passes its own samples (C66_itself); tanh fails against itself on CUDA whenever an element is at least 710 in magnitude (C66_tanh_itself_refuted); double samples are rounded to float before ASSERT_FLOAT_EQ, so all doubles from 2^128 are equal (C66_double_refuted). Proved: the verdict for any user implementation (C66_sample), the exact meaning of ASSERT_FLOAT_EQ as four units in the last place (C66_float, C66_double), relu always passes on CUDA (C66_relu_itself)."
  },
  {
   "property": "C67",
   "status": "partial",
   "theorems": [
    "C67_average",
    "C67_average_bound",
    "C67_batch_norm",
    "C67_batch_norm_bound",
    "C67_small_eps_refuted",
    "C67_small_eps_always_refuted"
   ],
   "note": "Proved for average pooling of floats with windows of up to 2^53 cells (C67_average), and for batch normalisation with a non-negative variance and an epsilon that is at least the smallest normal number of the type (C67_batch_norm); both directions: a finite result is within the bound, and arguments whose intermediate results stay in range give a finite result. REFUTED (finding) for a smaller positive epsilon: it is rounded to the element type before use, so a variance of 0 gives NaN and infinity where the formula is 1 or about 2^110 (C67_small_eps_refuted); C67_small_eps_always_refuted: for every float32 tensor and every epsilon below 2^-150 no element of a channel with variance 0 is finite."
  },
  {
   "property": "C68",
   "status": "partial",
   "theorems": [
    "C68_safe_partial",
    "C68_live_partial",
    "C68_step_partial",
    "C68_no_leak_partial",
    "C68_copy_refuted",
    "C68_assignment_refuted",
    "C68_assignment_leak_refuted",
    "C68_groups_refuted",
    "C68_low_rank_refuted",
    "C68_short_vector_refuted"
   ],
   "note": "REFUTED (finding): Conv_Input has no copy constructor of its own, so a copy shares stride_, padding_ and dilation_ without a counter, and destroying both frees them twice (C68_copy_refuted); its operator= has no return statement (C68_assignment_refuted), leaks the three arrays of the left side (C68_assignment_leak_refuted) and does not copy groups_ (C68_groups_refuted); the constructor throws on fewer than two dimensions and reads past short vectors. Without copies and assignments every history is safe (C68_safe_partial), arrays of an object are live, every step releases exactly what loses its object and nothing is leaked, the counter cells included."
  },
  {
   "property": "C69",
   "status": "proved",
   "theorems": [
    "C69_matrix_matrix",
    "C69_matrix_vector",
    "C69_vector_matrix",
    "C69_vector_vector"
   ],
   "note": "On operands of ranks 1 and 2; the result shape is assumed to be representable (fits)."
  },
  {
   "property": "C70",
   "status": "partial",
   "theorems": [
    "C70_sample",
    "C70_cpu_refuted",
    "C70_large_exact"
   ],
   "note": "REFUTED (finding): the convolution test demands the user's result on CUDA while the library runs on the CPU, so the library fails its own test on every CPU sample (C70_cpu_refuted); the tolerance of 1e-3 is absolute, so a result of 2^15 or more must be bit-exact and another order of summation fails (C70_large_exact). Proved: the verdict for any user implementation, and for the library itself on CUDA samples: passes exactly when the correlation is finite (C70_sample). Modelled with the argument list of user_conv2d completed; as written the test does not compile."
  },
  {
   "property": "C71",
   "status": "proved",
   "theorems": [
    "C71_all",
    "C71_axis",
    "C71_exp_exists"
   ],
   "note": "exp is assumed within relative error 1/16 and exact at 0 (exp_std), as C11 F.10.3.1 demands; C71_exp_exists shows the correctly rounded exp qualifies. The one-hot form needs lanes of at most 2^21 elements and a type of at most 32 bits; otherwise results are still 0 or 1."
  },
  {
   "property": "C72",
   "status": "proved",
   "theorems": [
    "C72_rand",
    "C72_stream",
    "C72_exp",
    "C72_garbage",
    "C72_status_only",
    "C72_resolve",
    "C72_fuel",
    "C72_conv_status_varies"
   ],
   "note": "No hypothesis on memory or arguments. Undefined behaviour is itself an outcome here: the theorem says both environments reach it, not what it does. C72_conv_status_varies shows that the exception for the status of convolutions is needed."
  },
  {
   "property": "C73",
   "status": "proved",
   "theorems": [
    "C73_associative",
    "C73_distributive_left",
    "C73_distributive_right",
    "C73_unit_right",
    "C73_unit_left",
    "C73_unit_right_float",
    "C73_unit_left_float"
   ],
   "note": "Equality of results of actual runs in any states that hold the operands. Associativity and distributivity hold for the types whose arithmetic cannot overflow (also when values wrap around); C73_signed_differs shows that for int32 one order can be defined and the other undefined. Unit matrices are neutral for all integer types. For floats the unit matrices are neutral up to the sign of zero when all elements are finite; C73_unit_infinite_differs shows that an infinite element turns the other elements of its row into NaN."
  },
  {
   "property": "C74",
   "status": "proved",
   "theorems": [
    "C74_average",
    "C74_max"
   ],
   "note": "Spatial extents up to 2^51 and element counts per plane up to INT_MAX; fuel of at least one plane. C74_long_differs shows why integers are bounded by 2^53. The identification of max pooling with relu is a consequence of the maximum starting at 0 (see C42)."
  },
  {
   "property": "C75",
   "status": "proved",
   "theorems": [
    "C75_relu",
    "C75_sqrt",
    "C75_sigmoid",
    "C75_exp_exists",
    "C75_add",
    "C75_average",
    "C75_average_float",
    "C75_max",
    "C75_max_float"
   ],
   "note": "The order has -0 and +0 equal and no NaN; infinities are allowed except in average pooling and addition, where inf - inf would be NaN. Pooling of integers assumes both calls are defined (their results may not be representable, see C14); on floats they always are. C75_exp_exists: the correctly rounded exp preserves the order. C75_wraps: integer sums do not."
  },
  {
   "property": "C76",
   "status": "proved",
   "theorems": [
    "C76_relu",
    "C76_sigmoid",
    "C76_tanh",
    "C76_sqrt",
    "C76_cast",
    "C76_arithmetic"
   ],
   "note": "The second calls run in arbitrary memories holding the intermediate tensors. Axes of size 0 in a slice request and steps larger than 1 are included. Squeezing is squeezing without an axis list. The converse fails: after slicing, an operation may be defined or succeed although it is not on the whole tensor."
  },
  {
   "property": "C77",
   "status": "proved",
   "theorems": [
    "C77_pooling",
    "C77_convolution",
    "C77_matrix_product",
    "C77_batch_norm",
    "C77_softmax"
   ],
   "note": "The calls after the selection run in arbitrary memories holding the selected tensors. Selections of samples and channels keep every [t]-th and [u]-th index; the result of a selection must have at most INT_MAX elements, as the slice function requires. Batch normalisation is stated for channels on axis 1. One direction only: the whole computation is assumed to be defined (for convolution and batch normalisation this follows from the other hypotheses)."
  },
  {
   "property": "C78",
   "status": "proved",
   "theorems": [
    "C78_pointwise",
    "C78_unit",
    "C78_fully_connected"
   ],
   "note": "The statuses that aitisa_conv reports are those of C44 (no return value at the end of two functions). The matrix product runs in an arbitrary memory holding the two matrices. An example shows that infinities are not copied by unit filters."
  },
  {
   "property": "C79",
   "status": "proved",
   "theorems": [
    "C79_matrix_product",
    "C79_convolution",
    "C79_elementwise",
    "C79_sums",
    "C79_differences",
    "C79_tanh",
    "C79_average_pooling",
    "C79_relu_parts"
   ],
   "note": "The matrix product is that of two matrices; convolution is for floats, the type it requires. NaN has one representation in the model (no sign, no payload), so the statement says nothing about the sign bit of a NaN."
  },
  {
   "property": "C80",
   "status": "proved",
   "theorems": [
    "C80_matrices",
    "C80_matrices_any",
    "C80_vector",
    "C80_dot"
   ],
   "note": "The transposed matrices are given as further inputs, since the library has no transposition. For int32, int64 and uint16 the elements of the product are assumed not to overflow, as in C31; both factors are on the same device."
  },
  {
   "property": "C81",
   "status": "proved",
   "theorems": [
    "C81_elementwise",
    "C81_matrices",
    "C81_relu"
   ],
   "note": "Targets int32, int64 and uint16 are left out: there the narrower computation may overflow, which is undefined (C28). Quotients and wider targets do not commute (runs in PropNarrow.v)."
  }
 ]
}