# Formal model of aitisa_api in Rocq: design

## What is modelled

The model is an executable shallow embedding of the C code in `/repo/src`, one
Gallina function per C function (or per kernel macro), in the monad `M` of
`rocq/theories/Mem.v`:

* outcome `Done a s | UB u | Abort | Diverge`: undefined behaviour is a distinct
  outcome (out of bounds, NULL, dangling, indeterminate value used, signed
  overflow, division by zero, out-of-range float conversion, bad free, type
  confusion), as are a failed `assert` and a loop that exhausts its fuel;
* state: a heap of blocks (`gmap nat block`), each tagged with the allocator it
  came from, plus counters of allocation requests and `rand()` calls;
* environment: an oracle that decides for every allocation request whether it
  succeeds, the identity of the installed allocator hooks, the results of
  `rand()` and `exp()`, the garbage value seen by callers of functions that
  lack a `return`, and the loop fuel.

| file | models |
|---|---|
| `Base.v` | element types, C integer/float conversions and arithmetic (`src/core/types.*`) |
| `Mem.v` | heap, allocator hooks, typed loads/stores, `memcpy`, loops |
| `ModelCore.v` | `src/core/{utils,shape,storage,tensor,allocator,status,dispatch,types}` |
| `ModelBasic.v` | `src/basic/{index_utils,broadcast,cast,duplicate,factories,reshape,slice,squeeze}` |
| `ModelMath.v` | `src/math/{binary_op,sqrt,matmul,dot}` |
| `ModelNN.v` | `src/nn/{relu,sigmoid,tanh,dropout,softmax,pooling,conv,batch_norm}` |
| `ModelSample.v` | `auto_test/sample.{h,cpp}` |
| `ModelConvInput.v` | the sample class of `auto_test/test_code/conv_test.h` |
| `ModelAuto.v` | `auto_test/basic.{h,cpp}`, operands, runs and comparison of `auto_test/test_code/{binary_op,matmul}_test.h` |
| `ModelAuto2.v` | runs and comparison of `auto_test/test_code/activation_test.h`; `ASSERT_FLOAT_EQ` of googletest |
| `ModelAuto3.v` | run and comparison of `auto_test/test_code/conv_test.h` (its call of `user_conv2d` passes 7 arguments to a function of 10 and does not compile; modelled with the lengths filled in) |

Not modelled: the rest of `auto_test` (gtest wiring, timing, printing, the random
generators of `random_assign`; googletest other
than its float comparison), `src/core/log.h`, `tool/`, tests, the build system; hardware, the C
compiler, real libm/malloc (they are the environment), byte order, strict
alignment, concurrency (the library has no threads or atomics).

### Simplifications and reading choices

* `Tensor *output` is a value passed in (`o`, the variable's old content) and
  returned; a function that does not write it returns `o`.
* Elements in a buffer are memory values: the bytes of one typed element, or
  indeterminate bytes. Reading at a type other than the stored one is `UB_type`;
  reading an indeterminate element yields the value `VU`, whose use in
  arithmetic is undefined.
* Floating point is IEEE 754 binary32/binary64, round to nearest even,
  `FLT_EVAL_METHOD` 0, no contraction into fused multiply-add. NaNs have no payload.
* `exp` is an arbitrary function on doubles (C57-C59 assume a relative error
  bound `exp_close`, which the correctly rounded function meets); `sqrt` is
  correctly rounded, as IEEE 754 asks.
* Implementation-defined choices: two's complement, 8-byte pointers and
  `size_t`, conversion to a narrower signed type modulo 2^n, LP64.
* A request above `PTRDIFF_MAX` bytes fails. A request for 0 bytes may return a
  block or NULL, as the environment says.
* Local arrays and `malloc`ed index arrays that do not escape are lists with
  bounds-checked access; the blocks behind the latter are still requested and
  released on the heap.
* Functions lacking a `return` (`aitisa_resolve`, `conv_float`, `aitisa_conv`)
  return an arbitrary environment value. Strictly, using such a value is
  undefined.
* Copies of length 0 through `memcpy` are no-ops even for NULL.
* `srand(time(NULL))` in dropout is ignored: `rand()` results are arbitrary.
* `assert` is enabled (the default Debug build).
* Loops whose termination is not structural (pooling, batch normalisation) take
  fuel from the environment; running out is `Diverge`. Theorems give the fuel
  needed.
* `ModelSample.v`: `new` that finds no memory throws and ends the program;
  the sample classes are transcribed member by member.
* `ModelConvInput.v`: flowing off the end of `Conv_Input::operator=` is undefined, as
  C++ says, unlike the C functions above; the body before it is a definition of its own.

## How properties are stated

`Spec.v` contains the vocabulary a reader needs: the abstract tensor (type,
device, dims, element list), `holds h p T` (handle `p` denotes tensor `T` in heap
`h`), the exact footprint of a freshly created tensor, row-major ravel/unravel,
and the mathematical meaning of each operation on dims and element lists. The
other `Spec*.v` files extend it: `SpecReal` (rounding, over Flocq's reals),
`SpecNN` and `SpecNorm` (windows, lanes, channels), `SpecHeap`, `SpecHist`,
`SpecProg` (operations, client histories, programs), `SpecUnknown` (unknown type
codes), `SpecFault` and `SpecLeak` (refused allocations), `SpecSample` (sample
objects), `SpecError`, `SpecSoft`, `SpecExp`, `SpecSoftInt`, `SpecExact` (error bounds, exactness),
`SpecProduct`, `SpecBatch`, `SpecDot`, `SpecSqueeze`, `SpecCreate` (when products,
contractions, squeezing and creation are defined).

The theorems are in `Prop*.v`, each closed by `exact`, followed by `Print
Assumptions` and accompanied by `Example`s that exhibit a concrete instance of
the hypotheses. If a property is false of the faithful model it is proved as
`..._refuted`, next to the strongest positive theorem; the latter is named
`..._partial` if it covers less than the property says. `MANIFEST.json` lists
the theorems per property, with status `partial` for every property that is
false as stated.

`Conform.v` replays the project's own unit tests in the model and checks that
the model computes the values these tests expect. It is a test of the model, not
a proof.

## Plan per property

| id | modelled by | proof |
|---|---|---|
| C01, C02, C05, C06, C54 | `aitisa_create`, shape, storage | symbolic execution over any heap and allocator oracle; C06, C54 refuted |
| C03 | `aitisa_destroy` | exact heap equation; create/destroy identity |
| C04 | command language over the API | induction over command lists, refinement to a map of abstract tensors |
| C07, C08 | `aitisa_resolve` | symbolic execution; C08 refuted |
| C09 | `aitisa_tensor_set_item` | frame + update of the element list |
| C10-C12 | index utilities | induction over dims (mixed radix arithmetic), permutations |
| C13, C14 | `aitisa_broadcast_array` | loop invariant = structural right-aligned spec; C14 refuted |
| C15-C18 | full, cast | element-wise kernel lemma; C17 refuted; C18 numeric lemmas |
| C19-C21 | reshape, squeeze | memcpy lemma; loops over dims; C21 refuted parts |
| C22-C25 | slice, duplicate | odometer = mixed radix digits; C24 through IEEE reasoning; C23, C25 refuted parts |
| C26-C28 | binary_op | element-wise kernel lemma; C28 refuted, positive for u8/i8/... |
| C29, C30 | sqrt | kernel lemma with early exit; numeric lemma; 64-bit refuted |
| C31-C33 | matmul | nested accumulation loops = fold; batch indices = unravel; C33 refuted |
| C34-C36 | dot | composition of slice/full/mul + kernels; C36 refuted |
| C37-C40 | relu, sigmoid, tanh, softmax, dropout | kernel lemmas |
| C41-C43 | pooling | loop invariants over odometer; C42 refuted on negatives; fuel bound |
| C44, C45 | conv | loop invariants; C45 refuted |
| C46 | batch_norm | composition; per-channel scatter/gather |
| C47, C48 | all | frame logic over lists of owned items, one rule per function |
| C49 | all | schedules of refused requests; refuted for the unchecked ones |
| C50 | all | allocator tags; hooks changed together; binary_op refuted |
| C51 | all | corollaries of functional theorems and of arithmetic |
| C52 | all | symbolic execution with a code outside 0..9 |
| C53 | `auto_test/sample` | transition system of handles, invariant; refuted operations |
| C55 | matmul, dot, conv | standard model of rounding, induction over the accumulation |
| C56-C59 | softmax, sigmoid, tanh | relative error algebra over the reals, monotone rounding |
| C60, C61 | sqrt, arithmetic, cast | rounding of integers; first failing index of the loop |
| C62 | create and its callers | compositional balance of granted requests |
| C63-C65 | `auto_test/basic`, `test_code` | loop invariant over the filled prefix, error algebra; comparison loops as scans; C65 refuted |
| C66, C70 | `auto_test/test_code`, `sample` | comparison loop as a scan, composed with the operator theorems |
| C67 | pooling, batch_norm | standard model of rounding |
| C68 | `conv_sample.h` | transition system of samples, invariant |
| C69 | matmul | every outcome: the stuck index of each loop, next to the positive theorem |
| C71 | softmax on integers | exact outcome of C39, then exp of an integer against the type's range in the reals |
| C72 | what an outcome depends on | two runs in environments that differ in one oracle (random stream, exp, garbage, fuel) are related step by step; only dropout, the three exponentials and the status of convolution and resolve are sensitive |

## Trusted base

* Coq 8.16.1's kernel (including `vm_compute`), std++, Flocq and the standard library.
* The reading of the C code recorded in the model's comments (file:line), with
  the simplifications above.
* No axiom is declared in this development. `Print Assumptions` lists, per
  theorem (names abbreviated to the part after `Cnn_`):

**Closed under the global context** (251 theorems)

C01: create_any_dtype, create_fresh, created_denotes, created_preserves; C02: create_over_buffer, length_mismatch; C03: create_destroy_restores, destroy_created, destroy_exact, destroy_null, destroy_twice; C04: memory; C05: create_any_allocator, create_data_any_allocator; C06: failed_create_leaks_nothing_refuted, first_failure_partial, mismatch_always_leaks_refuted; C07: resolve_reports; C08: exact, resolve_length_refuted, resolve_status_refuted; C09: set_item_one_block, set_item_out_of_range, set_item_owned; C10: coords_to_index_and_back, index_to_coords_and_back; C11: all_strides, coords_to_offset_and_back, offset_is_linear_index, offset_to_coords_and_back, one_stride; C12: out_of_range_aborts; C13: associative, joint_shape, pairwise_maximum, success_iff, symmetric; C14: exact, zero_extent_refuted; C15: full, undefined_count, undefined_value; C16: cast; C17: cast_to_own_type_never_refuted, cast_to_own_type_refuted; C18: pairs; C19: back, mismatch, reshape; C20: squeeze_all; C21: every, large_axis, large_axis_refuted, negative_axis, negative_count, repeated_axis, repeated_axis_refuted, squeeze_named, zero_extent, zero_extent_refuted; C22: elements; C23: first_axis, overflow_refuted, scalar_refuted, slice_rejects; C24: ceiling; C25: scalar_refuted, zero_extent; C27: dims_mismatch, not_cpu, type_mismatch; C28: int32_refuted, total_partial, uint16_refuted; C31: inner_integer, matrix_matrix, matrix_vector, mismatch, result_exists, vector_matrix, vector_vector; C32: batch_matrix, batch_vector, exact_batch_matrix, exact_batch_vector, exact_vector_batch, vector_batch; C33: batch_partial, bounds_refuted, not_cpu_partial, scalar_partial, type_refuted, types_always_refuted, vector_types; C34: dot_is_matmul, matrices, types, vectors, vectors_mismatch; C35: other_ranks, tensor_tensor_mismatch, tensor_vector_mismatch, zero_extent; C36: defined_refuted, exact_refuted, other_types_partial; C38: sigmoid_refused_types, tanh_refused_types; C39: all, all_float, axis, axis_float, exact_all, exact_axis, integer_refuted, other_axes; C40: only_dropout_draws; C41: extent_refuted, int64_refuted, rank, too_large; C42: mode_refuted; C43: batch_norm, stride_needed, terminates; C44: 2d, 3d, convolution, exact, exact_any, types, windows; C45: filter_type_always_refuted, filter_type_refuted, groups_refuted, large_filter_refuted, negative_always_refuted, no_channels_always_refuted, no_channels_refuted, no_position_always_refuted, status_refuted; C46: accepts, empty_refuted, negative_variance_refuted, rejects; C47: inputs_unchanged, queries; C48: no_leak; C49: arithmetic_refuted, batch_norm_refuted, conv_refuted, dot_scalar_left_refuted, dot_scalar_right_refuted, matmul_tt_refuted, matmul_tv_refuted, matmul_vt_refuted, pooling_refuted, reported_partial, softmax_output_refuted; C50: all_through_hook_refuted, changed_alive_refuted, foreign_hook_always_refuted, no_bad_free, not_together_refuted, only_the_hook_partial, release; C51: cast_cast, cast_reshape, dot_matmul, reshape_reshape, squeeze_reshape; C52: arithmetic_refuted, batch_norm_refuted, cast, cast_same_refuted, conv, dot_refuted, dot_scalar, elementwise, full_refuted, matmul_matrix_refuted, matmul_refuted, reshape_refuted, softmax; C53: assignment_leak_refuted, counters_partial, end_partial, live_partial, move_then_copy_refuted, moved_from_refuted, overflow_refuted, release_partial, result_leak_refuted, safe_partial, sample_destroy, sample_leak_refuted, sample_move, self_assignment_refuted, set_data_leak_refuted, short_vector_refuted, short_vectors_refuted, step_partial, tensor_over_sample_hooks_refuted, tensor_over_sample_refuted; C54: every, negative_count_partial, negative_extents_refuted; C62: balance, count, create, no_leak_refuted; C63: unknown_type; C64: compare, devices, int_exact, sample; C65: cuda_refuted, narrow_refuted; C66: sample; C68: assignment_leak_refuted, assignment_refuted, copy_refuted, groups_refuted, live_partial, low_rank_refuted, no_leak_partial, safe_partial, short_vector_refuted, step_partial; C69: matrix_matrix, matrix_vector, vector_matrix, vector_vector; C72: conv_status_varies, exp, fuel, garbage, rand, resolve, status_only, stream; C73: unit_left, unit_right; C79: differences, elementwise, matrix_product, sums; C80: dot, matrices, vector; C81: elementwise

**`ClassicalDedekindReals.sig_forall_dec`, `FunctionalExtensionality.functional_extensionality_dep`** (15 theorems; axioms of the standard library's real numbers, through Flocq)

C37: idempotent, relu, total, unsigned; C42: max_refuted; C46: integers_refuted; C51: relu_relu; C55: bound, no_overflow; C56: bound; C57: bound; C58: bound; C67: average_bound; C75: relu; C79: relu_parts

**`ClassicalDedekindReals.sig_forall_dec`, `ClassicalDedekindReals.sig_not_dec`, `FunctionalExtensionality.functional_extensionality_dep`** (1 theorems; axioms of the standard library's real numbers, through Flocq)

C67: batch_norm_bound

**`ClassicalDedekindReals.sig_forall_dec`, `ClassicalDedekindReals.sig_not_dec`, `Classical_Prop.classic`, `FunctionalExtensionality.functional_extensionality_dep`** (168 theorems; axioms of the standard library's real numbers, through Flocq)

C04: programs; C16: conversion; C18: widen_and_back; C22: slice, undefined_count; C23: every_scalar_refuted; C24: extent, extent_wide; C25: duplicate, every_tensor, truncation_refuted; C26: arithmetic; C29: negative, sqrt; C30: always_refuted, boundary, exact, floor_partial, int64_refuted; C31: inner_defined, inner_value; C35: exact_tensor_tensor, exact_tensor_vector, tensor_tensor, tensor_vector; C36: fits, left_partial, nearest, right_partial, scalar_left, scalar_right; C38: sigmoid, sigmoid_total, sigmoid_value, tanh, tanh_total, tanh_value; C40: dropout, empty_refuted, nan_refuted, rate_one, rate_rejected, rate_zero; C41: average, exact, float, integer; C42: computes, exact, max_partial, mode_always_refuted; C43: average_steps, max_steps; C44: defined, integers; C45: groups_always_refuted, large_filter_always_refuted, success_partial, two_negative_always_refuted; C46: batch_norm, exact, floats, meaning, success_iff; C49: dot_tt_refuted, dot_tv_refuted, dropout_refuted, duplicate_refuted, slice_refuted; C51: add_sub, commute, div_self, slice_full, slice_slice, sub_self, sub_self_float; C52: dropout, duplicate, pooling, slice; C55: convolution, dot_tensor_vector, dot_tensors, dot_vectors, matmul_batch, matmul_batch_vector, matmul_matrix_matrix, matmul_matrix_vector, matmul_vector_batch, matmul_vector_matrix, matmul_vector_vector; C56: all_partial, axis_partial, overflow_refuted, underflow_refuted; C57: exp_exists, sigmoid; C58: odd, relative_refuted, tanh; C59: all_partial, axis_partial, overflow_refuted, underflow_refuted; C60: integer_root; C61: arithmetic, arithmetic_undefined, cast, cast_undefined; C63: natural_assign, operand; C64: float_exact, float_tolerance; C65: cpu, natural, natural_always_refuted, natural_exact; C66: double, double_refuted, float, itself, relu_itself, tanh_itself_refuted; C67: average, batch_norm, small_eps_always_refuted, small_eps_refuted; C70: cpu_refuted, large_exact, sample; C71: all, axis, exp_exists; C73: associative, distributive_left, distributive_right, unit_left_float, unit_right_float; C74: average, max; C75: add, average, average_float, exp_exists, max, max_float, sigmoid, sqrt; C76: arithmetic, cast, relu, sigmoid, sqrt, tanh; C77: batch_norm, convolution, matrix_product, pooling, softmax; C78: fully_connected, pointwise, unit; C79: average_pooling, convolution, tanh; C80: matrices_any; C81: matrices, relu

## Findings

Properties that are false of the code as modelled, and what is true instead
(theorem names as in `MANIFEST.json`).

* **C06** (A failed creation leaks nothing): REFUTED (finding): create leaks when a later allocation fails or when the caller's buffer length does not match; both runs are exhibited. C06_first_failure_partial is the true remainder: failure of the first allocation leaves memory as it was.
* **C08** (Resolve reports success and the full byte length): REFUTED (finding): aitisa_resolve falls off its end (no return statement), so the returned status is unspecified, and len is truncated to 32 bits. C08_exact gives the outcome for every tensor: the status is whatever was left in the register, everything else is right except that the length is right exactly below 4 GiB. See also C07.
* **C14** (Broadcasting a 0 extent against 1 gives 0): REFUTED (finding): broadcasting 0 against 1 yields extent 1. C14_exact: for every pair of shapes, the computed shape is the joint shape if and only if no extent below 1 is aligned with a 1.
* **C17** (A successful cast always produces a tensor): REFUTED (finding): casting to the tensor's own type returns SUCCESS without writing *output, for every tensor.
* **C21** (Squeeze with axes removes exactly the named unit extents, safely): REFUTED in part (finding): repeated axes, too large axes and zero extents all reach undefined behaviour (the three *_refuted theorems). The remaining clauses are proved for all inputs: C21_squeeze_named, C21_negative_axis, C21_negative_count. C21_large_axis, C21_repeated_axis and C21_zero_extent are these findings for every such input, and C21_every gives the outcome for every list of axes in range (allocation refused, out of bounds, uninitialised, mismatch, or the squeezed tensor).
* **C22** (Slice selects exactly the strided box): REFUTED in part (finding): a box of more than INT_MAX elements overflows the int loop counter (C22_undefined_count). C22_slice is the claim for all others.
* **C23** (Slice rejects every invalid request): REFUTED in part (finding): begin+size is an int addition that can overflow (undefined behaviour) and every rank-0 slice writes out of bounds (C23_every_scalar_refuted). C23_slice_rejects proves the rejection for every invalid request whose begin+size does not overflow; C23_first_axis gives the exact verdict at the first axis that is not in order.
* **C25** (Duplicate makes an equal, independent copy): REFUTED in part (finding): rank-0 tensors reach undefined behaviour, and extents above INT_MAX are truncated silently. C25_duplicate and C25_zero_extent are the true parts; C25_every_tensor gives the outcome for every tensor when no allocation is refused (undefined, refused, or a copy of the box of truncated extents).
* **C26** (Elementwise arithmetic): REFUTED in part (finding): tensors of more than INT_MAX elements overflow the int loop counter (C61_arithmetic_undefined), and the result of malloc is not checked (C49). C26_arithmetic is the claim for all other tensors; C61 gives the exact condition.
* **C28** (Integer arithmetic never has undefined behaviour): REFUTED (finding): int32 addition and uint16 multiplication overflow (undefined behaviour). C28_total_partial: int8, uint8, int16, uint32 and uint64 never overflow.
* **C30** (Integer square root is the floor of the root): REFUTED (finding) for 64-bit types: the root goes through double and can be one too large. C30_floor_partial proves the claim for all values below 2^52, hence for all types of at most 32 bits. C30_exact gives the result for every integer tensor (the root, or one more exactly when the nearest double is close enough to the next square); C30_boundary: right for all values below 2^52 and wrong one below the square of every integer above 2^26 (C30_always_refuted).
* **C31** (Matrix multiplication of ranks 1 and 2): REFUTED in part (finding): extents beyond INT_MAX overflow the int loop counters, as may the accumulated sums of int32, int64 and uint16; C69 gives the exact condition and the outcome otherwise. All four rank combinations, under any allocator. Side conditions: extents at most INT_MAX (the kernels count in int) and every inner product defined in C (C31_inner_defined: always so except for int32, int64, uint16, whose accumulation can overflow).
* **C32** (Batched matrix multiplication broadcasts batches): REFUTED in part (finding): a broadcast result with more than INT_MAX elements, a contracted extent above INT_MAX or an overflowing inner product is undefined. C32_exact_* decide every case with positive extents and a representable result shape: the product as stated when batch_ok holds, signed overflow otherwise. Memory is assumed to be available (the scratch allocations are not checked by the code).
* **C33** (Matmul rejects operands it cannot multiply): REFUTED in part (finding): operand types are never compared, so the second operand is read at the first operand's type. C33_types_always_refuted shows that every pair of operands of different types that has a product, whatever the ranks (vector, matrix, stacks of matrices with broadcasting), is undefined behaviour; C33_bounds_refuted gives the out-of-bounds case. The shape part holds: C31_mismatch, C33_scalar_partial, C33_batch_partial (which also leaks one block), C33_not_cpu_partial.
* **C34** (Dot of vectors and of matrices): REFUTED in part (finding): vectors longer than INT_MAX overflow the int loop counter (C34_dot_is_matmul with C69_vector_vector). C34_dot_is_matmul: on vectors aitisa_dot and aitisa_matmul are equal whatever the operands and the allocator. Vector length at most INT_MAX (int loop counter in the C code).
* **C35** (Dot of a tensor with a vector and of two tensors): REFUTED in part (finding): the code counts results and byte offsets in int, so a result of more than INT_MAX vectors, a tensor-vector result beyond 2 GiB or an overflowing inner product is undefined. C35_exact_* decide every case whose extents are in 1..INT_MAX and whose result shape is representable. Allocations are assumed to succeed; extents above INT_MAX (which the code converts to int) are not covered. A zero contracted extent is rejected after *output is set (C35_zero_extent).
* **C36** (Dot with a scalar scales every element exactly): REFUTED (finding): the scalar is read as a double and converted back (dot.c get_value / aitisa_full), so an int64 scalar 2^53+1 is replaced by 2^53 and INT64_MAX makes the conversion undefined (C36_exact_refuted, C36_defined_refuted). Proved: exact scaling for every type when an integer scalar is at most 2^53 in magnitude, hence for every value of all types but the 64-bit integers. For every integer scalar C36_scalar_left and C36_scalar_right give the outcome: the tensor is multiplied by the double nearest to the scalar, and the conversion back is undefined exactly when that double does not fit the type (C36_fits).
* **C39** (Softmax normalises each lane along the axis): REFUTED in part (finding): on integer tensors the exponential is converted to the element type before normalising, which is undefined when it is out of range. C39_exact_all and C39_exact_axis give the exact outcome for every tensor: the reference result when it exists, undefined behaviour otherwise (C71 says when, for integers). Proved for every float/double tensor (C39_all_float, C39_axis_float); axis form under 2*size <= INT64_MAX (implied by representability except for 1-byte types).
* **C40** (Dropout zeroes a random subset and keeps the rest): REFUTED in part (finding): a NaN rate passes the range check and reaches an undefined conversion on every tensor; tensors with a zero extent are refused. The rest is proved for every tensor with positive int extents, every rate in [0,1] and every random sequence.
* **C41** (Pooling output shape and window averages): REFUTED in part (finding): averages of int64 elements near INT64_MAX convert an out-of-range double (undefined), and output extents are computed in double and are wrong above 2^53. Proved for every input with 1-3 spatial axes of extent <= 2^51 and every positive parameter in int range: C41_average (all element types, whenever the conversions are defined), C41_float (unconditional on float types), C41_integer (exact truncated quotient for bounded integers). Also: other ranks refused, too large windows refused with INVALID_ARGUMENT but six scratch blocks leak. C41_exact decides every such input: the averages when all of them exist, undefined behaviour (the conversion back) as soon as one does not.
* **C42** (Max pooling returns the window maximum): REFUTED (finding): the running maximum starts at 0, so a window of negative numbers yields 0 (C42_max_refuted; C42_max_partial shows this happens for exactly the windows without an element >= 0 and that all others give the true maximum). An unknown mode string returns SUCCESS with unwritten output (C42_mode_refuted). C42_mode_always_refuted: this is so for every input. C42_exact decides every input: the maxima with 0 when all of them exist, undefined behaviour as soon as one does not convert back.
* **C45** (Convolution reports its outcome faithfully): REFUTED (finding): conv_float and aitisa_conv fall off their end without a return, so the status is indeterminate (C45_status_refuted; C45_success_partial: success is reported exactly as far as that indeterminate value happens to be STATUS_SUCCESS); a kernel larger than the padded input is not rejected and yields values, negative extents or an abort (C45_large_filter_refuted); groups is ignored and grouped filters abort (C45_groups_refuted); zero input channels leave the output unwritten; the filter's element type is not checked. C45_no_channels_always_refuted is the last finding but one for every input. C45_groups_always_refuted: for every initialised input and filter with fewer (but some) channels than the input, the call aborts as soon as some window has an element of the input in it. C45_filter_type_always_refuted: for every filter of another element type of at least four bytes the call is then undefined. The large filter for every input: by less than a step it yields values (C45_large_filter_always_refuted); by more, an empty tensor when an extent is 0 and none negative (C45_no_position_always_refuted), STATUS_ALLOC_FAILED and eight leaked arrays when the number of elements is negative (C45_negative_always_refuted), an abort when two extents are negative (C45_two_negative_always_refuted).
* **C46** (Batch normalisation normalises every channel): C46_batch_norm proves the formula at every coordinate for every element type, ranks 2-5 and both channel axes (extents positive and within int; with 3+ axes the per-channel byte offsets, which the code computes in uint32_t, below 2^32); C46_meaning reads it over the reals; C46_floats shows it is always defined and produced for initialised floats with non-negative variances; C46_rejects/C46_accepts give the verdict of the checks, with no effect on refusal. C46_exact lists every outcome of an accepted call on initialised tensors (success with exactly the formula, UB when epsilon, a sum or an element does not exist in the element type, MATH_ERROR for a negative sum, and which of them comes first for rank 2 and for higher ranks); C46_success_iff: it succeeds exactly when all denominators and elements exist. REFUTED (findings): a negative variance is only noticed after the output was allocated and *output overwritten, and leaks four tensors (C46_negative_variance_refuted); integer inputs with var+eps = 0 or a NaN epsilon are undefined behaviour (C46_integers_refuted); a zero spatial extent is refused after *output was replaced (C46_empty_refuted).
* **C49** (Allocation failure inside an operation is reported, not fatal): REFUTED (finding): convolution, pooling, batched matrix products, slice, duplicate, dropout, element-wise arithmetic, batch normalisation and dot (a scalar with a tensor, a tensor with a vector, two tensors) dereference the result of a refused request: undefined behaviour for every valid call when the named request is refused. Softmax and slice report the failure but leave an indeterminate *output. What holds: creation, full, cast, reshape, squeeze, sqrt, products of vectors and matrices, dot on vectors and matrices, relu, sigmoid, tanh and softmax, with arbitrary arguments and an arbitrary set of refused requests, report every refusal with STATUS_ALLOC_FAILED and keep existing memory.
* **C50** (Allocator hooks are used consistently): First half proved (C50_release, C50_no_bad_free). REFUTED (finding): elementwise operations, dot and batch normalisation call malloc() directly; with a hook that always has memory aitisa_add can still dereference NULL (C50_all_through_hook_refuted). All other operations use only the hook (C50_only_the_hook_partial). C50_foreign_hook_always_refuted: under a deallocation hook of another allocator no live tensor or buffer of any history can be released.
* **C52** (Unknown type codes are refused): Refusal with NOT_SUPPORTED proved for sqrt, relu, sigmoid, tanh, cast, softmax, slice, duplicate, dropout, convolution, pooling and dot with a scalar, without any hypothesis on the operand's buffer (so its elements are never accessed). REFUTED (finding) for full, arithmetic, matmul of vectors and matrices, dot and batch_norm (function table indexed out of bounds: undefined behaviour for every unknown code), for a cast to the tensor's own code and for reshape (both report SUCCESS).
* **C53** (Auto-test sample handles free their buffers exactly once): REFUTED (finding): self-assignment of an unshared input double-frees; copying or assigning a moved-from object dereferences NULL; operator= and ~Result leak the counter cell; set_data on an object leaks its old buffer; INT_MAX copies overflow the counter; get_binary_sample's tensors free the sample's buffers. Under the discipline of SpecSample (none of these) every history is safe, owned buffers are live, and each buffer is released exactly by the step that removes its last owner. A std::vector of extents shorter than ndim is read past its end (C53_short_vector_refuted). Whole samples: the move constructor of Sample copies, leaving the source alive (C53_sample_move); destroying a sample releases exactly what nothing else owns (C53_sample_destroy); every sample made and destroyed leaves the counter of its result behind (C53_sample_leak_refuted).
* **C54** (Create accepts only meaningful shapes): REFUTED (finding): extents are never checked for sign; any list with a non-negative size in bytes is accepted, negative extents included. C54_every gives the outcome for every list when no allocation is refused: accepted, reported as an allocation failure (negative size; memory leaked), or signed overflow (also for tensors without elements).
* **C56** (Softmax of finite inputs is a probability distribution): REFUTED (finding): no maximum is subtracted before exponentiation, so every lane with an exponential that overflows to infinity contains NaN (C56_overflow_refuted), as does every lane whose exponentials all underflow to 0 (C56_underflow_refuted). C56_axis_partial and C56_all_partial prove the property for lanes whose exponentials are finite, not all 0, and with a sum below half the largest double; C56_bound simplifies the bound. Order is that of the exponentials: exp is an arbitrary function of the model's environment.
* **C58** (Tanh approximates the hyperbolic tangent): REFUTED (finding): under every accurate exp, tanh is NaN for all |x| >= 710 (inf/inf; last clauses of tanh_close in C58_tanh), where the true value is +-1; and near 0 there is no relative accuracy: even with the correctly rounded exp all elements of magnitude up to 2^-55 are sent to 0 (C58_relative_refuted). C58_tanh also proves the absolute error bound for |x| <= 709 (simplified by C58_bound), and between 709 and 710 the same bound or NaN, as exp is finite or not; C58_odd: exactly odd, for all elements
* **C59** (Softmax approximates the mathematical softmax): REFUTED (finding): under every accurate exp, one finite element of at least 89 (float) or 710 (double) gives NaN (C59_overflow_refuted), and so do float elements all at most -105 (C59_underflow_refuted). C59_all_partial and C59_axis_partial prove the bound for elements between -80 and 88 (float) or -600 and 672 (double).
* **C62** (A call that fails for lack of memory releases what it was granted): REFUTED (finding): none of the eight operations releases anything on its error paths. C62_no_leak_refuted: whenever the (j+1)-th of its requests is the first refused, the call returns STATUS_ALLOC_FAILED with exactly its j granted blocks leaked. C62_balance is the general balance under any allocator, C62_count turns it into numbers of blocks, C62_create gives the numbers for aitisa_create (5 requests, 3 for rank 0).
* **C65** (The library registered as its own user implementation passes its own tests): REFUTED (finding): on CUDA samples the library refuses its operands, the unset result is resolved and the behaviour is undefined (C65_cuda_refuted); 256 naturally assigned uint8 contain a zero divisor (C65_narrow_refuted). C65_cpu: on CPU samples the verdict is true iff every float result element is finite; C65_natural: naturally assigned arithmetic samples of wide types and any shape pass. C65_natural_exact and C65_natural_always_refuted decide every naturally assigned arithmetic sample below 4 GiB, of every type (the narrow ones included): it passes if no element operation is undefined, and otherwise the harness is undefined for every user.
* **C66** (The activation harness accepts a user implementation exactly when it computes what the library does): REFUTED (finding): the activation harness demands the result on device 1 (CUDA), so the library on the CPU never passes its own samples (C66_itself); tanh fails against itself on CUDA whenever an element is at least 710 in magnitude (C66_tanh_itself_refuted); double samples are rounded to float before ASSERT_FLOAT_EQ, so all doubles from 2^128 are equal (C66_double_refuted). Proved: the verdict for any user implementation (C66_sample), the exact meaning of ASSERT_FLOAT_EQ as four units in the last place (C66_float, C66_double), relu always passes on CUDA (C66_relu_itself).
* **C67** (Average pooling and batch normalisation of floats are accurate): Proved for average pooling of floats with windows of up to 2^53 cells (C67_average), and for batch normalisation with a non-negative variance and an epsilon that is at least the smallest normal number of the type (C67_batch_norm); both directions: a finite result is within the bound, and arguments whose intermediate results stay in range give a finite result. REFUTED (finding) for a smaller positive epsilon: it is rounded to the element type before use, so a variance of 0 gives NaN and infinity where the formula is 1 or about 2^110 (C67_small_eps_refuted); C67_small_eps_always_refuted: for every float32 tensor and every epsilon below 2^-150 no element of a channel with variance 0 is finite.
* **C68** (Convolution samples own their arrays: released exactly once, none leaked): REFUTED (finding): Conv_Input has no copy constructor of its own, so a copy shares stride_, padding_ and dilation_ without a counter, and destroying both frees them twice (C68_copy_refuted); its operator= has no return statement (C68_assignment_refuted), leaks the three arrays of the left side (C68_assignment_leak_refuted) and does not copy groups_ (C68_groups_refuted); the constructor throws on fewer than two dimensions and reads past short vectors. Without copies and assignments every history is safe (C68_safe_partial), arrays of an object are live, every step releases exactly what loses its object and nothing is leaked, the counter cells included.
* **C70** (The convolution test accepts exactly the users that compute the library's correlation): REFUTED (finding): the convolution test demands the user's result on CUDA while the library runs on the CPU, so the library fails its own test on every CPU sample (C70_cpu_refuted); the tolerance of 1e-3 is absolute, so a result of 2^15 or more must be bit-exact and another order of summation fails (C70_large_exact). Proved: the verdict for any user implementation, and for the library itself on CUDA samples: passes exactly when the correlation is finite (C70_sample). Modelled with the argument list of user_conv2d completed; as written the test does not compile.
