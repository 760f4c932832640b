{"id": "C01", "title": "Creating a tensor without data", "statement": "aitisa_create called with data == NULL and dimensions whose element count and byte size are representable returns STATUS_SUCCESS with a handle to a tensor that has exactly the requested data type, device, rank and dimensions, row-major layout, size equal to the product of the dimensions, and a private uninitialised buffer of size*dtype.size bytes; no memory that existed before the call changes.", "quantifier": "every data type, device, rank, dimension list and prior heap in which memory is available", "why_tests_cant": "ranks and dimension lists are unbounded and the frame condition speaks about all of memory", "anchors": ["src/core/tensor.c:aitisa_create", "src/core/shape.c:aitisa_create_shape", "src/core/storage.c:aitisa_create_storage", "src/core/utils.h:size_of_dims"]}
{"id": "C02", "title": "Creating a tensor over a caller's buffer", "statement": "aitisa_create with data != NULL makes the tensor use that very buffer (no copy) when len/dtype.size equals the element count, and otherwise returns STATUS_INVALID_ARGUMENT leaving *output and the caller's buffer unchanged.", "quantifier": "every buffer, length, data type, dimension list and heap", "why_tests_cant": "the accept/reject boundary is over all lengths and shapes; aliasing of the buffer is not observable on one run", "anchors": ["src/core/tensor.c:aitisa_create", "src/core/storage.c:aitisa_create_storage"]}
{"id": "C03", "title": "Destroy releases exactly the tensor, once", "statement": "aitisa_destroy on a live tensor frees every block that belongs to it (header, dims, layout, storage, data) and nothing else, sets the variable to NULL and returns STATUS_SUCCESS; a second aitisa_destroy of the same variable does nothing; create followed by destroy restores memory exactly. Destroying through a stale copy of the handle is undefined behaviour.", "quantifier": "every live tensor, heap and history leading to it", "why_tests_cant": "leaks and double frees are invisible to value-based tests and depend on the whole heap", "anchors": ["src/core/tensor.c:aitisa_destroy", "src/core/shape.c:aitisa_destroy_shape", "src/core/storage.c:aitisa_destroy_storage"]}
{"id": "C04", "title": "Any client history is memory safe and behaves like a map of values", "statement": "For every finite sequence of API calls whose arguments satisfy the documented preconditions, no call has undefined behaviour, each returns the status and tensor value given by a simple mathematical specification, tensors held by different variables never share memory, and memory consists exactly of the live tensors plus blocks leaked by calls that reported an error or overwrote a live variable.", "quantifier": "all finite operation sequences over any number of tensor variables", "why_tests_cant": "histories are unbounded; tests run a handful of scripts", "anchors": ["src/core/tensor.c", "src/basic", "src/math", "src/nn"]}
{"id": "C05", "title": "Creation survives any allocation failure", "statement": "Whichever of its internal allocations fails, aitisa_create returns STATUS_ALLOC_FAILED, does not write *output, has no undefined behaviour and changes no block that existed before.", "quantifier": "every allocator failure schedule (every crash point), data type, shape and heap", "why_tests_cant": "requires failing malloc at every point for every shape", "anchors": ["src/core/tensor.c:aitisa_create", "src/core/shape.c", "src/core/storage.c"]}
{"id": "C06", "title": "A failed creation leaks nothing", "statement": "If aitisa_create returns an error, memory is exactly as before the call.", "quantifier": "every failing call", "why_tests_cant": "leaks on error paths need fault injection and heap inspection", "anchors": ["src/core/tensor.c:aitisa_create", "src/core/storage.c:aitisa_create_storage"]}
{"id": "C07", "title": "Resolve reports the creation parameters", "statement": "aitisa_resolve returns the tensor's data type, device, rank, dims and data pointer exactly as held by the tensor, without copying or changing memory, and len is the buffer size in bytes whenever that is below 2^32.", "quantifier": "every live tensor", "why_tests_cant": "all shapes, and aliasing of the returned pointers", "anchors": ["src/core/tensor.c:aitisa_resolve"]}
{"id": "C08", "title": "Resolve reports success and the full byte length", "statement": "aitisa_resolve returns STATUS_SUCCESS and len equals size*dtype.size for every tensor.", "quantifier": "every live tensor", "why_tests_cant": "needs tensors above 4 GiB, and an indeterminate return value can look right by luck", "anchors": ["src/core/tensor.c:aitisa_resolve"]}
{"id": "C09", "title": "Setting an item changes that item only", "statement": "aitisa_tensor_set_item at index i (0 <= i < size) makes element i the given value and leaves every other element, every other tensor and all metadata unchanged; an index outside [0,size) of an exactly sized buffer is undefined behaviour.", "quantifier": "every tensor, index and value", "why_tests_cant": "frame condition over all other memory", "anchors": ["src/core/tensor.h:aitisa_tensor_set_item"]}
{"id": "C10", "title": "Linear index and coordinates are inverse bijections", "statement": "aitisa_linidx_to_coords and aitisa_coords_to_linidx are inverse bijections between [0,size) and the box of valid coordinates, and the linear index is the row-major (last axis fastest) position.", "quantifier": "every shape, every index and every coordinate vector", "why_tests_cant": "unbounded ranks and dims", "anchors": ["src/basic/index_utils.c:aitisa_coords_to_linidx", "src/basic/index_utils.c:aitisa_linidx_to_coords"]}
{"id": "C11", "title": "Offset, strides and coordinates agree for every layout", "statement": "For any layout order that is a permutation of the axes, aitisa_coords_to_offset and aitisa_offset_to_coords are inverse bijections between the coordinate box and [0,size), the offset is the dot product of the coordinates with the strides of aitisa_get_all_strides, aitisa_get_stride gives the same strides one at a time, and for tensors made by aitisa_create the offset equals the linear index.", "quantifier": "every shape, every permutation layout, every coordinate", "why_tests_cant": "factorially many layouts", "anchors": ["src/basic/index_utils.c:aitisa_get_stride", "src/basic/index_utils.c:aitisa_get_all_strides", "src/basic/index_utils.c:aitisa_coords_to_offset", "src/basic/index_utils.c:aitisa_offset_to_coords"]}
{"id": "C12", "title": "Out-of-range indices are always caught in debug builds", "statement": "With assertions enabled, the four conversions abort exactly when the index or a coordinate is out of range (or the coordinate count is wrong), and never read or write out of bounds.", "quantifier": "every shape, index, coordinate vector and length", "why_tests_cant": "exact boundary over all inputs", "anchors": ["src/basic/index_utils.c"]}
{"id": "C13", "title": "Broadcasting computes the right-aligned joint shape", "statement": "aitisa_broadcast_array succeeds exactly when, right-aligned, every pair of extents is equal or contains a 1; the result is then the pairwise maximum with the extra leading extents copied. It is symmetric in its arguments and associative up to failure.", "quantifier": "every pair of dimension lists", "why_tests_cant": "unbounded ranks", "anchors": ["src/basic/broadcast.c:aitisa_broadcast_array"]}
{"id": "C14", "title": "Broadcasting a 0 extent against 1 gives 0", "statement": "Whenever broadcasting succeeds, each extent of the result is the number of index pairs that actually exist, i.e. extent 0 against extent 1 gives 0.", "quantifier": "every pair of dimension lists", "why_tests_cant": "edge shapes are missing from tests", "anchors": ["src/basic/broadcast.c:aitisa_broadcast_array", "src/basic/broadcast.h"]}
{"id": "C15", "title": "Full fills every element with the converted value", "statement": "aitisa_full yields a fresh tensor of the requested shape and type with every element equal to the C conversion of the value; it is undefined exactly when the value does not fit an integer type or the element count exceeds INT_MAX.", "quantifier": "every type, shape and double value", "why_tests_cant": "all doubles, all shapes, and counts beyond 2^31", "anchors": ["src/basic/factories.c:aitisa_full", "src/core/types.c:castto_typed_value_funcs"]}
{"id": "C16", "title": "Cast converts elementwise and keeps shape and order", "statement": "aitisa_cast to a different type yields a fresh tensor with the same dims and device whose i-th element is the C conversion of the input's i-th element.", "quantifier": "every pair of distinct types, shape and element values for which the conversion is defined", "why_tests_cant": "100 type pairs times all values", "anchors": ["src/basic/cast.c:aitisa_cast", "src/basic/cast.c:cast_template"]}
{"id": "C17", "title": "A successful cast always produces a tensor", "statement": "Whenever aitisa_cast returns STATUS_SUCCESS, *output refers to a live tensor of the requested type.", "quantifier": "every input tensor and target type", "why_tests_cant": "an uninitialised output variable may look valid by luck", "anchors": ["src/basic/cast.c:aitisa_cast"]}
{"id": "C18", "title": "Widening casts are lossless and reversible", "statement": "Casting to a type that contains every value of the source type and back gives the original elements; integer types of at most 32 bits survive a round trip through double exactly.", "quantifier": "every tensor and every such pair of types", "why_tests_cant": "all element values", "anchors": ["src/basic/cast.c:aitisa_cast"]}
{"id": "C19", "title": "Reshape preserves data order and rejects size mismatch", "statement": "aitisa_reshape returns STATUS_DIMENSIONS_MISMATCH and touches nothing iff the product of the new dims differs from the element count; otherwise it yields an independent tensor with the new dims, same type and device and the same elements in linear order. Reshaping back restores the original.", "quantifier": "every tensor and dimension list", "why_tests_cant": "unbounded shapes and frame condition", "anchors": ["src/basic/reshape.c:aitisa_reshape"]}
{"id": "C20", "title": "Squeeze without axes removes exactly the unit extents", "statement": "aitisa_squeeze with num_axis == 0 on a tensor without zero extents yields an independent tensor with the same elements whose dims are the input dims with every 1 removed.", "quantifier": "every such tensor", "why_tests_cant": "unbounded ranks", "anchors": ["src/basic/squeeze.c:aitisa_squeeze"]}
{"id": "C21", "title": "Squeeze with axes removes exactly the named unit extents, safely", "statement": "aitisa_squeeze with valid distinct axes removes exactly those named axes whose extent is 1; negative axes give STATUS_INVALID_ARGUMENT; repeated or too large axes and zero extents never cause undefined behaviour.", "quantifier": "every tensor and axis list", "why_tests_cant": "unbounded axis lists; heap overflows may go unnoticed", "anchors": ["src/basic/squeeze.c:aitisa_squeeze"]}
{"id": "C22", "title": "Slice selects exactly the strided box", "statement": "aitisa_slice with begin/size/step inside the dims yields an independent tensor whose dims are ceil(size/step) with the axes of size 0 dropped, and whose element at output coordinate c is the input element at begin + step*c (at begin on dropped axes).", "quantifier": "every tensor of rank >= 1 and valid begin/size/step", "why_tests_cant": "all shapes and parameters; odometer carry logic", "anchors": ["src/basic/slice.c:aitisa_slice", "src/basic/slice.c:slice_template", "src/basic/slice.c:slice_create_output"]}
{"id": "C23", "title": "Slice rejects every invalid request", "statement": "aitisa_slice returns STATUS_INVALID_ARGUMENT, without touching *output or memory, whenever some begin is outside [0,dim), some size is negative or begin+size exceeds the extent, or some step is below 1; it never has undefined behaviour.", "quantifier": "every tensor (any rank) and every int triple per axis", "why_tests_cant": "integer overflow and rank 0 corners", "anchors": ["src/basic/slice.c:slice_check_parameters", "src/basic/slice.c:slice_template"]}
{"id": "C24", "title": "Slice output extents are exact despite floating-point division", "statement": "The extent computed through double division and ceil equals the integer ceiling of size/step.", "quantifier": "every pair of ints size >= 0 and step >= 1", "why_tests_cant": "2^62 pairs, floating-point rounding", "anchors": ["src/basic/slice.c:slice_create_output"]}
{"id": "C25", "title": "Duplicate makes an equal, independent copy", "statement": "aitisa_duplicate of a tensor of rank >= 1 with positive extents that fit an int yields a tensor equal in type, device, dims and elements sharing no memory with the original; for every other tensor it either does so too or reports an error.", "quantifier": "every tensor", "why_tests_cant": "aliasing, rank 0, empty and huge shapes", "anchors": ["src/basic/duplicate.c:aitisa_duplicate"]}
{"id": "C26", "title": "Elementwise arithmetic", "statement": "aitisa_add/sub/mul/div on two CPU tensors of the same type and dims yields a fresh tensor of that type, device and dims whose i-th element is the C result of the operation on the i-th elements (IEEE for floats, modulo 2^w for unsigned and narrow types). The two inputs may be the same tensor.", "quantifier": "every pair of tensors whose elementwise results are defined", "why_tests_cant": "all element values, shapes and aliasing", "anchors": ["src/math/binary_op.c:aitisa_add", "src/math/binary_op.c:aitisa_sub", "src/math/binary_op.c:aitisa_mul", "src/math/binary_op.c:aitisa_div"]}
{"id": "C27", "title": "Binary operations reject mismatched operands without effect", "statement": "For operands that are not on the CPU, differ in type, or differ in rank or dims, add/sub/mul/div return NOT_SUPPORTED, TYPE_MISMATCH or INVALID_ARGUMENT respectively (checked in this order), leaving *output and memory unchanged.", "quantifier": "every pair of tensors", "why_tests_cant": "decision procedure over all shapes", "anchors": ["src/math/binary_op.c"]}
{"id": "C28", "title": "Integer arithmetic never has undefined behaviour", "statement": "Elementwise addition, subtraction and multiplication of integer tensors is defined (wrapping) for all element values.", "quantifier": "every integer type and element pair", "why_tests_cant": "signed overflow does not show at runtime in a debug build", "anchors": ["src/math/binary_op.c"]}
{"id": "C29", "title": "Square root is elementwise and flags negatives", "statement": "aitisa_sqrt returns STATUS_MATH_ERROR iff some element is negative, otherwise STATUS_SUCCESS with a fresh tensor whose i-th element is the correctly rounded square root converted to the element type; the input is never modified.", "quantifier": "every tensor of every type", "why_tests_cant": "all element values", "anchors": ["src/math/sqrt.c:aitisa_sqrt"]}
{"id": "C30", "title": "Integer square root is the floor of the root", "statement": "For integer types the result of aitisa_sqrt is the largest integer whose square does not exceed the element.", "quantifier": "every non-negative integer element of every integer type", "why_tests_cant": "floating-point rounding for 64-bit values", "anchors": ["src/math/sqrt.c:aitisa_sqrt"]}
{"id": "C31", "title": "Matrix multiplication of ranks 1 and 2", "statement": "aitisa_matmul on vectors/matrices of the same type yields the inner, matrix-vector, vector-matrix or matrix product accumulated in index order in the element type, with the documented output dims, and returns DIMENSIONS_MISMATCH without effect iff the contracted extents differ.", "quantifier": "every such pair of tensors", "why_tests_cant": "all shapes and values", "anchors": ["src/math/matmul.c:aitisa_matmul"]}
{"id": "C32", "title": "Batched matrix multiplication broadcasts batches", "statement": "aitisa_matmul with an operand of rank >= 3 multiplies, for every broadcast batch coordinate, the matrices found at that coordinate (extent-1 axes repeated), with output dims broadcast(batch dims) ++ [M,N].", "quantifier": "every pair of tensors with positive extents", "why_tests_cant": "index arithmetic over unbounded ranks", "anchors": ["src/math/matmul.c:matmul_batch", "src/math/matmul.c:batch_strides"]}
{"id": "C33", "title": "Matmul rejects operands it cannot multiply", "statement": "aitisa_matmul reports an error for every pair of tensors whose types differ or whose shapes are incompatible, and never reads outside its operands.", "quantifier": "every pair of tensors", "why_tests_cant": "type confusion and empty batches", "anchors": ["src/math/matmul.c:aitisa_matmul"]}
{"id": "C34", "title": "Dot of vectors and of matrices", "statement": "aitisa_dot of two vectors is their inner product (dims [1]); of two matrices it equals aitisa_matmul.", "quantifier": "every such pair of tensors", "why_tests_cant": "all lengths and values", "anchors": ["src/math/dot.c:aitisa_dot"]}
{"id": "C35", "title": "Dot of a tensor with a vector and of two tensors", "statement": "aitisa_dot of a tensor (rank >= 2) with a vector contracts the last axis; of two tensors of rank >= 3 it contracts the last axis of the first with the second-to-last axis of the second, output dims being the remaining axes in order.", "quantifier": "every such pair with positive extents", "why_tests_cant": "unbounded ranks; odometer logic", "anchors": ["src/math/dot.c:tensor_vector_dot", "src/math/dot.c:multidim_dot"]}
{"id": "C36", "title": "Dot with a scalar scales every element exactly", "statement": "aitisa_dot where one operand has rank 0 yields the other operand with each element multiplied by the scalar in the element type.", "quantifier": "every type and value", "why_tests_cant": "precision loss for large 64-bit integers", "anchors": ["src/math/dot.c:scalar_tensor_mul"]}
{"id": "C37", "title": "ReLU", "statement": "aitisa_relu yields a fresh tensor of the same type, device and dims with element i equal to the input element if it is greater than zero and zero otherwise; it is idempotent and the identity on unsigned tensors.", "quantifier": "every tensor of every type", "why_tests_cant": "all values including NaN and signed zeros", "anchors": ["src/nn/relu.c:aitisa_relu"]}
{"id": "C38", "title": "Sigmoid and tanh", "statement": "aitisa_sigmoid and aitisa_tanh yield fresh float/double tensors computed elementwise from exp by the stated formula, in double precision rounded once to the element type, and return STATUS_NOT_SUPPORTED for all other types.", "quantifier": "every tensor and every implementation of exp", "why_tests_cant": "all values, any libm", "anchors": ["src/nn/sigmoid.c:aitisa_sigmoid", "src/nn/tanh.c:aitisa_tanh"]}
{"id": "C39", "title": "Softmax normalises each lane along the axis", "statement": "aitisa_softmax with axis in [0,ndim) writes at every coordinate exp(x) divided by the sum of exp over the lane through that coordinate along the axis, -1 meaning all elements; other axes give STATUS_NOT_SUPPORTED without effect.", "quantifier": "every tensor of positive extents, axis and exp implementation", "why_tests_cant": "unbounded ranks; lane enumeration", "anchors": ["src/nn/softmax.c:aitisa_softmax"]}
{"id": "C40", "title": "Dropout zeroes a random subset and keeps the rest", "statement": "aitisa_dropout yields a fresh tensor where element i is 0 if the i-th random draw is at most trunc(100*rate) (draws in 1..100) and the input element otherwise; rate 0 is the identity, rate 1 gives all zeros, and rates outside [0,1] are rejected.", "quantifier": "every tensor, rate and random sequence", "why_tests_cant": "all random sequences and rates (NaN included)", "anchors": ["src/nn/dropout.c:aitisa_dropout"]}
{"id": "C41", "title": "Pooling output shape and window averages", "statement": "aitisa_pooling in avg mode yields for each window the sum of its in-bounds elements divided by the full window size, windows enumerated row-major over output dims floor((in+2p-d(k-1)-1)/s)+1 per spatial axis.", "quantifier": "every tensor with 1 to 3 spatial axes and every positive stride/window/dilation and padding", "why_tests_cant": "all shapes and parameters", "anchors": ["src/nn/pooling.c:aitisa_pooling"]}
{"id": "C42", "title": "Max pooling returns the window maximum", "statement": "In max mode every output element is the maximum of the in-bounds elements of its window.", "quantifier": "every tensor and parameters", "why_tests_cant": "all-negative windows are not in the tests", "anchors": ["src/nn/pooling.c"]}
{"id": "C43", "title": "Pooling and slicing loops terminate", "statement": "Every API call with positive strides, steps, windows and dilations terminates, with exactly one kernel iteration per output element.", "quantifier": "all such inputs", "why_tests_cant": "termination is not testable", "anchors": ["src/nn/pooling.c", "src/basic/slice.c"]}
{"id": "C44", "title": "Convolution computes the cross-correlation", "statement": "aitisa_conv on float tensors with matching channels writes at every output coordinate the sum over channels and kernel positions (in order, single precision) of padded input times filter, with output extents floor((in+2p-d(k-1)-1)/s)+1.", "quantifier": "every float tensor, filter, stride, padding, dilation with kernel inside the padded input", "why_tests_cant": "all shapes and parameters", "anchors": ["src/nn/conv.c:aitisa_conv"]}
{"id": "C45", "title": "Convolution reports its outcome faithfully", "statement": "aitisa_conv (and the 2d/3d variants) returns STATUS_SUCCESS when it has computed its output, reports an error for a kernel larger than the padded input and honours groups.", "quantifier": "every call", "why_tests_cant": "indeterminate return values and unusual parameters", "anchors": ["src/nn/conv.c"]}
{"id": "C46", "title": "Batch normalisation normalises every channel", "statement": "aitisa_batch_norm yields at each position of channel c the value scale_c*((x-mean_c)/sqrt(var_c+eps))+bias_c computed in the element type, for channel axis 1 or last and ranks 2 to 5; invalid parameters are rejected before anything is allocated.", "quantifier": "every tensor, axis and parameter tensors", "why_tests_cant": "all shapes; composite of many API calls", "anchors": ["src/nn/batch_norm.c:aitisa_batch_norm"]}
{"id": "C47", "title": "Operations never modify their inputs", "statement": "No operation other than set_item and destroy changes any byte of memory that existed when it was called.", "quantifier": "every operation, argument and heap", "why_tests_cant": "frame condition over all memory", "anchors": ["src/basic", "src/math", "src/nn"]}
{"id": "C48", "title": "Successful operations leak nothing", "statement": "When an operation returns STATUS_SUCCESS, the only new memory is the output tensor's blocks, all of which are released by destroying it.", "quantifier": "every successful call of every operation", "why_tests_cant": "heap accounting on all inputs", "anchors": ["src/basic", "src/math", "src/nn"]}
{"id": "C49", "title": "Allocation failure inside an operation is reported, not fatal", "statement": "Whichever internal allocation fails, every operation returns STATUS_ALLOC_FAILED without undefined behaviour and without changing existing memory.", "quantifier": "every operation and every allocator failure schedule", "why_tests_cant": "fault injection at every point", "anchors": ["src/basic", "src/math", "src/nn"]}
{"id": "C50", "title": "Allocator hooks are used consistently", "statement": "Every block is released through the allocator it was obtained from as long as the two allocator hooks are changed together while no tensor is alive, and all memory is obtained through the installed hook.", "quantifier": "every history of hook changes and calls", "why_tests_cant": "allocator mismatches rarely crash", "anchors": ["src/core/allocator.h", "src/math/binary_op.c"]}
{"id": "C51", "title": "Algebraic laws of the operations", "statement": "add and mul commute on results, x-x is zero for integer tensors, casting/reshaping/duplicating compose as expected, relu after relu equals relu, matmul and dot agree on matrices, slicing the full box equals duplicating.", "quantifier": "every tensor pair for which the operations are defined", "why_tests_cant": "relations between runs over all values", "anchors": ["src/math/binary_op.c", "src/basic", "src/nn/relu.c"]}
{"id": "C52", "title": "Unknown type codes are refused", "statement": "Operations on tensors whose data type code is not one of the ten supported types return STATUS_NOT_SUPPORTED and never access elements.", "quantifier": "every code outside 0..9", "why_tests_cant": "open-ended set of codes", "anchors": ["src/core/dispatch.h"]}
{"id": "C53", "title": "Auto-test sample handles free their buffers exactly once", "statement": "For every history of constructing, copying, moving, assigning and destroying the sample input/result objects, each owned buffer is freed exactly once, when the last owner disappears, and is never used afterwards.", "quantifier": "all histories over any number of objects", "why_tests_cant": "reference-count bugs depend on history", "anchors": ["auto_test/sample.h", "auto_test/sample.cpp", "auto_test/basic.h"]}
{"id": "C54", "title": "Create accepts only meaningful shapes", "statement": "aitisa_create reports an error for every dimension list containing a negative extent.", "quantifier": "every dimension list", "why_tests_cant": "all integer lists", "anchors": ["src/core/tensor.c:aitisa_create"]}
{"id": "C55", "title": "Floating-point products are accurate", "statement": "Every element of a matrix product, dot product or convolution of float or double tensors that is finite differs from the real sum of products of the input elements by at most ((1+u)^(n+1)-1) times the sum of the absolute products plus an underflow term, u being the unit roundoff and n the number of terms; and it is finite whenever the inputs are and that sum stays below the largest number of the type.", "quantifier": "all float and double operands, shapes and numbers of terms", "why_tests_cant": "tests compare a few literals with hand-computed results; the bound is over all finite values and lengths", "anchors": ["src/math/matmul.c:aitisa_matmul", "src/math/dot.c:aitisa_dot", "src/nn/conv.c:aitisa_conv"]}
{"id": "C56", "title": "Softmax of finite inputs is a probability distribution", "statement": "Softmax of a tensor of finite elements yields, along every lane of the chosen axis (or over the whole tensor for axis -1), numbers from 0 to 1 that add up to 1 within a rounding bound, each within a relative rounding bound of the quotient of its exponential by the sum, and ordered as the exponentials are.", "quantifier": "all float and double tensors, axes and exponential functions", "why_tests_cant": "tests use a handful of small elements; overflow and underflow of exponentials and lane lengths are unbounded", "anchors": ["src/nn/softmax.c:aitisa_softmax"]}
{"id": "C57", "title": "Sigmoid approximates the logistic function", "statement": "With an exp accurate to a relative error eps, sigmoid maps every finite element x to a number from 0 to 1 within a relative error of 2(eps + u_t + 2u + 2^-1074) (and an absolute underflow term) of 1/(1+exp(-x)), including where exp overflows; +infinity maps to 1, -infinity to 0 and NaN to NaN.", "quantifier": "all float and double tensors, all exp implementations accurate to eps <= 1/16", "why_tests_cant": "tests compare a few elements with a tolerance; the bound holds for every representable argument and every exp", "anchors": ["src/nn/sigmoid.c:aitisa_sigmoid"]}
{"id": "C58", "title": "Tanh approximates the hyperbolic tangent", "statement": "With an accurate exp, tanh maps every finite element to a number from -1 to 1 close to the hyperbolic tangent, is odd, and is accurate near 0.", "quantifier": "all float and double tensors, all exp implementations accurate to eps <= 1/16", "why_tests_cant": "tests use small arguments only; exponentials overflow from 710 on and cancel near 0", "anchors": ["src/nn/tanh.c:aitisa_tanh"]}
{"id": "C59", "title": "Softmax approximates the mathematical softmax", "statement": "With an accurate exp, softmax of finite elements yields numbers within a relative rounding bound of exp(x_j) divided by the sum of the exponentials of the lane.", "quantifier": "all float and double tensors, axes, lanes of up to 2^51 elements, all exp implementations accurate to eps <= 1/16", "why_tests_cant": "tests use small elements only; overflow and underflow depend on values no test tries", "anchors": ["src/nn/softmax.c:aitisa_softmax"]}
{"id": "C60", "title": "Integer square roots are off by at most one", "statement": "aitisa_sqrt of a non-negative integer element yields its integer square root, or one more, and the latter only when the element lies at most 2^13 below the square of the result.", "quantifier": "all integer types, shapes and non-negative elements, including 64-bit ones beyond 2^53, under any allocator", "why_tests_cant": "the wrong results are confined to a few values below large perfect squares", "anchors": ["src/math/sqrt.c:aitisa_sqrt"]}
{"id": "C61", "title": "Element-wise arithmetic and cast are defined exactly where C arithmetic is", "statement": "add/sub/mul/div of two initialised host tensors of one type and shape makes a tensor iff there are at most INT_MAX elements and each element operation is defined in C; otherwise the behaviour is undefined. A cast makes a tensor iff each element has a value in the target type (C11 6.3.1.4); otherwise the behaviour is undefined.", "quantifier": "all operations, types, shapes, elements and memory states with enough memory", "why_tests_cant": "the 'only if' direction ranges over all inputs that misbehave", "anchors": ["src/math/binary_op.c:aitisa_add", "src/basic/cast.c:aitisa_cast"]}
{"id": "C62", "title": "A call that fails for lack of memory releases what it was granted", "statement": "When aitisa_create, aitisa_full, aitisa_cast, aitisa_reshape, aitisa_sqrt, aitisa_relu, aitisa_sigmoid or aitisa_tanh returns STATUS_ALLOC_FAILED, as many blocks are live as before the call.", "quantifier": "all arguments, memory states and patterns of refused allocation requests", "why_tests_cant": "tests never make the allocator fail", "anchors": ["src/core/tensor.c:aitisa_create", "src/core/storage.c:aitisa_create_storage", "src/core/shape.c:aitisa_create_shape"]}
{"id": "C63", "title": "natural_assign fills a buffer exactly", "statement": "natural_assign(data, len, dtype) writes floor(len/sizeof(T)) elements, 1, 2, 3, ... reduced to the type, or (i+1)/10 up to six rounding errors, leaves the remaining bytes of the buffer and all other memory alone, and is never undefined; an unknown dtype has no effect. The operand a fixture prepares this way is a buffer of exactly the elements of the declared shape.", "quantifier": "all buffers, lengths below 2^32, element types and shapes of less than 2^32 bytes", "why_tests_cant": "the error bound and the absence of overruns range over all lengths and indices", "anchors": ["auto_test/basic.cpp:natural_assign", "auto_test/test_code/binary_op_test.h:BinaryOPTest"]}
{"id": "C64", "title": "The harness passes a sample iff the two results agree", "statement": "For any user implementation, the verdict of a two-operand sample is true iff the user's result is on the demanded device and has the same type, shape and elementwise matching values as the library's; floats match iff both are finite and the rounded difference is below the double 1e-3 (so never more than 0.001001 and always up to 0.000999 apart).", "quantifier": "all user implementations that leave existing memory alone, all operands, operations, types and shapes", "why_tests_cant": "it is a property of the test harness itself over all user implementations", "anchors": ["auto_test/test_code/binary_op_test.h:FourTests", "auto_test/test_code/matmul_test.h:SevenTests"]}
{"id": "C65", "title": "The library registered as its own user implementation passes its own tests", "statement": "Registering the library's functions as the user implementation, every sample passes.", "quantifier": "all operands, shapes, types and devices of a sample", "why_tests_cant": "ranges over all samples; the failing ones are undefined rather than reported", "anchors": ["auto_test/test_code/binary_op_test.h:FourTests", "auto_test/basic.h:REGISTER_BASIC"]}
{"id": "C66", "title": "The activation harness accepts a user implementation exactly when it computes what the library does", "statement": "An activation sample passes exactly when the user's result has the library's type, shape and elements up to rounding; the library registered as its own user passes.", "quantifier": "all user implementations, operands, shapes, devices and element values", "why_tests_cant": "ranges over all user implementations and all pairs of floats; the wrong accepts and rejects are the harness itself", "anchors": ["auto_test/test_code/activation_test.h:ThreeTests"]}
{"id": "C67", "title": "Average pooling and batch normalisation of floats are accurate", "statement": "Every element of an average pooling is the sum of its window over the size of the window, and every element of a batch normalisation is scale * (x - mean) / sqrt(variance + epsilon) + bias, up to an explicit multiple of the rounding unit; the result is finite whenever the elements are finite and no intermediate result leaves the range of the type.", "quantifier": "all float and double tensors, shapes, windows, strides, paddings, dilations, axes, parameters and positive epsilons", "why_tests_cant": "a bound on the rounding error over all floats; the failing inputs are epsilons below the smallest float, which no test uses", "anchors": ["src/nn/pooling.c:aitisa_pooling", "src/nn/batch_norm.c:aitisa_batch_norm"]}
{"id": "C68", "title": "Convolution samples own their arrays: released exactly once, none leaked", "statement": "In every history of constructing, copying, assigning, filling, reading and destroying convolution samples, no array is freed twice or used after it was freed, each array lives as long as a sample refers to it, and is released with the last one; an assignment makes the left side equal to the right side.", "quantifier": "all histories of any length over any number of samples, all dimension and parameter vectors, all allocators", "why_tests_cant": "histories are unbounded; the test fixtures never copy or assign these samples", "anchors": ["auto_test/test_code/conv_test.h:Conv_Input"]}
{"id": "C69", "title": "Matrix products are defined exactly when their counts and sums fit", "statement": "aitisa_matmul of vectors and matrices of one type with equal contracted extents makes the product (each element the inner product accumulated in index order) if and only if the number of rows, the number of result elements and, when there are any, the number of terms are at most INT_MAX and no inner product overflows; otherwise the behaviour is undefined (signed overflow).", "quantifier": "all types, extents (including 0 and beyond INT_MAX) and element values for which the result shape is representable, with memory available", "why_tests_cant": "tensors beyond 2^31 elements; all element values; which of several undefined steps comes first", "anchors": ["src/math/matmul.c:VV_KERNEL", "src/math/matmul.c:MV_KERNEL", "src/math/matmul.c:MM_KERNEL", "src/math/matmul.c:aitisa_matmul", "src/basic/factories.c:aitisa_full"]}
{"id": "C70", "title": "The convolution test accepts exactly the users that compute the library's correlation", "statement": "The test of a convolution sample passes if and only if the user's result has the type, shape and device asked for and every element is within the tolerance of the correlation of input and filter; in particular the library passes its own test.", "quantifier": "all user implementations, float inputs, filters, strides, paddings, dilations, groups, initial memories and environments with memory available", "why_tests_cant": "the tests are what is being checked; quantifies over all implementations under test and all samples", "anchors": ["auto_test/test_code/conv_test.h:TwoTests", "src/nn/conv.c:aitisa_conv2d"]}
{"id": "C71", "title": "Softmax of an integer tensor", "statement": "With an accurate exp, softmax of an integer tensor is defined exactly when no element of a lane exceeds the largest integer whose exponential fits the type and every lane has a non-negative element; then every result is 0 or 1, and for types of up to 32 bits it is 1 exactly at the only non-negative element of its lane.", "quantifier": "all integer tensors, axes, accurate exp functions, initial memories and environments with memory available", "why_tests_cant": "the boundary depends on the values in all lanes and on every admissible exp; tests run one libm on a few float tensors", "anchors": ["src/nn/softmax.c:aitisa_softmax"]}
{"id": "C72", "title": "Operations depend on nothing but their arguments and the memory", "statement": "The outcome of an operation (result, status, final memory, undefined behaviour) is a function of its arguments, the memory and the allocator's answers: only dropout reads or advances the stream of rand(), only sigmoid, tanh and softmax depend on the C library's exponential, nothing depends on leftover register contents except the status returned by the convolutions and by aitisa_resolve (whose functions end without a return statement), and an outcome reached with some bound on the iterations is the outcome under every larger bound.", "quantifier": "every operation, all arguments, all memory states (including corrupt ones), all environments", "why_tests_cant": "A test runs one environment; independence of all random streams, all libm implementations and all register contents is a statement about pairs of runs.", "anchors": ["src/nn/dropout.c:aitisa_dropout", "src/nn/conv.c:aitisa_conv", "src/core/tensor.c:aitisa_resolve", "src/nn/softmax.c:aitisa_softmax", "src/nn/pooling.c:aitisa_pooling"]}
{"id": "C73", "title": "Matrix products of integers obey the ring laws", "statement": "For the integer types whose C arithmetic cannot overflow (int8, uint8, int16, uint32, uint64), aitisa_matmul is associative and distributes over aitisa_add on both sides, element for element, also when values wrap around; for every integer type multiplication by the unit matrix on either side returns the other operand; for matrices of finite floats it returns the operand with every -0 replaced by +0.", "quantifier": "all matrices of these types whose extents and element counts are at most INT_MAX, all memories holding them, all environments with memory available", "why_tests_cant": "the laws relate the results of several runs for all element values, most of which wrap around, and all sizes", "anchors": ["src/math/matmul.c:MM_KERNEL", "src/math/matmul.c:aitisa_matmul", "src/math/binary_op.c:aitisa_add"]}
{"id": "C74", "title": "Pooling with windows of one element", "statement": "With all kernel extents, strides and dilations 1 and no padding, average pooling returns the input element for element (with -0 replaced by +0), and max pooling returns exactly what aitisa_relu returns, i.e. negative elements become 0.", "quantifier": "all initialised tensors with 1 to 3 spatial dimensions, of every type, whose integer elements are at most 2^53 in absolute value, all memories, all environments with memory available", "why_tests_cant": "the statement is about every element value of every type (including infinities, NaN and signed zeros) and every shape", "anchors": ["src/nn/pooling.c:aitisa_pooling", "src/nn/relu.c:aitisa_relu"]}
{"id": "C75", "title": "Order is preserved", "statement": "If a tensor is element for element at most another one of the same type and shape, then so are the results of aitisa_relu, of aitisa_sqrt (no negative element in the smaller one), of aitisa_sigmoid on floats (for any exp that preserves the order, e.g. the correctly rounded one), of max pooling, of average pooling of finite elements and of aitisa_add on finite floats, although every intermediate value is rounded and may overflow to an infinity.", "quantifier": "all pairs of initialised tensors without NaN, all window parameters of pooling, all memories, all environments with memory available", "why_tests_cant": "the statement compares two runs for all pairs of inputs, where each element of the output depends on a chain of roundings", "anchors": ["src/nn/relu.c:aitisa_relu", "src/math/sqrt.c:aitisa_sqrt", "src/nn/sigmoid.c:aitisa_sigmoid", "src/nn/pooling.c:aitisa_pooling", "src/math/binary_op.c:aitisa_add"]}
{"id": "C76", "title": "Computing and selecting commute", "statement": "Slicing, reshaping or squeezing the result of aitisa_relu, aitisa_sigmoid, aitisa_tanh, aitisa_sqrt, aitisa_cast or one of the four arithmetic operations gives the same tensor as applying the operation to the sliced, reshaped or squeezed operands; all calls on both ways succeed.", "quantifier": "all operands on which the operation is defined, all slices, shapes of the same element count, all memories and addresses, all environments with memory available, any exp", "why_tests_cant": "the statement relates four runs in unrelated memories for every shape, step and element value", "anchors": ["src/basic/slice.c:aitisa_slice", "src/basic/reshape.c:aitisa_reshape", "src/basic/squeeze.c:aitisa_squeeze", "src/nn/relu.c:aitisa_relu", "src/nn/sigmoid.c:aitisa_sigmoid", "src/nn/tanh.c:aitisa_tanh", "src/math/sqrt.c:aitisa_sqrt", "src/basic/cast.c:aitisa_cast", "src/math/binary_op.c:aitisa_add"]}
{"id": "C77", "title": "Samples, channels, filters, rows, columns and lanes are processed independently", "statement": "Selecting part of the independent indices and then computing gives exactly the same tensor, bit by bit, as computing everything and then selecting: pooling of some samples and channels; convolution of some samples with some filters; matrix product of some rows with some columns; batch normalisation of some samples and channels with the parameters of those channels; softmax along one axis of any slice that keeps that axis whole. In particular what is computed for one sample depends on no other sample.", "quantifier": "all tensors for which the whole computation is defined (floats for convolution; floats with non-negative variances for batch normalisation), all window, padding, stride and dilation parameters, all legal selections with arbitrary strides, all addresses and memory contents, every exp implementation", "why_tests_cant": "The tests never compare a batch with its samples; a stale accumulator or a wrong base offset that leaks from one sample, channel or row into the next shows only for particular extents and values.", "anchors": ["src/nn/pooling.c:aitisa_pooling", "src/nn/conv.c:aitisa_conv", "src/math/matmul.c:aitisa_matmul", "src/nn/batch_norm.c:aitisa_batch_norm", "src/nn/softmax.c:aitisa_softmax", "src/basic/slice.c:aitisa_slice"]}
{"id": "C78", "title": "Convolutions with one-element and with full-size filters are matrix products", "statement": "With filters of one element per channel, unit strides and dilations and no padding, every output channel of aitisa_conv is, at every point of every sample, the inner product of the input channels with the filter, accumulated in float in channel order. If these filters form a unit matrix the convolution copies every finite tensor, except that -0 becomes +0. With filters as large as the image and no padding, for any strides, the convolution is a fully connected layer: bit by bit the tensor that aitisa_matmul computes from the flattened samples and the transposed flattened filters.", "quantifier": "all numbers of samples and channels, one to three (or no) spatial axes of any extents within the limits of the sliding windows, all float tensors and filters (finite ones for the unit filters), all strides for the fully connected layer, all addresses and memory contents", "why_tests_cant": "The tests of convolution compare with one stored result for a few shapes; that two different routines agree in every bit for all shapes needs the order of accumulation of both.", "anchors": ["src/nn/conv.c:aitisa_conv", "src/math/matmul.c:aitisa_matmul"]}
{"id": "C79", "title": "Sign symmetry of float arithmetic", "statement": "For tensors of floats or doubles: negating one operand of aitisa_mul or aitisa_div negates every element of the result exactly, negating both operands changes no bit. Negating both operands of aitisa_add or aitisa_sub, one factor of aitisa_matmul, or the samples or the filters of aitisa_conv negates the result, where only the sign of a zero may differ; so does negating the argument of aitisa_tanh, whatever exp computes, or of aitisa_pooling with averages. Negating both factors of aitisa_matmul, or samples and filters of aitisa_conv, changes no bit of the result. The difference of aitisa_relu of a tensor without NaN and of aitisa_relu of its negative is the tensor itself (with +0 for -0), their sum its absolute value, both exactly. aitisa_sub of two tensors is bit for bit aitisa_add of the first and the negated second; swapping its operands negates the result up to the sign of zeros.", "quantifier": "all shapes, all elements including zeros of both signs, infinities, NaN and results that overflow or underflow, all window parameters, all addresses and memory contents", "why_tests_cant": "Tests use a few moderate numbers; that rounding, overflow, underflow and cancellation treat both signs alike in every accumulation needs the rounding itself in the model.", "anchors": ["src/math/binary_op.c:aitisa_mul", "src/math/binary_op.c:aitisa_add", "src/math/matmul.c:aitisa_matmul", "src/nn/conv.c:aitisa_conv", "src/nn/tanh.c:aitisa_tanh", "src/nn/pooling.c:aitisa_pooling", "src/nn/relu.c:aitisa_relu"]}
{"id": "C80", "title": "Transposing reverses matrix products", "statement": "For matrices of every type, if no element of the product of A and B overflows, aitisa_matmul of the transposed B and the transposed A is bit by bit the transposed aitisa_matmul of A and B (for int8, uint8, int16, uint32, uint64, float and double without any condition on the values); a matrix times a vector is the vector times the transposed matrix; aitisa_dot of two vectors does not depend on their order.", "quantifier": "all types, all matrices and vectors whose extents and element counts are at most INT_MAX (NaN, infinities, rounding and wrap-around included), all addresses and memory contents, all environments with memory available", "why_tests_cant": "The law relates two runs with different strides for all sizes and values, and holds bit by bit for floats only because both runs add the same products in the same order.", "anchors": ["src/math/matmul.c:MM_KERNEL", "src/math/matmul.c:aitisa_matmul", "src/math/dot.c:aitisa_dot"]}
{"id": "C81", "title": "Computing before or after a conversion", "statement": "Converting the aitisa_add, aitisa_sub, aitisa_mul or aitisa_matmul of integer tensors with aitisa_cast to int8, uint8, int16, uint32 or uint64, if that type has at most as many bits, gives the same tensor as computing with the converted operands, also when values wrap around or change sign; whenever the wider computation is defined, all five calls succeed. aitisa_relu before or after aitisa_cast gives the same tensor for every conversion that is defined on all elements, rounding, truncating, underflowing and overflowing ones included, where between integer types the target has to contain the source.", "quantifier": "for relu: all types, shapes and elements for which the conversion is defined; otherwise: all integer source types, these five target types, all shapes with at most INT_MAX elements, all elements for which the wider computation is defined, all addresses and memory contents, all environments with memory available", "why_tests_cant": "The law relates five runs in two types for all element values; that promotion to int, conversion and wrap-around agree modulo the width cannot be checked value by value.", "anchors": ["src/math/binary_op.c:aitisa_add", "src/math/binary_op.c:aitisa_mul", "src/math/matmul.c:aitisa_matmul", "src/basic/cast.c:aitisa_cast", "src/nn/relu.c:aitisa_relu"]}
