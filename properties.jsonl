{"id": "C01", "title": "Labels builder keeps every entry, in order", "statement": "Building Labels from valid distinct names and pairwise distinct rows of the right length succeeds, and afterwards names(), size(), count(), labels[i], iter() and iter_fixed_size() all report exactly the names and rows that were added, in the order they were added.", "quantifier": "every list of valid distinct names (at least one) and every list of distinct rows of that length", "why_tests_cant": "the number of names, the number of rows and the row contents are unbounded; tests use three rows", "anchors": ["src/labels.rs: LabelsBuilder::new, add, finish", "src/labels.rs: Labels::names/size/count/iter/iter_fixed_size, Index<usize>"]}
{"id": "C02", "title": "Labels construction is rejected exactly when the input is malformed", "statement": "LabelsBuilder panics if and only if a name is not a valid identifier, a name is repeated, a row has the wrong length, or a row repeats an earlier row; it never rejects anything else and never accepts a malformed input.", "quantifier": "every list of names (arbitrary byte strings) and every list of rows", "why_tests_cant": "an if-and-only-if over all strings and all row lists; tests can only sample rejected inputs", "anchors": ["src/labels.rs: LabelsBuilder::new, LabelsBuilder::add, is_valid_label_name"]}
{"id": "C03", "title": "position and contains agree with the row order", "statement": "labels.position(row) is Some(i) exactly when labels[i] is row, it is None exactly when row is not one of the entries, contains(row) says the same thing, and no row has two positions.", "quantifier": "every Labels produced by the builder and every row", "why_tests_cant": "relates the hash index to the linear storage for every possible row", "anchors": ["src/labels.rs: Labels::position, Labels::contains, LabelsBuilder::add"]}
{"id": "C04", "title": "Valid label names are exactly the ASCII identifiers", "statement": "is_valid_label_name(s) holds iff s is non-empty, starts with an ASCII letter or underscore and contains only ASCII letters, digits and underscores.", "quantifier": "every byte string", "why_tests_cant": "infinite set of strings", "anchors": ["src/labels.rs: is_valid_label_name", "src/c_api/labels.rs: TryFrom<&eqs_labels_t> for Labels"]}
{"id": "C05", "title": "Labels equality means same names and same rows in the same order", "statement": "Two Labels compare equal iff they have the same names in the same order and the same rows in the same order, whatever the internal order of the hash index.", "quantifier": "every pair of Labels produced by the builder, for every internal hash map order", "why_tests_cant": "hash order is random per process; equality over all pairs cannot be enumerated", "anchors": ["src/labels.rs: derive(PartialEq) for Labels"]}
{"id": "C06", "title": "Integer to label value conversions never change the number", "statement": "Converting an u32/usize/isize to a label value either yields a 32-bit label value with the same number or panics; it never truncates or wraps. The numbers accepted are exactly 0..2^31-2 (unsigned) and -2^31+1..2^31-2 (isize).", "quantifier": "every machine integer", "why_tests_cant": "2^64 inputs", "anchors": ["src/labels.rs: From<u32>/From<usize>/From<isize> for LabelValue"]}
{"id": "C07", "title": "Every Labels can be counted and iterated", "statement": "For every Labels that can be constructed, count(), iter() and iter_fixed_size() return normally, and count() * size() is the number of stored values.", "quantifier": "every Labels obtainable from the builder, including the ones with zero names", "why_tests_cant": "quantifies over all Labels; the zero-name case is not covered by the test-suite", "anchors": ["src/labels.rs: Labels::count, Labels::iter, LabelsBuilder::finish"]}
{"id": "C08", "title": "A rejected duplicate leaves the builder usable", "statement": "After LabelsBuilder::add refused a duplicate row (and the panic was caught), finishing the builder gives the labels that were successfully added before.", "quantifier": "every sequence of add calls, with any of them rejected", "why_tests_cant": "histories with failures in the middle are unbounded", "anchors": ["src/labels.rs: LabelsBuilder::add"]}
{"id": "C09", "title": "A block is accepted exactly when array and labels agree", "statement": "TensorBlock::new(data, samples, components, properties) succeeds iff the array has components.len()+2 axes, the first axis length is the number of samples, each component is a one-variable label set with its own name and the length of its axis, and the last axis length is the number of properties. On success the block exposes exactly the given array and labels.", "quantifier": "every array shape, every samples, components and properties with at least one variable each", "why_tests_cant": "all ranks and all axis lengths", "anchors": ["src/blocks.rs: check_data_and_labels, check_component_labels, BasicBlock::new, TensorBlock::new"]}
{"id": "C10", "title": "A gradient is accepted exactly when it is compatible with the values", "statement": "add_gradient succeeds iff the parameter is new and is not 'values', the array has the same origin as the values, its samples start with a variable named 'sample', its trailing components are the values' components, and its shape agrees with its samples, components and the values' properties.", "quantifier": "every block, parameter name without NUL byte, array, samples and components", "why_tests_cant": "all combinations of shapes, ranks and labels", "anchors": ["src/blocks.rs: TensorBlock::add_gradient"]}
{"id": "C11", "title": "A refused gradient leaves the block untouched, an accepted one only adds itself", "statement": "When add_gradient returns an error the block is unchanged; when it succeeds, the values, all the other gradients and their order are unchanged, and the new gradient is listed last.", "quantifier": "every block and every add_gradient call, failing or not", "why_tests_cant": "failure atomicity over all inputs", "anchors": ["src/blocks.rs: TensorBlock::add_gradient, TensorBlock::gradients_list, TensorBlock::gradient"]}
{"id": "C12", "title": "Block shape invariant", "statement": "In every block reachable by creating a block and adding gradients in any order (successful or refused), the values array and every gradient array have one axis per label set with matching length, gradients share the values' properties and end with the values' components, and gradients_list() lists each gradient exactly once, never 'values'.", "quantifier": "every history of TensorBlock::new and add_gradient calls", "why_tests_cant": "unbounded histories", "anchors": ["src/blocks.rs: TensorBlock::new, TensorBlock::add_gradient, TensorBlock::gradients_list"]}
{"id": "C13", "title": "A tensor map is accepted exactly when the blocks are homogeneous", "statement": "TensorMap::new(keys, blocks) succeeds iff there is one block per key, all blocks have the same sample names, component names (in order) and property names, and the same set of gradient parameters with the same gradient sample and component names.", "quantifier": "every keys and every list of blocks", "why_tests_cant": "unbounded number of blocks, gradients and names", "anchors": ["src/tensor/mod.rs: TensorMap::new, check_labels_names"]}
{"id": "C14", "title": "blocks_matching returns exactly the matching blocks", "statement": "blocks_matching(selection) with a single-row selection over known key names returns, in increasing order and without repetition, exactly the indices of the blocks whose key agrees with the selection on every selected name; an empty selection returns all blocks; a selection with an unknown name or not exactly one row is an error.", "quantifier": "every tensor map and every selection", "why_tests_cant": "all selections and all sets of keys", "anchors": ["src/tensor/mod.rs: TensorMap::blocks_matching"]}
{"id": "C15", "title": "block_matching is unambiguous", "statement": "block_matching(selection) returns i iff i is the only block matching the selection; it is an error when no block or more than one block matches. Selecting with the full key of block i always returns i.", "quantifier": "every tensor map and every selection", "why_tests_cant": "all selections and all sets of keys", "anchors": ["src/tensor/mod.rs: TensorMap::block_matching, TensorMap::block"]}
{"id": "C16", "title": "Iterating a tensor map pairs each key with its own block", "statement": "iter() and iter_mut() yield (keys[i], blocks[i]) for i = 0, 1, ... exactly once each, and nothing else.", "quantifier": "every tensor map", "why_tests_cant": "any number of keys", "anchors": ["src/tensor/iter.rs: TensorMap::iter, iter_mut, Iter::next"]}
{"id": "C17", "title": "Moving key variables yields the distinct remaining keys", "statement": "After keys_to_samples or keys_to_properties moved a set of variables, the new keys contain the remaining variables in their original order, each distinct combination exactly once in order of first appearance; when no variable remains the keys are the single entry named '_' with value 0.", "quantifier": "every tensor map and every set of variables", "why_tests_cant": "all keys and subsets of names", "anchors": ["src/tensor/utils.rs: remove_variables_from_keys", "src/tensor/keys_to_samples.rs: keys_to_samples", "src/tensor/keys_to_properties.rs: keys_to_properties"]}
{"id": "C18", "title": "keys_to_samples keeps every value under its labels", "statement": "When keys_to_samples succeeds with the variables listed in key order, each value stored in block with key k at (sample s, components c, property p) is found in the new block for the remaining part of k at (s followed by the moved part of k, c, p), and every entry of a new block comes from exactly one old entry: nothing is lost, invented or duplicated.", "quantifier": "every tensor map, every subset of key variables, both values of sort_samples, every entry", "why_tests_cant": "unbounded blocks, labels and shapes; needs the index arithmetic of the data moves to be right everywhere", "anchors": ["src/tensor/keys_to_samples.rs: keys_to_samples, merge_blocks_along_samples", "src/tensor/utils.rs: merge_samples", "src/data.rs: move_samples_from"]}
{"id": "C19", "title": "keys_to_samples keeps every gradient value under its labels", "statement": "Under the same conditions, each gradient value of parameter q at (gradient sample (i, r), components, property) in an old block is found in the new block's gradient q at (i', r) where i' is the position of the moved sample i in the merged samples, and every entry of the new gradient comes from exactly one old entry.", "quantifier": "every tensor map with gradients whose sample indices are in range and whose gradient components agree", "why_tests_cant": "unbounded; the re-indexing of gradient samples must be right for every merge", "anchors": ["src/tensor/utils.rs: merge_gradient_samples", "src/tensor/keys_to_samples.rs: merge_blocks_along_samples"]}
{"id": "C20", "title": "Merged samples are ordered as documented", "statement": "With sort_samples the merged samples are strictly increasing in lexicographic order; without it they are in order of first appearance, block after block. Merged gradient samples are always strictly increasing.", "quantifier": "every list of blocks and both settings of sort_samples", "why_tests_cant": "ordering over all inputs", "anchors": ["src/tensor/utils.rs: merge_samples, merge_gradient_samples"]}
{"id": "C21", "title": "keys_to_properties keeps every value under its labels", "statement": "When keys_to_properties succeeds with only variable names given (in key order), each old value of block k at (s, c, p) is found in the new block at (s, c, moved part of k followed by p), and all other entries of the new block are zero.", "quantifier": "every tensor map, every subset of key variables, both values of sort_samples, every entry", "why_tests_cant": "unbounded blocks, labels and shapes", "anchors": ["src/tensor/keys_to_properties.rs: keys_to_properties, merge_blocks_along_properties", "src/tensor/utils.rs: merge_samples"]}
{"id": "C22", "title": "keys_to_properties with explicit entries uses exactly these entries", "statement": "When keys_to_properties is given explicit rows, the new properties are the product of these rows (in the given order) and the old properties; values of blocks whose moved key is listed are kept under their labels, blocks whose moved key is not listed contribute no data, and all other entries are zero.", "quantifier": "every tensor map with equal properties, every non-empty list of rows, every entry", "why_tests_cant": "unbounded blocks, rows and shapes", "anchors": ["src/tensor/keys_to_properties.rs: merge_blocks_along_properties"]}
{"id": "C23", "title": "keys_to_properties keeps every gradient value under its labels", "statement": "Under the same conditions each gradient value of parameter q at ((i, r), c, p) in block k is found in the new gradient q at ((i', r), c, moved part of k followed by p) where i' is the position of sample i in the merged samples; all other entries of the new gradient are zero.", "quantifier": "every tensor map with gradients whose sample indices are in range and whose gradient components agree", "why_tests_cant": "unbounded", "anchors": ["src/tensor/keys_to_properties.rs: merge_blocks_along_properties", "src/tensor/utils.rs: merge_gradient_samples"]}
{"id": "C24", "title": "A failed keys_to_samples or keys_to_properties changes nothing", "statement": "When keys_to_samples or keys_to_properties returns an error or panics, keys and blocks of the tensor map are unchanged.", "quantifier": "every tensor map, every argument, every failure (including failing array callbacks)", "why_tests_cant": "failure points are everywhere in the merge loops", "anchors": ["src/tensor/keys_to_samples.rs: keys_to_samples", "src/tensor/keys_to_properties.rs: keys_to_properties"]}
{"id": "C25", "title": "Merging produces a well-formed tensor map", "statement": "After a successful keys_to_samples or keys_to_properties the tensor map satisfies everything TensorMap::new and TensorBlock::new would have required of it.", "quantifier": "every well-formed tensor map and every successful call", "why_tests_cant": "closure of the invariants under the operations, for all histories", "anchors": ["src/tensor/keys_to_samples.rs: merge_blocks_along_samples", "src/tensor/keys_to_properties.rs: merge_blocks_along_properties"]}
{"id": "C26", "title": "The names of moved variables keep their values whatever the order they are requested in", "statement": "After moving several key variables, looking up variable x in a new sample (or property) gives the value variable x had in the key of the block the entry comes from, whichever order the variables were listed in.", "quantifier": "every order in which the variables to move can be listed", "why_tests_cant": "all permutations of all subsets of names", "anchors": ["src/tensor/utils.rs: remove_variables_from_keys", "src/tensor/keys_to_samples.rs: keys_to_samples", "src/tensor/keys_to_properties.rs: keys_to_properties"]}
{"id": "C27", "title": "components_to_properties keeps every value under its labels", "statement": "After components_to_properties([x]) the value at (s, components c, property p) is found at (s, components c without x, property (value of x in c) followed by p), in the values and in every gradient, whichever component is moved.", "quantifier": "every block, any number of components, every moved component, every entry", "why_tests_cant": "all ranks and shapes; the test-suite uses at most two components", "anchors": ["src/blocks.rs: BasicBlock::components_to_properties, TensorBlock::components_to_properties"]}
{"id": "C28", "title": "components_to_properties is all-or-nothing", "statement": "When components_to_properties fails (error or panic) the tensor map still satisfies the block shape invariant and is unchanged.", "quantifier": "every block, every variable name, every failure point", "why_tests_cant": "failures in the middle of the operation", "anchors": ["src/blocks.rs: BasicBlock::components_to_properties", "src/tensor/mod.rs: TensorMap::components_to_properties"]}
{"id": "C29", "title": "components_to_properties keeps gradients and values consistent", "statement": "After a successful components_to_properties the block shape invariant holds and every gradient has exactly the same properties as the values.", "quantifier": "every well-formed block with gradients and every moved component", "why_tests_cant": "closure of the invariant for all shapes", "anchors": ["src/blocks.rs: TensorBlock::components_to_properties"]}
{"id": "C30", "title": "Moving keys of a valid tensor map never panics", "statement": "For every tensor map that TensorMap::new accepted, keys_to_samples and keys_to_properties either succeed or return an error.", "quantifier": "every tensor map accepted by the constructors and every argument", "why_tests_cant": "panics hide in corner cases (empty label sets, zero properties, out of range gradient samples, colliding names)", "anchors": ["src/tensor/utils.rs: merge_gradient_samples", "src/tensor/keys_to_properties.rs: merge_blocks_along_properties", "src/tensor/keys_to_samples.rs: merge_blocks_along_samples"]}
{"id": "C31", "title": "Gradient data is never mixed across different gradient components", "statement": "When two merged blocks have different gradient components, the merge is refused (as it is for different value components) rather than storing data under the wrong component labels.", "quantifier": "every pair of blocks with the same gradient component names and different gradient component values, in debug and in release builds", "why_tests_cant": "depends on the build profile and on all label values", "anchors": ["src/tensor/keys_to_samples.rs: debug_assert on gradient components", "src/tensor/keys_to_properties.rs: debug_assert on gradient components"]}
{"id": "C32", "title": "Data origins are stable and unambiguous", "statement": "Registering a name returns the same identifier for the whole life of the process, different names get different identifiers, get_data_origin gives back the registered name, and unknown identifiers give the 'unregistered origin' name.", "quantifier": "every interleaving of register and get calls from any number of threads", "why_tests_cant": "unbounded histories and schedules", "anchors": ["src/data.rs: register_data_origin, get_data_origin, REGISTERED_DATA_ORIGIN"]}
{"id": "C33", "title": "Origin names are copied within the buffer", "statement": "eqs_get_data_origin never writes outside of the provided buffer; when the name and its terminator fit the buffer contains exactly the name; when they do not fit the function reports EQS_BUFFER_SIZE_ERROR.", "quantifier": "every origin name and every buffer length, including zero", "why_tests_cant": "all lengths; out of bounds writes are not observable by ordinary tests", "anchors": ["src/c_api/utils.rs: copy_str_to_c", "src/c_api/data.rs: eqs_get_data_origin"]}
{"id": "C34", "title": "Status codes and last error message tell the truth", "statement": "A C API call returns EQS_SUCCESS iff the operation succeeded; otherwise it returns the code of the error and eqs_last_error() called on the same thread returns the message of the most recent failed call on that thread, whatever happened on other threads and whatever calls succeeded since.", "quantifier": "every interleaving of calls on any number of threads", "why_tests_cant": "unbounded schedules", "anchors": ["src/c_api/status.rs: From<Error> for eqs_status_t, catch_unwind, eqs_last_error"]}
{"id": "C35", "title": "No panic crosses the C boundary", "statement": "Every panic inside a C API function is turned into EQS_INTERNAL_ERROR; the C API never unwinds into the caller.", "quantifier": "every result, error or panic of the wrapped code, with every possible message", "why_tests_cant": "all messages, including ones with embedded NUL bytes coming from a file", "anchors": ["src/c_api/status.rs: catch_unwind, From<Error> for eqs_status_t", "src/lib.rs: From<Box<dyn Any>> for Error"]}
{"id": "C36", "title": "Labels survive the C API", "statement": "Converting Labels to eqs_labels_t and back gives equal Labels; converting any eqs_labels_t yields Labels exactly when its names are valid and distinct and its rows are distinct.", "quantifier": "every Labels with at least one variable and every C labels struct", "why_tests_cant": "all labels", "anchors": ["src/c_api/labels.rs: TryFrom<&Labels> for eqs_labels_t, TryFrom<&eqs_labels_t> for Labels"]}
{"id": "C37", "title": "eqs_block_labels and the array axes agree", "statement": "For axis a of the values or of a gradient, eqs_block_labels(block, name, a) returns the labels whose count is the length of axis a of the array returned by eqs_block_data, and fails exactly for axes the array does not have or for unknown gradients.", "quantifier": "every reachable block, every gradient name and every axis number", "why_tests_cant": "all ranks and axes", "anchors": ["src/c_api/blocks.rs: eqs_block_labels, eqs_block_data"]}
{"id": "C38", "title": "The C blocks_matching respects its buffer", "statement": "eqs_tensormap_blocks_matching writes at most count indices; on success the first *count of them are exactly the matching blocks; when the buffer is too small it reports an error without touching *count.", "quantifier": "every tensor map, selection and buffer size", "why_tests_cant": "all buffer sizes", "anchors": ["src/c_api/tensor.rs: eqs_tensormap_blocks_matching"]}
{"id": "C39", "title": "Every array is destroyed exactly once", "statement": "Over any sequence of C API calls (creating blocks, adding gradients, copying, building, transforming and freeing tensor maps, with calls failing at any point), every data array given to or created by the library is destroyed at most once, never while still reachable from a live handle, and all arrays are destroyed once every handle is freed.", "quantifier": "every history of C API calls with arbitrary failures", "why_tests_cant": "unbounded histories; leaks and double frees need whole-history reasoning", "anchors": ["src/data.rs: Drop/Clone/raw_copy for eqs_array_t", "src/c_api/blocks.rs", "src/c_api/tensor.rs"]}
{"id": "C40", "title": "A block is never shared by two tensor maps entries", "statement": "eqs_tensormap refuses a list containing the same block pointer twice and leaves all blocks untouched; otherwise it takes ownership of every block and resets every pointer of the array.", "quantifier": "every array of block pointers", "why_tests_cant": "all pointer lists", "anchors": ["src/c_api/tensor.rs: eqs_tensormap"]}
{"id": "C41", "title": "NPY headers round-trip", "statement": "Writing a header and reading it back gives the same type descriptor, order and shape, and leaves the reader exactly at the start of the data.", "quantifier": "every descriptor the library writes (f8 and i4 struct descriptors with any valid names), every shape of any rank and size", "why_tests_cant": "all ranks, sizes and names; header lengths crossing the 64-byte and the 2-byte/4-byte length boundaries", "anchors": ["src/io/npy_header.rs: Header::to_bytes, from_reader, to_py_value, from_py_value"]}
{"id": "C42", "title": "NPY headers are aligned and choose the right version", "statement": "The total header length is a multiple of 64, the header ends with a newline, the length field is the exact length of what follows, and version 1 is used exactly when the length fits in two bytes.", "quantifier": "every header length", "why_tests_cant": "all lengths around 2^16", "anchors": ["src/io/npy_header.rs: Version::compute_lengths, format_header_len, Header::to_bytes"]}
{"id": "C43", "title": "Labels files round-trip", "statement": "Writing Labels as NPY and reading them back gives equal Labels, for 32-bit values of any sign; the reader accepts the same data in little and big endian.", "quantifier": "every Labels with at least one variable and 32-bit values", "why_tests_cant": "all labels and all 2^32 values", "anchors": ["src/io/labels.rs: write_npy_labels, read_npy_labels, check_type_descriptor"]}
{"id": "C44", "title": "Data files round-trip bit for bit", "statement": "Writing an array as NPY and reading it back gives an array with the same shape and bit-identical elements (including NaN payloads and signed zeros), in little and big endian.", "quantifier": "every shape and every 64-bit pattern", "why_tests_cant": "2^64 values per element, any rank", "anchors": ["src/io/mod.rs: write_data, read_data"]}
{"id": "C45", "title": "Truncated or extended files are refused", "statement": "Removing any number of trailing bytes from, or appending any number of bytes to, a data or labels file makes reading fail with an error.", "quantifier": "every file written by the library and every truncation or extension", "why_tests_cant": "all files and all cut points", "anchors": ["src/io/mod.rs: read_data, check_for_extra_bytes", "src/io/labels.rs: read_npy_labels", "src/io/npy_header.rs: Header::from_reader"]}
{"id": "C46", "title": "Saving and loading a tensor map gives the same tensor map", "statement": "load(save(t)) succeeds and gives the same keys, and for each block the same labels, values and gradients under the same parameter names, whatever the number of blocks, components, gradients and the gradient names, and whatever order the archive lists its files in.", "quantifier": "every tensor map stored in Rust arrays, every archive listing order", "why_tests_cant": "unbounded; also covers odd gradient names", "anchors": ["src/io/mod.rs: save, load"]}
{"id": "C47", "title": "No two parts of a tensor map share an archive path", "statement": "All the paths used by save for one tensor map are distinct, and the gradient parameters recovered by load from the paths are exactly the ones saved.", "quantifier": "every number of blocks, components and every set of gradient names (including names containing slashes)", "why_tests_cant": "gradient names are arbitrary strings", "anchors": ["src/io/mod.rs: save, load"]}
{"id": "C48", "title": "Loading a malformed file reports an error", "statement": "load never panics: for every archive content it returns a tensor map or an error.", "quantifier": "every archive content", "why_tests_cant": "all byte strings", "anchors": ["src/io/mod.rs: load, read_data", "src/io/labels.rs: read_npy_labels, check_type_descriptor"]}
{"id": "C49", "title": "A failed array reshape keeps the data", "statement": "When reshape of a Rust array fails because the sizes do not match, the array is unchanged.", "quantifier": "every array and every requested shape", "why_tests_cant": "all shapes", "anchors": ["src/data.rs: impl Array for ndarray::ArrayD<f64>: reshape", "src/data.rs: rust_array_reshape"]}
{"id": "C50", "title": "Blocks with different array origins are never mixed in memory", "statement": "Merging blocks whose arrays come from different origins is refused before one origin's code touches the other origin's array.", "quantifier": "every tensor map accepted by TensorMap::new", "why_tests_cant": "undefined behaviour is not observable by tests", "anchors": ["src/tensor/mod.rs: TensorMap::new", "src/data.rs: rust_array_move_samples_from"]}
{"id": "C51", "title": "Merging is insensitive to hash map iteration order", "statement": "The result of keys_to_samples, keys_to_properties and components_to_properties does not depend on the iteration order of the gradients hash map, apart from the order of gradients_list().", "quantifier": "every permutation of the gradients of every block", "why_tests_cant": "hash map iteration order is random per process", "anchors": ["src/blocks.rs: TensorBlock::gradients", "src/tensor/keys_to_samples.rs: merge_blocks_along_samples"]}
{"id": "C52", "title": "keys_to_samples succeeds whenever it meaningfully can", "statement": "For every well-formed tensor map with at least one block, in-range gradient samples, agreeing gradient components, less than 2^31 samples in total, and arrays of the same origin which answer all calls: moving a non-empty list of names which do not collide with the sample names succeeds exactly when the names are names of the keys, no values are given, and merged blocks have the same components and properties. Otherwise the status is an invalid parameter, and the tensor map is unchanged.", "quantifier": "every such tensor map", "why_tests_cant": "completeness over all inputs: no spurious error or panic", "anchors": ["src/tensor/keys_to_samples.rs: keys_to_samples, merge_blocks_along_samples"]}
{"id": "C53", "title": "keys_to_properties succeeds whenever it meaningfully can", "statement": "For every well-formed tensor map with at least one block, in-range gradient samples, agreeing gradient components, non-empty properties, less than 2^31 samples in total, and arrays of the same origin which answer all calls: moving a non-empty list of names which do not collide with the property names succeeds exactly when the names are names of the keys, and merged blocks have the same components, and the same properties when values are given. Otherwise the status is an invalid parameter, and the tensor map is unchanged.", "quantifier": "every such tensor map", "why_tests_cant": "completeness over all inputs: no spurious error or panic", "anchors": ["src/tensor/keys_to_properties.rs: keys_to_properties, merge_blocks_along_properties"]}
{"id": "C54", "title": "Whatever is loaded is a valid tensor map", "statement": "For every archive content and every listing order of its files, when load returns a tensor map, all the invariants of tensor maps hold: labels are valid and without repetition, blocks have the shape of their labels, gradients refer to their blocks, and all blocks use the same names as each other, one per key.", "quantifier": "every archive, well formed or not", "why_tests_cant": "the archive is arbitrary, hostile bytes included", "anchors": ["src/io/mod.rs: load, load_block, read_data", "src/io/labels.rs: read_npy_labels"]}
{"id": "C55", "title": "Blocks and tensor maps of the C API stay well formed", "statement": "After any sequence of C API calls, failed or not, every block and every tensor map which a handle gives access to satisfies all the invariants of the library (valid labels, arrays with the shape of the labels, compatible gradients, homogeneous blocks), and every block has its own arrays, not destroyed, one for the values and one per gradient.", "quantifier": "every history of C API calls, on any number of threads, with arbitrary failures", "why_tests_cant": "unbounded histories", "anchors": ["src/c_api/blocks.rs", "src/c_api/tensor.rs"]}
{"id": "C56", "title": "C API calls only change the objects they are given", "statement": "A call changes no block and no tensor map but the ones it is given for this purpose, and a new block or tensor map never reuses the handle of another one which is or was alive.", "quantifier": "every history of C API calls and every call", "why_tests_cant": "unbounded histories; needs to look at all other objects", "anchors": ["src/c_api/blocks.rs", "src/c_api/tensor.rs"]}
{"id": "C57", "title": "Failed C API calls change nothing", "statement": "When a call returns an error, no block and no tensor map changed, appeared or disappeared. The exceptions are eqs_tensormap, which takes the blocks in any case, and eqs_tensormap_components_to_properties.", "quantifier": "every history of C API calls and every failed call", "why_tests_cant": "every way to fail, in every state", "anchors": ["src/c_api/blocks.rs", "src/c_api/tensor.rs"]}
{"id": "C58", "title": "The C API is memory safe for callers which respect its contract", "statement": "When all calls are made with null or live handles, readable labels, and non empty buffers, and keys are moved in tensor maps with arrays of one kind, no call has undefined behavior: nothing is used after it was freed or written out of bounds, and no pointer is cast to a wrong type.", "quantifier": "every history of such calls, on any number of threads, with arbitrary failures", "why_tests_cant": "undefined behavior is not observable by ordinary tests; unbounded histories", "anchors": ["src/c_api/*.rs", "src/data.rs"]}
{"id": "C59", "title": "What was saved with the C API is loaded by the C API", "statement": "After eqs_tensormap_save succeeded, eqs_tensormap_load of the same path gives a tensor map equal to the one which was saved (at the time it was saved), whatever calls happen in between, as long as they do not write to this file.", "quantifier": "every history of C API calls which contains a save and a load", "why_tests_cant": "all tensor maps, all histories", "anchors": ["src/c_api/io.rs: eqs_tensormap_save, eqs_tensormap_load"]}
{"id": "C60", "title": "eqs_block creates exactly the described blocks", "statement": "In every reachable state, eqs_block succeeds exactly when the labels are valid and the shape of the array matches them. The new block has these labels, this array and no gradient, and no other object changes. On failure NULL is returned and the array is destroyed.", "quantifier": "every history, every array and labels", "why_tests_cant": "all inputs in all reachable states", "anchors": ["src/c_api/blocks.rs: eqs_block"]}
{"id": "C61", "title": "eqs_block_add_gradient adds exactly one gradient or nothing", "statement": "In every reachable state, eqs_block_add_gradient succeeds exactly when the labels are valid and make an acceptable gradient of this block. The gradient is then the last one of the block, with the given array, samples, components and the properties of the block. On failure the block is unchanged and the array is destroyed.", "quantifier": "every history, every block, array and labels", "why_tests_cant": "all inputs in all reachable states", "anchors": ["src/c_api/blocks.rs: eqs_block_add_gradient"]}
{"id": "C62", "title": "eqs_block_copy makes an independent equal block", "statement": "In every reachable state, eqs_block_copy of a live block (inside a tensor map or not) succeeds exactly when all its arrays can be copied. The copy has the same labels, data and gradients, and its own arrays, never used before. On failure no block appears.", "quantifier": "every history and every block", "why_tests_cant": "all inputs in all reachable states", "anchors": ["src/c_api/blocks.rs: eqs_block_copy"]}
{"id": "C63", "title": "eqs_block_gradients_list lists each gradient once", "statement": "In every reachable state, for every live block, the call succeeds and gives the names of all gradients of the block, each once, with the right count, and NULL when there are none.", "quantifier": "every history and every block", "why_tests_cant": "all inputs in all reachable states", "anchors": ["src/c_api/blocks.rs: eqs_block_gradients_list"]}
{"id": "C64", "title": "Keys and blocks of a tensor map are read through the C API", "statement": "In every reachable state, for every live tensor map, eqs_tensormap_keys gives the names and values of the keys, and eqs_tensormap_block_by_id gives a pointer to the block of this index, or an error when there is no such block.", "quantifier": "every history, every tensor map and index", "why_tests_cant": "all inputs in all reachable states", "anchors": ["src/c_api/tensor.rs: eqs_tensormap_keys, eqs_tensormap_block_by_id"]}
{"id": "C65", "title": "The transformations of the C API are the ones of the Rust API", "statement": "In every reachable state, eqs_tensormap_keys_to_samples, keys_to_properties and components_to_properties succeed exactly when the Rust methods do with the labels which the caller described, and leave in the handle the tensor map which they compute. Moved keys use new arrays and the previous ones are destroyed.", "quantifier": "every history, tensor map, labels and options", "why_tests_cant": "all inputs in all reachable states", "anchors": ["src/c_api/tensor.rs: eqs_tensormap_keys_to_samples, eqs_tensormap_keys_to_properties, eqs_tensormap_components_to_properties"]}
{"id": "C66", "title": "Freeing destroys exactly the arrays of the object", "statement": "In every reachable state, eqs_block_free and eqs_tensormap_free of a live handle succeed, destroy each array of the object once and no other array, and remove this object only. With NULL they do nothing.", "quantifier": "every history and every live handle", "why_tests_cant": "all inputs in all reachable states", "anchors": ["src/c_api/blocks.rs: eqs_block_free", "src/c_api/tensor.rs: eqs_tensormap_free"]}
{"id": "C67", "title": "Saved archives follow the documented format", "statement": "When saving succeeds, the archive contains exactly the documented paths (keys.npy; blocks/<i>/values/samples.npy, components/<j>.npy, properties.npy, data.npy; the same under gradients/<parameter> without the properties), each once. Each file is a NPY file as NumPy documents it: magic string, version, length of the header, header which is a Python dictionary literal with exactly descr, fortran_order and shape, end of line, then the numbers of the labels (32 bits) or of the array (64 bits) in C order with the declared endianness.", "quantifier": "every tensor map and both endiannesses", "why_tests_cant": "an independent grammar of the format instead of the library's own reader; all tensor maps, all header lengths", "anchors": ["src/io/mod.rs: save, write_block, write_data", "src/io/labels.rs: write_npy_labels", "src/io/npy_header.rs: Header::write"]}
{"id": "C68", "title": "Archives which follow the documented format are loaded, whatever program wrote them", "statement": "If an archive follows the documented format for a tensor map - any order of the files and of the header entries, any spelling of the Python literal (quotes, blanks, trailing commas), any NPY version from 1.0 to 3.0, any padding, any endianness chosen per file - then loading succeeds and gives this tensor map. In particular all the archives for the same tensor map load alike.", "quantifier": "every tensor map, every conforming archive, every order of the names given by the zip library, both profiles", "why_tests_cant": "all spellings of a header cannot be listed; tests read files made by one version of NumPy", "anchors": ["src/io/mod.rs: load, read_block, read_data", "src/io/labels.rs: read_npy_labels", "src/io/npy_header.rs: Header::from_reader", "crate py_literal 0.4: Value::from_str"]}
{"id": "C69", "title": "The memory layout of Rust arrays is invisible, except that reading some arrays fails", "statement": "A program which creates, copies, reshapes, transposes, fills (move_samples_from), reads and destroys arrays, and chooses each operation from the results of the previous ones, sees the same results if each array is only the list of its elements in row-major order with strides which decide if reading succeeds, instead of a buffer with a position for each element. In particular no operation loses, mixes or overwrites elements because two of them share a position, and reading gives the elements in row-major order or fails.", "quantifier": "every interactive program, every initial list of arrays without gaps nor overlaps in memory, whatever their strides", "why_tests_cant": "tests use arrays in row-major order; the layouts and the sequences of operations can not be listed", "anchors": ["src/data.rs: impl Array for ndarray::ArrayD<f64>"]}
{"id": "C70", "title": "Moving keys gives arrays which can be read", "statement": "After a successful keys_to_samples or keys_to_properties on Rust arrays, the data of every array (values and gradients) can be read, whatever the memory layout of the arrays before.", "quantifier": "every tensor map with Rust arrays, every list of keys, both profiles, both values of sort_samples", "why_tests_cant": "tests start from arrays in row-major order", "anchors": ["src/tensor/keys_to_samples.rs: keys_to_samples", "src/tensor/keys_to_properties.rs: keys_to_properties", "src/data.rs: impl Array for ndarray::ArrayD<f64>"]}
{"id": "C71", "title": "Moving components gives arrays which can be read and saved", "statement": "If the data of all arrays can be read, it can still be read after a successful components_to_properties, and the tensor map can still be saved.", "quantifier": "every tensor map with Rust arrays, every component", "why_tests_cant": "the failure needs the component before last, a single property, and two components with two entries or more; tests compare the values with an API which does not need contiguous data", "anchors": ["src/tensor/mod.rs: components_to_properties", "src/blocks.rs: components_to_properties", "src/data.rs: impl Array for ndarray::ArrayD<f64>"]}
{"id": "C72", "title": "Archives saved with numpy follow the documented format", "statement": "equistore.save(use_numpy=True) succeeds exactly when all arrays are numpy or torch arrays, or Rust arrays in row-major order. If no array of numpy or torch is contiguous in Fortran order only, the archive follows the documented format, and the Rust library loads the same tensor map from it (same keys, labels, shapes, values and gradients). If there is one, the Rust library can not load the archive.", "quantifier": "every tensor map, every layout of the arrays, every writer of NPY files which follows the format", "why_tests_cant": "tests save one tensor map, with arrays in row-major order", "anchors": ["equistore/io.py: save, _tensor_map_to_dict, _array_to_numpy", "src/io/mod.rs: load"]}
{"id": "C73", "title": "numpy loads the archives of the library", "statement": "equistore.load(use_numpy=True) succeeds and gives the same tensor map on all archives which follow the documented format, and in particular on all archives saved by the Rust library, when the labels are stored with the endianness of the machine and numpy accepts the size of the headers.", "quantifier": "every tensor map, every archive in the documented format, every reader of NPY files which follows the format", "why_tests_cant": "tests load one file", "anchors": ["equistore/io.py: load, _read_npz, _labels_from_npz"]}
{"id": "C74", "title": "Saving and loading with numpy gives the same tensor map", "statement": "If equistore.save(use_numpy=True) succeeds, then equistore.load(use_numpy=True) on the archive gives the same tensor map: same keys, labels, shapes, values and gradients, for C, Fortran and strided arrays.", "quantifier": "every tensor map, every layout of the arrays, every writer and reader of NPY files which follow the format, both endiannesses", "why_tests_cant": "tests use arrays in row-major order, on one machine", "anchors": ["equistore/io.py: save, load, _tensor_map_to_dict, _read_npz"]}
{"id": "C75", "title": "Archives saved by numpy or by the library are loaded by both", "statement": "The Rust library loads all archives saved with use_numpy=True, and use_numpy=True loads the same tensor map from all archives which follow the documented format.", "quantifier": "every tensor map, every layout of the arrays, both endiannesses", "why_tests_cant": "the failures need arrays in Fortran order, or a file from another kind of machine", "anchors": ["equistore/io.py: _tensor_map_to_dict, _labels_from_npz", "src/io/mod.rs: read_data"]}
{"id": "C76", "title": "Labels given to the library are the ones seen from Python", "statement": "When Labels are given to a block, a tensor map or a selection, the library gets the names and the entries which Python shows for these Labels, and accepts them exactly when the names are valid and the entries are all different; this includes parts of Labels (labels[1:3], labels[::2], labels[::-1], labels[mask], labels[[\"a\"]]).", "quantifier": "every Labels a program can make with the constructor, get from the library, and take parts of", "why_tests_cant": "tests only give Labels which were just made, and are contiguous in memory", "anchors": ["equistore/labels.py: __new__, _as_eqs_labels_t"]}
{"id": "C77", "title": "Labels(names, values) keeps the values of the array", "statement": "Labels made from a 2D array of integers have the given names and the values of the array as entries, and making them works exactly when there is one name for each column, the names are different and the entries are different.", "quantifier": "every list of names and every array of integers of any size", "why_tests_cant": "tests use small integers; the wrong values need integers which do not fit in 32 bits", "anchors": ["equistore/labels.py: __new__"]}
{"id": "C78", "title": "Labels.position finds exactly the entries which are there", "statement": "For Labels which come from a block or a tensor map, position(label) is the position of the entry, None if it is not there, and an exception if the label does not have one value for each name; `in` is the same.", "quantifier": "every labels of the library, every label", "why_tests_cant": "tests look for a few entries in labels with entries", "anchors": ["equistore/labels.py: _from_eqs_labels_t, position, __contains__"]}
{"id": "C79", "title": "TensorMap.block and blocks select by key", "statement": "blocks_matching, blocks and block with an index, keywords or Labels with one entry give exactly the blocks whose key has all these values, in the order of the keys; blocks raises an exception when there is none, block when there is not exactly one, and all raise an exception for a name which is not in the keys.", "quantifier": "every program, every tensor map alive in it, every selection", "why_tests_cant": "tests use one tensor map and a few selections", "anchors": ["equistore/tensor.py: block, blocks, blocks_matching, _get_block_by_id"]}
{"id": "C80", "title": "data_origin_name gives the name of all origins", "statement": "data_origin_name(origin) returns the name with which this origin was registered.", "quantifier": "every program, every registered origin, names of any length", "why_tests_cant": "tests use short names", "anchors": ["equistore/data.py: data_origin_name", "equistore/utils.py: _call_with_growing_buffer"]}
{"id": "C81", "title": "Python programs never use freed memory", "statement": "A Python program using labels, blocks and tensor maps never reads or writes memory which was freed, whenever Python frees its objects.", "quantifier": "every program, every time objects are collected; here when no block, label or array is used after its tensor map was changed, blocks of a tensor map are not modified, a list given to TensorMap() is not changed and has new blocks, and arrays have one origin", "why_tests_cant": "depends on when objects are collected, and the memory often still has the same values after it was freed", "anchors": ["equistore/block.py: TensorBlock", "equistore/tensor.py: TensorMap", "equistore/data.py: ArrayWrapper, _RustNDArray", "equistore/labels.py: Labels"]}
{"id": "C82", "title": "Python objects own each block exactly once, and free everything", "statement": "At any time, each block and tensor map of the library is freed by exactly one Python object; when a program drops all its variables, all the blocks, tensor maps and arrays are freed exactly once.", "quantifier": "every program as in C81 where TensorMap() does not raise, at any time", "why_tests_cant": "tests do not look at the memory after objects are dropped", "anchors": ["equistore/block.py: __del__", "equistore/tensor.py: __init__, __del__", "equistore/data.py: _eqs_array_destroy"]}
{"id": "C83", "title": "Collecting objects can not be observed", "statement": "When Python frees any group of objects which are not used, all the objects a program can still use refer to the same blocks and tensor maps, and views can still be read.", "quantifier": "every program as in C81, every group of objects", "why_tests_cant": "tests run with one schedule of the garbage collector", "anchors": ["equistore/block.py: _parent, __del__", "equistore/tensor.py: _blocks, __del__", "equistore/data.py: _parent, _children"]}
{"id": "C84", "title": "Blocks can be read as long as Python has them", "statement": "A block which is in a variable, which was not moved to a tensor map and is not from before keys were moved, can be read: its values and gradients are returned, and the result can be read.", "quantifier": "every program as in C81, every such block, values and all gradients", "why_tests_cant": "depends on which other objects were collected before", "anchors": ["equistore/block.py: values, gradient", "equistore/data.py: eqs_array_to_python_object"]}
{"id": "C85", "title": "numpy arrays behave like Rust arrays", "statement": "A program using arrays through the callbacks gets the same answers (shapes, elements, errors) from numpy arrays, whatever their offset, strides and shared memory, as from the arrays of the library with the same elements.", "quantifier": "every program which moves samples to arrays it created, with all the properties of the input and the same components, all numpy arrays of the same type, every way numpy decides if a reshape is a view", "why_tests_cant": "tests use contiguous arrays of one type, which do not share memory", "anchors": ["equistore/data.py: _eqs_array_reshape, _eqs_array_swap_axes, _eqs_array_create, _eqs_array_copy, _eqs_array_move_samples_from", "src/data.rs: EqsArray"]}
{"id": "C86", "title": "The memory of users is never changed", "statement": "No call to the callbacks of numpy arrays changes the memory which exists before it, unless an array of the user is the output of a move; arrays created by the library never share memory with other arrays.", "quantifier": "every list of calls, all arrays in any memory, of any types", "why_tests_cant": "tests do not look at the arrays after they were given to the library", "anchors": ["equistore/data.py: _eqs_array_create, _eqs_array_copy, _eqs_array_move_samples_from, _eqs_array_reshape"]}
{"id": "C87", "title": "What the library reads from numpy arrays", "statement": "The data callback succeeds exactly for arrays of float64 with contiguous elements in row-major order, and gives these elements; it always succeeds for float64 arrays which the library created and only moved samples to.", "quantifier": "all numpy arrays in any memory, every list of calls", "why_tests_cant": "depends on the strides, which tests do not change", "anchors": ["equistore/data.py: _eqs_array_data"]}
{"id": "C88", "title": "Moving keys gives the same tensor map with numpy", "statement": "keys_to_samples and keys_to_properties give the same tensor map with the moves of numpy as with the moves of the Rust arrays.", "quantifier": "every tensor map with numpy arrays of the same type, all keys, sorted or not, both profiles when gradients of merged blocks have the same components, in debug for all", "why_tests_cant": "tests check one tensor map with each kind of array", "anchors": ["src/tensor/keys_to_samples.rs", "src/tensor/keys_to_properties.rs", "equistore/data.py: _eqs_array_move_samples_from"]}
{"id": "C89", "title": "The generated Python declarations are the ones of the header", "statement": "For every header where names start with eqs_ and are declared once, typedefs are for types of one word and eqs_status_t is int32_t: if scripts/generate-declarations.py makes a module from it and this module can be imported, its functions have the same parameters and results as in the header, and its structures the same members in the same order. equistore/_c_api.py is what the script makes from include/equistore.h.", "quantifier": "all headers of this form, all platforms (sizes of pointers and of long)", "why_tests_cant": "a wrong declaration shows only on some platforms or for some values, and tests only use the current header", "anchors": ["scripts/generate-declarations.py", "equistore/_c_api.py", "include/equistore.h"]}
{"id": "C90", "title": "Rust, C and Python declare the same functions", "statement": "The structures and functions of the C API have the same members, parameters and results in the Rust code, in include/equistore.h and in equistore/_c_api.py.", "quantifier": "all platforms (sizes of pointers and of long), all the functions", "why_tests_cant": "a difference is undefined behavior, which can go unnoticed", "anchors": ["src/c_api", "src/data.rs: eqs_array_t", "include/equistore.h", "equistore/_c_api.py"]}
{"id": "C91", "title": "Arrays are destroyed once, whatever the functions of arrays answer", "statement": "Creating blocks and tensor maps, adding gradients, copying blocks, keys_to_samples, keys_to_properties and components_to_properties: for all the answers of the functions of eqs_array_t (each call can work or fail independently, and functions can be NULL), each array given to the function or created by it is either in the result or destroyed exactly once, no array is used after it was destroyed, and no array of somebody else is changed.", "quantifier": "all tensor maps and blocks, all answers of the functions of eqs_array_t at each call", "why_tests_cant": "arrays which fail at some call are rare in tests, there is one run for each call which can fail, and a leak or double free is not visible", "anchors": ["src/data.rs: Drop, Clone and wrappers of eqs_array_t", "src/blocks.rs", "src/tensor"]}
{"id": "C92", "title": "A failed merge does not touch the tensor map", "statement": "If keys_to_samples or keys_to_properties does not return successfully, because of a function of eqs_array_t or for any other reason, including panics, the tensor map is exactly the one from before the call, and none of its arrays was changed or destroyed.", "quantifier": "all tensor maps, all answers of the functions of eqs_array_t at each call", "why_tests_cant": "needs a failure at each possible call", "anchors": ["src/tensor/keys_to_samples.rs", "src/tensor/keys_to_properties.rs", "src/tensor/mod.rs: components_to_properties"]}
{"id": "C93", "title": "The failure of a function of arrays is the one reported", "statement": "When a call to a function of eqs_array_t fails, no other function is called afterwards, except destroy, and the result is an error with the status of this call (a panic when the function is NULL, for copy, and for the shape and origin of arrays which the library created).", "quantifier": "all tensor maps and blocks, all answers of the functions of eqs_array_t at each call", "why_tests_cant": "needs a failure at each possible call", "anchors": ["src/data.rs: wrappers of eqs_array_t", "src/blocks.rs", "src/tensor"]}
{"id": "C94", "title": "Merging only depends on what arrays answer", "statement": "With arrays which are in memory and follow the documentation of eqs_array_t, the sequence of calls made by the library has the same result, for all arrays at the end and for errors, as the functions on tensor maps which contain their arrays (used by all the other properties).", "quantifier": "all tensor maps, all states of the memory", "why_tests_cant": "compares two descriptions of the code", "anchors": ["src/data.rs", "src/blocks.rs", "src/tensor"]}
{"id": "C95", "title": "Errors in Python have the right cause", "statement": "When a function of the library fails in Python, the cause of the EquistoreError is the exception which was raised by the Python functions of arrays during this same call; there is no cause if none was raised, and no exception is lost.", "quantifier": "all Python programs, all sequences of calls, all exceptions raised by any function of arrays", "why_tests_cant": "depends on the order of calls, threads and signals, and on failures at each possible call", "anchors": ["equistore/status.py: LAST_EXCEPTION, _check_status, _check_pointer", "equistore/utils.py: catch_exceptions", "src/c_api/status.rs: catch_unwind"]}
{"id": "C96", "title": "move_samples_from is called as documented", "statement": "When keys are moved to samples or properties, move_samples_from is only called with an output made by create from an array of the tensor map and not destroyed since, and an input of the tensor map; all the samples of the input are moved once, to different samples of the output, all positions are inside both arrays, the components have the same lengths, and the range of properties has the length of the input.", "quantifier": "all well formed tensor maps, all answers of the functions of arrays which give right shapes (including failures at any call), both profiles", "why_tests_cant": "needs the exact arguments of all calls, for all tensor maps and all failures, while tests look at results with ndarray", "anchors": ["src/data.rs: eqs_array_t::move_samples_from", "src/tensor/keys_to_samples.rs: merge_blocks_along_samples", "src/tensor/keys_to_properties.rs: merge_blocks_along_properties", "src/tensor/utils.rs: merge_samples, merge_gradient_samples"]}
{"id": "C97", "title": "Printed tensor maps show their keys", "statement": "str of a tensor map gives the number of blocks, the names of the keys, and one line for each entry of the keys with its values separated by blanks; repr gives the same up to ten blocks, and otherwise the first and last three entries around a line with dots. Tensor maps with the same text have the same keys.", "quantifier": "all well formed tensor maps, with any number of keys, any names and any values", "why_tests_cant": "the tests print two tensor maps with one digit values; whether values stay apart depends on the lengths of all names and values", "anchors": ["equistore/labels.py: _print_labels, _make_padding", "equistore/tensor.py: TensorMap.__repr__, TensorMap.__str__"]}
{"id": "C98", "title": "Printed values are aligned under the names", "statement": "In the text of a tensor map, the last digit of every value is under the name of the column, as the documentation of _print_labels says.", "quantifier": "all well formed tensor maps, all names and values", "why_tests_cant": "the tests only use two names with five characters, where the rounding of odd widths does not show", "anchors": ["equistore/labels.py: _print_labels, _make_padding"]}
{"id": "C99", "title": "Printed blocks show their names and gradients", "statement": "repr of a block lists the names of the samples, components and properties and the parameters of the gradients in the order they were added (or no), and repr of a gradient the parameter and the names; blocks or gradients with the same text have the same names and parameters.", "quantifier": "all well formed blocks, all gradients, all parameters", "why_tests_cant": "the tests print one block without components or gradients", "anchors": ["equistore/block.py: TensorBlock.__repr__, Gradient.__repr__"]}
{"id": "C100", "title": "No element of a merged array is written twice", "statement": "In keys_to_samples and keys_to_properties, two calls to move_samples_from with the same output array never write the same sample and property, and one call never sends two samples to the same place: the entries of a block never overwrite the ones of another block, for values and for gradients.", "quantifier": "all well formed tensor maps, all keys to move, all answers of the functions of arrays (including wrong shapes and failures), sorted samples or not, debug and release builds", "why_tests_cant": "whether moves overlap depends on all the samples and keys of the merged blocks; tests only check the final values for a few tensor maps", "anchors": ["src/tensor/keys_to_samples.rs: merge_blocks_along_samples", "src/tensor/keys_to_properties.rs: merge_blocks_along_properties", "src/tensor/utils.rs: merge_samples, merge_gradient_samples"]}
{"id": "C101", "title": "Named tuples of the entries of labels", "statement": "labels.as_namedtuples() gives one named tuple for each entry, in order, and the attributes with the names of the variables are the values of the entry.", "quantifier": "all labels a program can have in Python, all labels of blocks and tensor maps, all names of variables", "why_tests_cant": "the tests use names which are good fields; the names accepted by namedtuple and by the library are different sets", "anchors": ["equistore/labels.py: Labels.as_namedtuples, Labels.single"]}
{"id": "C102", "title": "Labels as a raw array", "statement": "labels.asarray() is the array of the values of the entries: one row for each entry and one column for each variable, in order.", "quantifier": "all labels a program can have in Python, with slices, steps and selected variables, empty or not", "why_tests_cant": "the memory of labels depends on how they were made; tests use a single call on complete labels", "anchors": ["equistore/labels.py: Labels.asarray"]}
{"id": "C103", "title": "Iteration over tensor maps", "statement": "for key, block in tensor gives the keys in order, each with the block of this key; tensor.block(tensor.keys[j]), blocks and blocks_matching give this block only.", "quantifier": "all tensor maps of all programs, all positions of keys, all names of variables", "why_tests_cant": "names of variables become names of keyword arguments, so whether this works depends on the names", "anchors": ["equistore/tensor.py: TensorMap.__iter__, keys, block, blocks, blocks_matching, _get_block_by_id"]}
{"id": "C104", "title": "Labels of blocks in Python", "statement": "samples, components and properties of a block, and of each of its gradients, are labels with the names and entries which are in the library, in order, with each axis at the right place.", "quantifier": "all blocks of all programs, standing alone or in a tensor map, all gradients, any number of components, empty labels", "why_tests_cant": "positions of axes depend on the number of dimensions of the array, tests use one or two components", "anchors": ["equistore/block.py: TensorBlock._labels, samples, components, properties; Gradient", "equistore/labels.py: _from_eqs_labels_t"]}
{"id": "C105", "title": "Names in all blocks of a tensor map", "statement": "sample_names, components_names and property_names of a tensor map are the names of the labels of every block.", "quantifier": "all tensor maps of all programs", "why_tests_cant": "the code only reads the first block: that this is right for the other ones is an invariant of the library", "anchors": ["equistore/tensor.py: TensorMap.sample_names, components_names, property_names", "src/tensor/mod.rs: TensorMap::new"]}
{"id": "C106", "title": "Names given to the functions which move keys", "statement": "keys_to_samples, keys_to_properties and components_to_properties do the same as the library for labels with exactly the names (and entries) given as a name, a list of names or labels, and raise without changing the tensor map if these are not good names.", "quantifier": "all tensor maps of all programs, all names, lists of names and labels, sorted samples or not", "why_tests_cant": "all names must be tried, including those changed by numpy or by the conversion to C strings", "anchors": ["equistore/tensor.py: keys_to_properties, keys_to_samples, components_to_properties, _normalize_keys_to_move, _list_or_str_to_array_c_char"]}
{"id": "C107", "title": "One library for a program", "statement": "Once a program has the library, all later requests give the same one, whatever happens to the files; the path can be set exactly once, only before the first request (on known platforms), and is then the path of the library; otherwise the library is the one next to the Python code, with the name for the platform.", "quantifier": "all sequences of requests and of calls to set the path, with files which change at any time", "why_tests_cant": "each process can only be tested with one library, and the state is global", "anchors": ["equistore/_c_lib.py: _set_equistore_library_path, LibraryFinder, _lib_path"]}
{"id": "C108", "title": "The library is set up", "statement": "A library which is given to the rest of the code has the types of all the functions in the header, and printing of panics disabled.", "quantifier": "all sequences of requests, all libraries (with any exported functions)", "why_tests_cant": "this needs libraries which can not be loaded, or are too old, and requests after an exception", "anchors": ["equistore/_c_lib.py: LibraryFinder.__call__", "equistore/_c_api.py: setup_functions"]}
{"id": "C109", "title": "The file of the library is checked", "statement": "The first request gives a library exactly if the file is there, is a DLL for this machine (on Windows), can be loaded and has all the functions, and otherwise raises; a library without this check is never given.", "quantifier": "all files (any bytes), platforms, architectures, and sequences of requests", "why_tests_cant": "Windows DLL for other machines are not available to tests; each process only has one first request", "anchors": ["equistore/_c_lib.py: _lib_path, _check_dll"]}
{"id": "C110", "title": "Only saving changes files", "statement": "No call of the C API changes a file, but eqs_tensormap_save, which changes no other file than its own; when it returns EQS_SUCCESS the file is a complete archive in the documented format, with the content of the tensor map.", "quantifier": "all programs, all calls in them, all files", "why_tests_cant": "tests look at the file they saved, not at the other ones, and load with the same code", "anchors": ["src/c_api/io.rs: eqs_tensormap_save, eqs_tensormap_load", "src/io/mod.rs: save"]}
{"id": "C111", "title": "A failed save keeps the previous file", "statement": "When eqs_tensormap_save fails, all the files are the same as before the call.", "quantifier": "all programs, all failures: NULL pointers, files which can not be created, arrays which can not be read", "why_tests_cant": "tests of errors do not save over an existing file", "anchors": ["src/c_api/io.rs:56-71", "src/io/mod.rs: save, write_block"]}
{"id": "C112", "title": "A file which could not be saved is not loaded", "statement": "The archive left by a failed save, with its first entries, is never loaded as a tensor map: later calls to eqs_tensormap_load with this path are errors, in all programs, until the path is saved again.", "quantifier": "all tensor maps with an array which can not be read, at any place in it; all programs", "why_tests_cant": "the array which fails can be at any place, and the archive which remains is a valid ZIP file", "anchors": ["src/io/mod.rs: save, write_block, load, read_block"]}
{"id": "C113", "title": "After a success everything is in the file", "statement": "When saving returns without error, all the bytes which were written are in the file, at their position.", "quantifier": "all sequences of writes and seeks of the zip crate, all errors of the operating system", "why_tests_cant": "tests do not have a disk which is full exactly for the last write", "anchors": ["src/c_api/io.rs:66-67", "src/io/mod.rs:165"]}
{"id": "C114", "title": "Tensors of torch can be saved", "statement": "The library can read the data of arrays of 64-bit floating point numbers which are one after the other in memory, for numpy arrays and for tensors of torch on the CPU without gradient tracking; save(use_numpy=True) can convert all tensors without gradient tracking, with the same elements.", "quantifier": "all arrays and tensors: any shape, strides, type, device", "why_tests_cant": "torch is optional: the tests of saving do not use it", "anchors": ["equistore/data.py:211-235", "equistore/io.py:60-66"]}
{"id": "C115", "title": "Iterators give each key with its block", "statement": "The iterators returned by TensorMap::iter and TensorMap::iter_mut give the keys in order, each one with its block, then None for all the calls of next after. Those of Labels::iter and Labels::iter_fixed_size give the entries in order in the same way, and iter_fixed_size only accepts the number of names.", "quantifier": "all tensor maps and labels with names, all numbers of calls of next", "why_tests_cant": "tests collect the items of a few iterators, and do not call next after the end", "anchors": ["src/tensor/iter.rs:7-21", "src/tensor/iter.rs:50-80", "src/labels.rs:292-321", "src/labels.rs:325-392"]}
{"id": "C116", "title": "len() is the number of items left", "statement": "At any time, len() of an iterator over labels or over a tensor map, parallel or not, is the number of items which were not given yet.", "quantifier": "all labels and tensor maps, after all numbers of calls of next", "why_tests_cant": "tests do not call len() on these iterators", "anchors": ["src/tensor/iter.rs:58-62", "src/tensor/iter.rs:85-89", "src/labels.rs:337-341", "src/labels.rs:394-398"]}
{"id": "C117", "title": "Parallel iteration is the same as sequential iteration", "statement": "However rayon divides the work, par_iter and par_iter_mut do not panic, and give each key with its block exactly once, in order inside of each part. Changes made through par_iter_mut are the same in any order: each block is changed once with its own key.", "quantifier": "all tensor maps, all divisions of the work, all orders of execution of the parts", "why_tests_cant": "tests run one division and one order, chosen by rayon on one machine", "anchors": ["src/tensor/iter.rs:24-42", "src/tensor/iter.rs:94-170", "src/labels.rs:300-307", "src/labels.rs:344-374"]}
{"id": "C118", "title": "The Debug text of labels is readable", "statement": "The Debug text of labels has one line with all the names and one line for each entry with its values. Two labels with the same text have the same names and entries. The values are centered under their names in the entries where no value is longer than its name. There is no text for labels without names: it is a panic.", "quantifier": "all labels", "why_tests_cant": "tests do not format labels", "anchors": ["src/labels.rs:228-245"]}
{"id": "C119", "title": "Builds without serialization report an error and keep the files", "statement": "In a build without the serialization feature, eqs_tensormap_load and eqs_tensormap_save never succeed, report an error, and leave all files, blocks and tensor maps as they were.", "quantifier": "every program, every build without the feature, every content of the files", "why_tests_cant": "the tests of these functions are only built with the feature", "anchors": ["src/lib.rs:34-46", "src/c_api/io.rs:20-71", "Cargo.toml:26-28", "CMakeLists.txt:113"]}
{"id": "C120", "title": "eqs_get_rust_array gives the arrays of Rust in row-major order", "statement": "eqs_get_rust_array gives the shape of an array of Rust and a pointer to its numbers, with each number at its row-major position, exactly when the numbers are in this order in memory. In all other cases, including arrays which are not from Rust, it reports an error and gives nothing. It changes no block, tensor map or file.", "quantifier": "every program, every layout of the arrays, every array with any functions, every build", "why_tests_cant": "all layouts, all origins; undefined behaviour is not observable by tests", "anchors": ["src/c_api/data.rs:77-105", "src/data.rs:457-480", "src/data.rs:662-665"]}
{"id": "C121", "title": "Origins registered by the library do not change the others", "statement": "The identifiers of origins stay stable and unambiguous when the library registers the origins of its own arrays at any time, and these arrays always give the identifier of their own name.", "quantifier": "every program, with uses of arrays of Rust between the calls", "why_tests_cant": "unbounded histories", "anchors": ["src/data.rs:19-52", "src/data.rs:272-287", "src/data.rs:662-665", "src/data.rs:737-739"]}
{"id": "C122", "title": "Copying a block leaves the garbage collector as it was", "statement": "After copies of blocks in Python have ended, successfully or not, the garbage collector is enabled if and only if it was before.", "quantifier": "any number of threads and copies, exceptions at any step, all interleavings", "why_tests_cant": "all interleavings of threads and places where an exception can be raised", "anchors": ["equistore/block.py:98-129"]}
{"id": "C123", "title": "The arrays of a copied block are alive", "statement": "Copying a block in Python never uses an object which was freed; once it is done the copy refers to one object for each of its arrays allocated by Python, not shared with other copies, which is not freed by later collections.", "quantifier": "any number of threads and copies, collections and exceptions at any step, all interleavings", "why_tests_cant": "all interleavings of threads and collections", "anchors": ["equistore/block.py:98-129", "equistore/data.py:159-207", "equistore/data.py:287-303"]}
{"id": "C124", "title": "Version of the Python package", "statement": "The version of the Python package is the one of Cargo.toml for a release, that is when there are no commits since the last tag, and otherwise it is followed by .dev and the number of these commits.", "quantifier": "every version, content of Cargo.toml and answer of git", "why_tests_cant": "all answers of git", "anchors": ["setup.py:82-149"]}
{"id": "C125", "title": "CMake and Python use the same version", "statement": "CMake finds the same version in Cargo.toml as Python.", "quantifier": "every Cargo.toml with a version made of three numbers", "why_tests_cant": "unbounded texts", "anchors": ["setup.py:91-100", "CMakeLists.txt:9-16"]}
{"id": "C126", "title": "CMake only finds compatible versions", "statement": "find_package(equistore version) accepts an installed version if and only if it is not older than the requested one and follows Semantic Versioning (same major version, and same minor version before 1.0), or is the same with EXACT; the sizes of pointers have to be the same.", "quantifier": "every requested and installed version", "why_tests_cant": "infinitely many versions", "anchors": ["cmake/equistore-config-version.in.cmake:1-34"]}
{"id": "C127", "title": "The library and Python agree on the shape of arrays", "statement": "At any time, the shape callback of a wrapped numpy array gives the shape the array has in Python, whatever the changes made in place.", "quantifier": "every program which creates, views, wraps and changes arrays in place, interleaved with any calls of the library", "why_tests_cant": "all interleavings of changes made in Python and of calls of the library", "anchors": ["equistore/data.py:159-203", "equistore/data.py:238-264"]}
{"id": "C128", "title": "The library only reads the elements of the array", "statement": "When the data callback gives a pointer, the elements at this pointer are the elements of the array of Python in row-major order, and reading as many elements as the shape known by the library says stays in the memory of the array, even if Python changed the shape or the strides in place.", "quantifier": "every program which creates, views, wraps and changes arrays in place, interleaved with any calls of the library", "why_tests_cant": "reading after the end of an array is usually not detected, and depends on earlier changes in place", "anchors": ["equistore/data.py:210-243"]}
{"id": "C129", "title": "The shape known by the library only changes when the library changes it", "statement": "Nothing Python does to an array changes the answer of the shape callback; only reshape and swap_axes on the same wrapper do, to the requested shape and to the previous shape with two axes exchanged. New, created and copied arrays have their own shape.", "quantifier": "every state of the heap and every event", "why_tests_cant": "all states and all changes made between two calls", "anchors": ["equistore/data.py:162-164", "equistore/data.py:238-297"]}
{"id": "C130", "title": "Which functions of arrays are called by save", "statement": "Saving calls shape, shape again and data, once for each array, in the order of the blocks with the values before the gradients. It calls no other function of arrays, and when it fails the calls made are a prefix of this list.", "quantifier": "all tensor maps, all answers of the functions of arrays", "why_tests_cant": "arrays implemented in other languages can answer anything at each call", "anchors": ["src/io/mod.rs:117-232", "src/data.rs:289-349"]}
{"id": "C131", "title": "Save reports the failures of functions of arrays", "statement": "When a function of an array fails while saving, no other function of arrays is called, and the user gets the status of the function, or a panic which names the function if it is NULL.", "quantifier": "all tensor maps, all answers of the functions of arrays", "why_tests_cant": "any call can be the one which fails, after any answers", "anchors": ["src/io/mod.rs:117-232", "src/data.rs:289-349"]}
{"id": "C132", "title": "A saved file contains what the arrays answered", "statement": "When saving succeeds, loading the file gives a tensor map with the shapes and elements answered by the functions of the arrays while saving.", "quantifier": "all tensor maps, all answers of the functions of arrays", "why_tests_cant": "all answers of foreign arrays, which can change between two calls", "anchors": ["src/io/mod.rs:117-232", "src/data.rs:289-349"]}
{"id": "C133", "title": "Tensors of torch are used as other arrays", "statement": "The functions of arrays of equistore/data.py give the same results for tensors of torch as for arrays with the same elements, for each program which uses them as the library does.", "quantifier": "all tensors (order in memory, device, type, requires_grad), all programs which call the functions of arrays", "why_tests_cant": "all ways to store tensors, all sequences of calls, devices which are not on the computer running the tests", "anchors": ["equistore/data.py:205-325"]}
{"id": "C134", "title": "Tensors of torch given to the library are not changed, and gradients do not prevent merging", "statement": "No sequence of calls changes the memory of the tensors given to the library, and moves of samples to tensors created by the library are never refused because gradients are computed.", "quantifier": "all tensors, all sequences of calls where samples are only moved to tensors created by the library", "why_tests_cant": "all sequences of calls, and tensors which share their memory", "anchors": ["equistore/data.py:205-325"]}
{"id": "C135", "title": "Gradients of torch are followed through the library", "statement": "When operations are recorded, the elements of tensors without requires_grad do not depend on the elements of tensors with requires_grad; tensors created by the library only have requires_grad if a given tensor has it and operations are recorded.", "quantifier": "all tensors, all elements, all sequences of calls where samples are only moved to tensors created by the library", "why_tests_cant": "compares two executions for all elements", "anchors": ["equistore/data.py:205-325"]}
{"id": "C136", "title": "Origins remembered by Python are those of their names", "statement": "_numpy_origin(), _torch_origin() and _rust_origin() always give the identifier registered for their own name: the same one in all threads and at all times, three different ones, different from the identifiers of all other names, and never 0. No thread waits for another one.", "quantifier": "all registries when equistore.data is imported, all numbers of threads, all interleavings of their steps, all names registered meanwhile", "why_tests_cant": "all interleavings of threads between the check of the global variable and its assignment", "anchors": ["equistore/data.py:17-19", "equistore/data.py:61-89"]}
{"id": "C137", "title": "eqs_array_t are converted to the Python objects they were made from", "statement": "eqs_array_to_python_object gives the same ArrayWrapper for arrays made by Python, a new one with a view for arrays of Rust, and raises ValueError with the name of the origin for all others; eqs_array_was_allocated_by_python is true exactly for arrays made by Python.", "quantifier": "all arrays (of Python, Rust and other programs), all threads and interleavings", "why_tests_cant": "all interleavings, and arrays of other programs with any origin and status", "anchors": ["equistore/data.py:129-148", "equistore/data.py:162-180"]}
{"id": "C138", "title": "Moving keys to the samples in two steps is moving them in one", "statement": "keys_to_samples with some variables and then with others gives the same keys, the same values and gradients under the same labels, and with sort_samples the same blocks element by element, as keys_to_samples with all of them at once.", "quantifier": "all tensor maps, all variables split in two lists, all sort_samples, both profiles, when all calls are accepted", "why_tests_cant": "all tensor maps, numbers of keys and splits of variables; tests move at most two variables of small tensors", "anchors": ["src/tensor/keys_to_samples.rs:31-97", "src/tensor/keys_to_samples.rs:101-208", "src/tensor/utils.rs"]}
{"id": "C139", "title": "Moves to the samples and to the properties commute", "statement": "Moving some variables to the samples and others to the properties gives the same keys, values (including the zeros which fill the new blocks), gradient samples and values of the gradients in either order.", "quantifier": "all tensor maps, all disjoint lists of variables, all sort_samples, both profiles", "why_tests_cant": "all tensor maps with any missing keys and samples", "anchors": ["src/tensor/keys_to_samples.rs:31-97", "src/tensor/keys_to_properties.rs:41-110", "src/tensor/keys_to_properties.rs:114-292"]}
{"id": "C140", "title": "Moving keys to the properties in two steps is moving them in one", "statement": "keys_to_properties with some variables and then with others, which are placed before them, gives the same keys, values (including the zeros which fill the new blocks), gradient samples, values of the gradients and names as keys_to_properties with all of them at once.", "quantifier": "all tensor maps, all variables split in two lists, all sort_samples, both profiles, when all calls are accepted", "why_tests_cant": "all tensor maps with any missing keys and samples, and all splits of variables", "anchors": ["src/tensor/keys_to_properties.rs:41-110", "src/tensor/keys_to_properties.rs:114-292"]}
{"id": "C141", "title": "Moving keys to the samples and components to the properties commute", "statement": "Moving variables of the keys to the samples and a component to the properties gives the same keys, values, gradients and labels in either order, and either order is accepted when the other is.", "quantifier": "all tensor maps, all variables, all components (also those of which the values end up under wrong labels), all sort_samples, both profiles", "why_tests_cant": "all numbers and sizes of components, and all ways the samples of the blocks overlap; tests move keys and components of separate small tensors", "anchors": ["src/tensor/keys_to_samples.rs:31-97", "src/tensor/keys_to_samples.rs:101-208", "src/tensor/mod.rs:258-268", "src/blocks.rs:127-172", "src/blocks.rs:311-322"]}
{"id": "C142", "title": "Moving keys and components to the properties commute", "statement": "Moving variables of the keys and a component to the properties gives the same keys, values (including the zeros which fill the new blocks) and gradients in either order, only the order of the new variables in the properties is different; and either order is accepted when the other is.", "quantifier": "all tensor maps, all variables, all components (also those of which the values end up under wrong labels), all sort_samples, both profiles", "why_tests_cant": "all numbers and sizes of components, all missing keys and samples; tests move keys and components of separate small tensors", "anchors": ["src/tensor/keys_to_properties.rs:41-110", "src/tensor/keys_to_properties.rs:114-292", "src/tensor/mod.rs:258-268", "src/blocks.rs:127-172", "src/blocks.rs:311-322"]}
{"id": "C143", "title": "Moving two components to the properties commute", "statement": "Moving two different components to the properties, one after the other, gives the same keys, values, gradient samples and gradients in either order, only the order of the two new variables in the properties is different; and either order is accepted when the other is.", "quantifier": "all tensor maps, all pairs of components, any number and size of components, all gradients, all array implementations which move their values", "why_tests_cant": "all positions of the two components and all sizes; tests move one component of small tensors", "anchors": ["src/tensor/mod.rs:258-268", "src/blocks.rs:127-172", "src/blocks.rs:311-322"]}
{"id": "C144", "title": "The Debug text of an array", "statement": "Formatting an eqs_array_t with {:?} never panics; the text determines the address, the name of the origin and the shape of the array, with None exactly for what the array fails to give; no callback is called for a null pointer; and the names of all registered origins are kept.", "quantifier": "all arrays, with any callbacks working, failing or missing, all addresses, all shapes, all registered names of origins (with any characters)", "why_tests_cant": "names of origins can contain quotes, brackets or the text of other fields; the only test formats one array of EmptyArray", "anchors": ["src/data.rs:177-192", "src/data.rs:44-52", "src/data.rs:272-287", "src/data.rs:323-348"]}
{"id": "C145", "title": "Moving components to the properties, the last one first, keeps the numbers in order", "statement": "When the last components of all blocks are moved to the properties by one call each, the last one first, all calls succeed (if no property has the name of a component) and the result has the same keys and samples, properties which are all combinations of entries of the moved components and properties (the last one varies fastest), and arrays with the same numbers in the same order, each with the same labels as before; likewise for all gradients.", "quantifier": "all tensor maps, any number of moved and of other components of any size, all gradients with any further components, all array implementations", "why_tests_cant": "all numbers and sizes of components; the tests move one component", "anchors": ["src/tensor/mod.rs:258-268", "src/blocks.rs:127-172", "src/blocks.rs:311-322"]}
{"id": "C146", "title": "If variables can be moved, any part of them can be moved", "statement": "For every well-formed tensor map with at least one block, in-range gradient samples, less than 2^31 samples in total, and arrays of the same origin (not EmptyArray) which answer all calls: if keys_to_samples succeeds for some variables, it succeeds for any non-empty part of them, given in any order and without values, in debug builds or when the gradients merged together have the same components. If moreover all blocks have properties, the same holds for keys_to_properties, with values given for the part only if they were given for all variables, in debug builds without values or when the gradients merged together have the same components. The converse is not claimed: each of two variables may be accepted and both together refused.", "quantifier": "every such tensor map, all lists of variables and all parts of them, sorted or not; release builds (and values for the properties) only for gradients with the same components", "why_tests_cant": "relates two calls for all tensor maps and all parts of the variables", "anchors": ["src/tensor/keys_to_samples.rs: keys_to_samples", "src/tensor/keys_to_properties.rs: keys_to_properties", "src/tensor/utils.rs: remove_variables_from_keys"]}
