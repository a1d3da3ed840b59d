# Formal model of equistore (Rocq/Coq 8.16.1)

Source modelled: `/repo` (lab-cosmo/equistore, Rust core), read as text only; nothing was built or run.

## 1. Layout of the development (`rocq/theories`)

| file | content |
| --- | --- |
| `Base.v` | outcomes (`Ok / Err / Panic / Undefined`), error values, build profile, string and list helpers of the model |
| `Labels.v` | model of `src/labels.rs` |
| `Array.v` | model of the array interface of `src/data.rs` (`eqs_array_t`, ndarray and EmptyArray implementations) |
| `Layout.v` | strides of ndarray: standard layout, contiguity, reshape of a view (imported by `Array.v`) |
| `Strided.v` | ndarray with its elements as they are in memory, and programs using arrays (justifies `Array.v`, see C69) |
| `Block.v` | model of `src/blocks.rs` |
| `Tensor.v` | model of `src/tensor/*.rs` |
| `Npy.v` | model of `src/io/npy_header.rs`, `src/io/labels.rs`, and of reading and writing data in `src/io/mod.rs` |
| `Io.v` | model of `load` and `save` in `src/io/mod.rs` |
| `Origin.v` | model of the registry of data origins, in `src/data.rs` |
| `ArrayText.v`, `SpecArrayText.v` | model of the `Debug` text of arrays, in `src/data.rs`, and what it shows |
| `CApi.v` | model of `src/c_api/*.rs`: handles, status codes, last error of each thread, ownership of arrays, programs |
| `PyIo.v` | model of `equistore/io.py` with `use_numpy=True`; numpy itself is a parameter |
| `Saving.v` | what is in the archive when `save` fails, and in the file when the operating system reports errors |
| `Torch.v` | which tensors of torch can be read by the library, or converted for numpy |
| `TorchCalls.v` | model of the callbacks of `equistore/data.py` on tensors of torch, with devices, types and `requires_grad` |
| `PyOrigins.v` | model of the origins remembered by `equistore/data.py` in global variables, used by several threads, and of the conversion of `eqs_array_t` to Python objects |
| `CLib.v` | model of how Python finds, checks and sets up the library |
| `PyEntries.v` | model of named tuples, raw arrays, iteration, labels of blocks in Python, and names of keys to move |
| `PyPrint.v` | model of `__repr__` and `__str__` of tensor maps, blocks and gradients |
| `PyLabels.v` | model of `equistore/labels.py`, of the selection of blocks in `equistore/tensor.py`, and of `data_origin_name` |
| `PyObjects.v` | model of the objects of `equistore/block.py`, `tensor.py` and `data.py`: pointers, references, `__del__`, memory of views; Python programs as lists of statements |
| `Numpy.v` | model of the callbacks of `equistore/data.py` on numpy arrays, with buffers, offsets and strides |
| `MoveWith.v` | `keys_to_samples` and `keys_to_properties` of `Tensor.v` with the move of samples as a parameter, equal to them (by computation) for the move of `Array.v` |
| `Declarations.v` | model of `scripts/generate-declarations.py`; the content of `include/equistore.h`, `equistore/_c_api.py`, and of the public functions of `src/c_api` |
| `Callbacks.v`, `CallbacksStore.v` | the functions of `src/blocks.rs` and `src/tensor` as programs which call the functions of `eqs_array_t`, with arbitrary answers, or with arrays in memory |
| `SaveCalls.v` | `save` (`src/io/mod.rs`) as such a program |
| `Iterators.v` | model of the iterators of `src/labels.rs` and `src/tensor/iter.rs` call by call, of parallel iteration, and of the Debug text of labels |
| `Library.v` | model of the builds without all the features (`src/lib.rs`), of `eqs_get_rust_array`, and of the origins of the arrays of Rust |
| `Collector.v` | model of `TensorBlock.__deepcopy__` with threads, exceptions and collections of the garbage collector at any time |
| `Versions.v` | model of the versions given by `setup.py`, `CMakeLists.txt` and `cmake/equistore-config-version.in.cmake` |
| `Wrapper.v` | model of the shape remembered by `ArrayWrapper` (`equistore/data.py`), with arrays of numpy which are changed in place |
| `PyErrors.v` | model of `equistore/status.py` and `catch_exceptions`, with threads |
| `Spec.v`, `SpecTensor.v`, `SpecIo.v`, `SpecFormat.v`, `SpecApi.v`, `SpecPy*.v`, `SpecNumpy.v`, `SpecDeclarations.v`, `SpecCallbacks.v`, `SpecIterators.v`, `SpecComponents.v`, `SpecExact.v`, `SpecLibrary.v`, `SpecCollector.v`, `SpecVersions.v`, `SpecWrapper.v`, `SpecSaveCalls.v` | specification vocabulary, written against the *public* observables (names, rows, shape, elements, bytes), independent of the model's helpers |
| `*Facts.v` | lemmas |
| `Examples*.v` | concrete values used in the examples and counter-examples |
| `RepoTests.v`, `RepoPyTests.v`, `RepoData.v` | the tests of the repository as computations of the model; the content of `tests/data.npz` (see section 4) |
| `Prop*.v` | the property theorems (each closed by `exact lemma`), followed by `Print Assumptions`, with an `Example` meeting the hypotheses |

## 2. Modelling conventions

* Every definition of the model cites the file and lines it models.
* A Rust `Result`/panic becomes `outcome A := Ok a | Err e | Panic msg | Undefined msg`. `Panic` carries the panic
  message; `Undefined` marks executions which are undefined behaviour in Rust/C (out of bounds write, wrong pointer cast).
* A function taking `&mut self` which can fail after having modified `self` returns the pair (new state, outcome).
* `debug_assert!` and integer overflow checks depend on the build: these functions take a `profile` (`Debug | Release`).
* `usize` values are `nat` (no bound: allocation and address-space limits are not modelled); label values are `Z`,
  with the `i32` range explicit wherever the code converts or serialises them. Array elements are `Z`, standing for the
  64-bit pattern of the `f64`; the code never computes with elements, it only copies them and writes `0.0` (pattern 0).
* Strings are Coq `string`s, i.e. byte strings (UTF-8 bytes of the Rust string).
* `HashMap` is an association list with distinct keys; its list order is its iteration order, so a theorem about every
  model value covers every iteration order. `IndexSet` is a list without repetition in insertion order, `BTreeSet` a
  strictly sorted list.
* An array (`eqs_array_t`) has a kind (rust ndarray, rust EmptyArray, or foreign with its origin), a shape, its elements
  in logical row-major order, and a fault table: callbacks of a foreign array may return any non-zero status.
  A rust ndarray also has its strides: `data()` panics unless the array is in standard layout. `Strided.v` has the elements
  at their position in memory, and C69 shows that no program can tell the difference.

## 3. Plan per property

| id | model and proof | expected |
| --- | --- | --- |
| C01 | `LabelsBuilder` fold; induction on the added rows, invariant values = concat rows | proved |
| C02 | iff between builder outcome and an independent predicate on (names, rows) | proved |
| C03 | invariant positions = index of row | proved |
| C04 | character predicate by ASCII code ranges | proved |
| C05 | `PartialEq` as names, values, hash map inclusion; iff | proved |
| C06 | range analysis over Z | proved |
| C07 | false for zero names: `count` divides by zero; proved for one or more names | refuted + partial |
| C08 | false: `add` extends the values before the duplicate check; the labels after any sequence of accepted and rejected rows are described (`C08_after_rejections`), with the exact conditions | refuted + partial |
| C09 | iff with independent shape predicate | proved |
| C10, C11 | iff and frame; a NUL byte in the parameter panics after inserting | proved + refuted corner |
| C12 | invariant by induction over histories | proved |
| C13 | iff with independent homogeneity predicate | proved |
| C14, C15 | iff over indices | proved |
| C16 | pointwise | proved |
| C17 | first-appearance list of projections | proved |
| C18-C23 | two-way correspondence of labelled entries, via fold of `move_samples_from` | proved (key-order names) |
| C24 | state unchanged on non-Ok | proved |
| C25 | invariant closure | proved |
| C26 | false: names follow the request order, values follow the key order; what is read for any order, and for which keys it is right (`same_values` in `SpecExact.v`) | refuted + partial |
| C27 | false with 3 or more components; where the elements are found is proved for all positions, and that the labels are right exactly when nothing is exchanged (at most one component after the moved one, or one entry in the last one or in all those between) | refuted + partial |
| C28 | false: component removed before panics / failing callbacks | refuted + partial; what failures leave is exact (`PropFailures.v`) |
| C29 | invariant closure | proved |
| C30 | false: several panics; proved for tensor maps with data which can be moved | refuted + partial |
| C31 | false in release builds | refuted + partial (debug) |
| C32 | induction over histories | proved |
| C33 | false: wrong code, and length 0 | refuted + partial |
| C34 | induction over interleavings | proved |
| C35 | false with NUL bytes in messages | refuted + partial |
| C36 | round trip | proved |
| C37 | pointwise from C12 | proved |
| C38 | false on too small buffers | refuted + partial |
| C39 | state machine over handles, arbitrary failures | proved |
| C40 | pointer table | proved |
| C41-C44 | printer/parser round trips over bytes | proved |
| C45 | prefix arguments | proved |
| C46, C47 | archive as path -> bytes | proved |
| C48 | false: several panics | refuted |
| C49 | false: data dropped | refuted; what failures leave is exact (`PropFailures.v`) |
| C50 | false: origins are not checked across blocks | refuted |
| C51 | permutation invariance | proved |
| C52, C53 | completeness | proved |
| C54 | invariant of `load` | proved |
| C55-C57 | induction over programs | proved |
| C58 | contract of the callers, induction over programs | proved |
| C59 | C46 in the world of files | proved |
| C60-C66 | effect of each function of the C API, in reachable states | proved |
| C67-C68 | saved archives follow an independent grammar of the format, and all archives which follow it load | proved |
| C69 | simulation between the arrays in memory and the arrays in logical order, over interactive programs | proved |
| C70 | the arrays made by merging blocks are new, and in standard layout | proved |
| C71 | false when the last axes are exchanged and the reshape can keep the strides; exact condition proved for any component | refuted + partial |
| C72-C74 | archives written and read by numpy, for every numpy which follows the documented format | proved |
| C75 | false: arrays in Fortran order, labels with the other endianness | refuted |
| C76 | labels as a view in memory (start, stride, fields); what the library reads is compared with what Python shows | partial (`labels[::2]`, `labels[["a"]]` refuted) |
| C77 | constructor of labels, with the conversion to 32 bits | partial (large integers refuted) |
| C78 | `position` as a call of the C API | partial (large integers and empty labels refuted) |
| C79 | `block`, `blocks` and `blocks_matching` as calls of the C API, from any reachable state | partial (`labels[["a"]]` refuted; keywords called `self` or `__return_selection`, see C103) |
| C80 | `data_origin_name` as a loop around the call of the C API | partial (long names refuted) |
| C81 | invariant on all the objects of a program, kept by every statement | partial: for programs which follow 10 rules, each rule is needed (refuted without) |
| C82 | the same invariant: each block or tensor map has one object which frees it | partial: when `TensorMap()` does not raise (refuted otherwise) |
| C83-C84 | what a program can use does not depend on what was collected, and can be read | proved |
| C85 | programs using arrays (as in C69) can not see the difference between numpy arrays, in memory, and the arrays of `Array.v` | partial: same types, and moves as the library makes them (refuted otherwise) |
| C86 | the memory of numpy as a list of buffers, the first ones are never written to | proved |
| C87 | the data callback of numpy gives the elements, when they are contiguous numbers of 64 bits | partial (after `components_to_properties` refuted) |
| C88 | `keys_to_samples` and `keys_to_properties` with the move of samples of numpy | partial: debug builds, or gradients with the same components (refuted otherwise) |
| C89 | the meaning of C declarations and of ctypes declarations as sizes, signs, pointers and functions; the script keeps it, for all headers | proved; other headers refuted |
| C90 | the meaning of the declarations in Rust, C and Python is the same | proved |
| C91 | ownership logic over programs which call the functions of arrays, for all answers | proved |
| C92 | the same logic, where the tensor map is only borrowed | proved; `components_to_properties` refuted |
| C93 | the first call which fails is the last one | proved; lost status refuted |
| C94 | simulation between these programs and the functions of `Tensor.v` | proved |
| C95 | programs as lists of calls, with C93; events on `LAST_EXCEPTION` for threads | partial: one thread, only `Exception`s which do not become panics (refuted otherwise) |
| C96 | each call to `move_samples_from` in a trace (`SpecCallMoves.v`): where its output comes from, and its arguments against the shapes | partial: gradients with the same components, which is only checked in debug builds (refuted otherwise) |
| C97 | lines and words of a text (`SpecPyPrint.v`), against the names and rows of the keys | partial: values which are not too long for their columns, exactly when the words of a line are the values (otherwise refuted) |
| C98 | positions of quotes and ends of words in a line | partial: exactly when the names are wide enough for the names of even length before (otherwise refuted) |
| C99 | the text as a list of lines, and parameters without quotes | partial: the text is given for all blocks, two different blocks with the same text only if a parameter has a quote in its name (refuted then) |
| C100 | the samples and properties written by each call to `move_samples_from` in a trace (`SpecCallApart.v`) | proved for all answers of the functions |
| C101 | entries and attributes of named tuples, against the rows of labels | partial: false for `Labels.single()` and `as_dict` (refuted); which names are accepted is exact |
| C102 | the array against the rows of labels | partial: labels made without steps and selected variables, with entries (other cases refuted); exact for all labels with all their variables |
| C103 | the items of a tensor map against its keys and blocks, from any reachable state | iteration proved; `block(key)` partial (a variable called `self` refuted) |
| C104 | names and entries of labels seen in Python, against the parts of a block | proved |
| C105 | names in all blocks of a tensor map, from any reachable state | partial: tensor maps with a block (refuted without) |
| C106 | the library function on labels with the names given (`SpecPyEntries.v`) | partial: names which are not empty and without NUL (refuted otherwise) |
| C107 | results of programs which set the path and ask for the library, with a disk for each call (`SpecCLib.v`) | proved |
| C108 | the functions of the header (`equistore_h`), against the ones declared in the library which is given | partial: no earlier request raised, or all libraries have all functions (otherwise refuted) |
| C109 | the bytes of a DLL as numbers at positions, and what the disk contains | first request proved, exactly; later ones partial (refuted after an exception) |
| C110 | files with a name before and after any call, and the documented format (`SpecFormat.v`) | proved |
| C111 | files before and after a call which fails | partial: all data can be read (otherwise refuted) |
| C112 | loading after a failed save which leaves what the code leaves (`unfinished`) | proved |
| C113 | all the bytes written, with their position in the file, without any buffer | partial: no errors, or all but the last bytes of the buffer (refuted with an error) |
| C114 | elements of numpy arrays, tensors of torch with a device and gradients | partial: numpy arrays (refuted for torch: never saved) |
| C115 | the first answers of `next()`, for any number of calls, against the rows and blocks in order | proved |
| C116 | items left after any number of calls | partial: iterators of labels and parallel ones (refuted for tensor maps and labels without names) |
| C117 | any tree of divisions of the work, any order of the changes | proved |
| C118 | lines and words of the text, columns of names | proved |
| C119 | call by call over programs, files as a function of their names | partial: `eqs_tensormap_save` empties the file before its error (F68) |
| C120 | strides against positions in memory, C71 for moved components, names of origins | partial: arrays which give the identifier of "rust.ndarray" as origin are used as arrays of Rust (F69) |
| C121 | induction over histories, as C32 | proved |
| C122 | invariant over executions: some thread has to enable the collector, or raised | partial: an exception leaves it disabled (F41); exact for one copy |
| C123 | invariant over executions: objects of copies are not freed, and are not shared | partial: another thread which copies or calls `gc.collect()` can free the arrays (F70) |
| C124 | strings: the first line with a version, split and unquoted | partial: released versions have `.dev0` (F71) |
| C125 | strings: the regular expression against the line which Python uses | partial: another key which ends with "version" (F72) |
| C126 | case analysis on the comparison of numbers | proved |
| C127 | invariant of the heap: the shape of each wrapper is the one of its array | partial: false after `array.shape = ...` (F74) |
| C128 | invariant of the heap: same number of elements, which are in their buffer | partial: false after `array.dtype = ...` with another number of bytes (F75) |
| C129 | case analysis on each event; for `swap_axes` the invariant of C127 | partial: false for `swap_axes` after `array.shape = ...` (F74) |
| C130 | induction on the list of files of the archive, all answers for each | proved |
| C131 | the same induction, with the answer which failed | proved |
| C132 | the same induction, compared to `put_tensor`, then C46 | partial: false if two answers of `shape` are different (F76) |
| C133 | simulation by the model of numpy, then C85 | partial: false for tensors on two devices or with two types (F77) |
| C134 | invariant over commands: tensors created by the library are not leaves, and do not share their memory | proved |
| C135 | two executions which only differ in the elements of tensors with gradients | proved; operations have to be recorded |
| C136 | invariant over all interleavings: results of the code for all that other threads can do | proved |
| C137 | the same | partial: false for arrays of other programs which give the identifier of one of the three names (F78) |
| C138 | keys, values and gradients after two moves from those of `C18`, `C19`; uniqueness of sorted rows and of first appearances | refuted (F2) + partial: variables in the order of the keys |
| C139 | both orders described by the same two clauses on the first tensor map (moved values, zeros); likewise for the gradients, whose components are followed through the moves | refuted (F79) + partial: both orders accepted, no rows given; values of gradients in debug builds or with agreeing components |
| C140 | the same as C139, for two moves to the properties | refuted (F2) + partial: variables in the order of the keys, no rows given; values of gradients in debug builds or with agreeing components |
| C141 | both orders described by the exact clauses of `C18`, `C19` and `C27`; acceptance from `C28` and `C52` | refuted (F80) + partial: both orders accepted |
| C142 | one direction from the exact clauses of `C19` and `C27`; the other since both tensor maps have the same positions, with one value each | refuted (F81) + partial: both orders accepted, no rows given; values of gradients in debug builds or with agreeing components |
| C143 | the two places of the components in a block, and the clause of `C27` for single blocks four times | refuted (F82) + partial: both components among the last two of every block; names and acceptance for any two components |
| C144 | the text can be cut at the first comma after the address, the first quote which is not escaped, and the first bracket | refuted (F83) + partial: the callbacks for the origin and the shape are set, or the pointer is null; the other theorems hold for all arrays |
| C145 | induction on the moved components: the last axis of components is swapped with itself, so `swap_axes` gives the same numbers and `reshape` keeps them | proved |
| C146 | keys which agree without a part of the variables agree without all of them, so the blocks merged for the part were merged for all; then C52 and C53. The hypotheses of C52 and C53 are part of the statement; the converse is false, see `C146_both_may_be_refused` | proved |

Every property can be expressed in the model, none is declared not applicable.

## 4. Trusted base

* Coq's kernel (8.16.1), and the standard library. `Print Assumptions` is run under every property theorem; the results
  are listed in section 6.
* The reading of the Rust code, function by function, as cited in the model. The code was never run. To check this
  reading, the tests of the repository are transcribed as computations of the model, with the results which the tests
  expect: the unit tests of `src/labels.rs`, `src/data.rs` (`debug` is in `C144_example`),
  `src/blocks.rs` and `src/tensor/*.rs`, with the exact text of the errors (`RepoTests.v`); the tests in `tests/python`,
  except for what is about the identity of Python objects, torch, and the text or the raising of exceptions by Python and
  numpy (`RepoPyTests.v`); and `tests/serialization.rs`, which reads `tests/data.npz`, a file written by numpy, from the
  bytes of its 217 files (`RepoData.v`). The model gives the expected results in all of them.
  These are examples, and no property depends on them. They can only show that the model is wrong, and do not show
  that it is right for what the tests do not cover.
* External code modelled from its documentation, not from source in /repo: Rust std collections and integer semantics,
  `indexmap::IndexSet`, `ndarray` 0.15 (`to_shape`, `swap_axes`, `to_owned`, `as_slice`, `assign` with broadcasting; the
  algorithm which keeps the strides of a reshaped view, `reshape_dim`, is in `Layout.v`), the
  `py_literal` printer and parser for the values used in NPY headers, `zip` as a map from names to contents.
* Rust std and rayon 1, for C115-C118: `ChunksExact`, `Zip` with its `size_hint` and the default `ExactSizeIterator::len`;
  `par_chunks_exact`, and `zip_eq` which checks the lengths first. rayon divides producers at indexes which are not after
  the end, then uses the items of each part in order; parts can be used in any order. Formatting with `{:^width$}` puts the
  odd blank on the right.
* numpy and ctypes, for C76-C80: integers are reduced to 32 bits by `astype(casting="same_kind")` and `c_int32`, fields
  without a name are called `f<position>`, `labels[a:b:c]` and `labels[[...names]]` are views and `labels[[...indexes]]` is
  a copy with the same fields (`PyLabels.v`).
* CPython, for C81-C84: an object is only freed when nothing refers to it, alone or with a group of other objects (reference
  counts, or the collector of cycles), at any time; `__del__` of all the objects of a group is called before any of them is
  freed (PEP 442). numpy: `np.asarray(view)` refers to the array which was made from a pointer, and not to the view and its
  attributes. ctypes: structures keep the pointers, not the objects.
* numpy, for C127-C129: changing `shape`, `strides` or `dtype` in place follows the documentation. Views given a shape have
  the same elements in row-major order (`keeps_the_order`, a hypothesis), for all ways to choose them. Views made by users are
  inside of their buffer (`as_strided` could make others).
* git and CMake, for C124-C126: what git prints is arbitrary; the meaning of `string(REGEX REPLACE)`, of the comparisons of
  versions, of the variables `PACKAGE_FIND_VERSION_*` and of what `find_package` does with `PACKAGE_VERSION_*` is taken from
  the documentation of CMake. Ranges of versions are not modelled, nor lines of `Cargo.toml` with `;` or brackets which are
  not closed.
* CPython, for C122-C123: objects which refer to themselves are only freed by a collection; collections are automatic only
  when the collector is enabled; other threads can run between any two steps of a copy, which are the statements of
  `__deepcopy__` and the calls of `_eqs_array_copy`. A collection frees at once all the objects without references: the
  generations of CPython can keep some of them longer.
* numpy, for C72-C75: `numpy.savez` makes one file per entry, written in Fortran order exactly when the array is contiguous
  in this order only; `numpy.load` gives the files back. The theorems hold for every pair of a writer and a reader of NPY
  files which follow the format (`follows_format` in `SpecPy.v`); `ExamplesPy.v` has one such pair, with the header which
  numpy writes.

* numpy, for C85-C88: `zeros` and `copy` give new contiguous arrays, `swapaxes` exchanges the strides, `reshape` is a view
  with other strides or a copy in row-major order (which one is a parameter), `output[samples, ..., a:b] = input[samples,
  ..., :]` reads all the elements of the input, converts them to the type of the output, and writes them in order, with
  broadcasting. The conversions are a parameter; only converting an element to its own type is known.
* CPython, for C136 and C137: threads can be switched between any two uses of a global variable or calls of the library, and
  each of these is done at once. `_NUMPY_STORAGE_ORIGIN` and the two others are only changed by `equistore/data.py`.
* torch, for C133-C135: the same as numpy, but assignments raise if the device or the type of the tensors are different, or
  if the output is a leaf with `requires_grad` (or a view of one) while operations are recorded. When operations are
  recorded, `clone`, `reshape` and `swapaxes` keep `requires_grad`, and assignments give the one of the input to the output.
  `torch.is_grad_enabled()` does not change during the calls. Later computations of gradients are not modelled.
* Rust, for C91-C93: values which are owned by a function are dropped when it returns early or panics; nothing else calls
  `destroy`. Arrays made by different calls have different pointers as long as they are alive (`new_arrays`); `create` and
  `copy` only make an array when they succeed.
* ctypes, for C95: when a callback raises something which `catch_exceptions` does not catch, the exception is printed and
  the value returned to C can be anything.
* pycparser, C compilers, ctypes and Rust, for C89-C90: what each type means is in `SpecDeclarations.v` (`c_meaning`,
  `py_meaning`, `rust_meaning`). The header is given as its AST, and the Python module as its content; comments, `const` and
  `#define` are not described. The status codes and other constants are not compared.

  The subset of the Python literals which is parsed is described in `Npy.v`: the syntax the library itself writes,
  with white space between tokens and both kinds of quotes, without escape sequences, floats, bytes, sets or complex
  numbers (texts using these are not given a meaning, and theorems about `load` do not cover them: the parser of the
  model refuses them with an error, the crate might accept them).

### What is modelled

| code | model |
| --- | --- |
| `src/labels.rs` | all, except the raw view casts. In most functions, iteration is the list of rows; the iterators themselves, parallel iteration and the Debug text are in `Iterators.v` |
| `src/data.rs` | `eqs_array_t` callbacks and their wrappers, the ndarray and EmptyArray implementations, the registry of data origins, the `Debug` text with `{:?}` (simplified: bytes of names which are not ASCII are never escaped; not modelled: `{:#?}`) |
| `src/blocks.rs` | all |
| `src/tensor/*.rs` | all functions; `iter.rs` is in `Iterators.v` |
| `src/io/*.rs` | all, with the ZIP archive as a list of (path, content); not modelled: ZIP records, checksums, limits on path lengths, compression, memory exhaustion, `debug_assert`s in the header writer. What a failed `save` leaves in the archive, and errors while writing to the buffered file, are in `Saving.v`, for any sequence of writes and seeks made by the zip crate |
| `src/c_api/*.rs` | all functions; `eqs_get_rust_array`, `eqs_tensormap_load` and `eqs_tensormap_save` of builds without features are in `Library.v`. A program is a list of calls by threads, each one atomic. Pointers to blocks and tensor maps are handles which are never reused; using a handle which is not alive is `Undefined`. Memory given by the caller (arrays of labels, buffers) is a list; reading or writing after its end is `Undefined`. Arrays have an identity to follow their destruction |

Simplified in the C API: the text of panic messages (without file and line); data races between calls on the same object
(the contract of the library forbids them); alignment and provenance of pointers; lifetime of the labels returned by
`eqs_block_labels`; null pointers given to `slice::from_raw_parts` with length zero (F20); errors of the operating system
(an argument of the call, for all of them).

| Python code | model |
| --- | --- |
| `equistore/io.py` | `save` and `load` with `use_numpy=True`; types other than `f8` and structures of `i4` are refused by the model. The wrappers of labels, blocks and tensor maps are the functions of the Rust library they call; exceptions are all the same error |
| `equistore/labels.py` | `Labels.__new__`, `_as_eqs_labels_t`, `_from_eqs_labels_t`, `position`, and how numpy makes parts of labels (slices, fields, copies), `_print_labels` and `_make_padding` (`PyPrint.v`), `as_namedtuples` and `asarray` (`PyEntries.v`) |
| `equistore/tensor.py` | `block`, `blocks`, `blocks_matching`, as calls of the C API; all the methods with a pointer (`PyObjects.v`); printing (`PyPrint.v`); iteration, names of blocks and how names of keys to move are given (`PyEntries.v`) |
| `setup.py` | `get_version` (`Versions.v`). The rest runs CMake |
| `equistore/block.py` | all the methods with a pointer: `TensorBlock`, copies, `add_gradient`, values, labels, gradients (`PyObjects.v`). `Gradient` objects are not separate from the block they refer to. Printing is in `PyPrint.v`, the labels of blocks and gradients in `PyEntries.v`, `__deepcopy__` with threads and the garbage collector in `Collector.v` |
| `equistore/data.py`, `utils.py` | which arrays can be converted, `data_origin_name`, `_call_with_growing_buffer`; `ArrayWrapper` and its `_children`, views of Rust arrays (`PyObjects.v`); the callbacks on numpy arrays (`Numpy.v`); for torch tensors, `_eqs_array_data` and `_array_to_numpy` (`Torch.v`), and the other callbacks (`TorchCalls.v`). `_numpy_origin`, `_torch_origin`, `_rust_origin`, `eqs_array_to_python_object`, `eqs_array_was_allocated_by_python`, `data_origin` and the origin of an `ArrayWrapper` with threads (`PyOrigins.v`); there, names of origins with 1024 bytes or more give the same exception as others, see F27. Changes of `array.shape`, `strides` and `dtype` in place, which `_shape` does not follow, are in `Wrapper.v`, for numpy |
| `equistore/status.py`, `catch_exceptions` of `utils.py` | all, except the text of messages; a callback does not call the library again |
| `equistore/_c_lib.py` | all (`CLib.v`): files, the loader and exported functions are arguments of each request. `os.path.join` is simplified, and texts of exceptions are not described |
| `scripts/generate-declarations.py`, `equistore/_c_api.py`, `include/equistore.h` | all the declarations, not the text (`Declarations.v`) |

In `PyObjects.v`, a view of labels or of an array is valid until its array is destroyed, or its tensor map changed in place
by `components_to_properties`, even when the library would keep this part of the memory. Arrays of torch are not described.
A program is one thread; `Collect` can be anywhere. Which array creates which other one when blocks are merged is an
argument (`creators`), for all values.

Not modelled at all: the rest of the Python code (`__init__.py`), the rest of torch, CMake except versions, `docs/`.

## 5. Findings

Behaviours of the code which contradict a property. Each one is a theorem whose name ends in `_refuted`, unless it is
marked (not modelled).

* F1 (C27). `components_to_properties` swaps the moved component with the last axis. With three or more components, this
  reorders the remaining ones, which keep their labels: values end up under wrong labels unless the moved component is
  one of the last two, or there is nothing to exchange (`C27_right_labels_partial`, `C27_wrong_labels`). Where each element is
  found is in `C27_where_values_are`.
* F2 (C26). `keys_to_samples` and `keys_to_properties` name the new dimensions in the order of the request, and fill them
  in the order of the keys.
* F3 (C08). `LabelsBuilder::add` extends the values before it panics on a duplicate. If the panic is caught, `position` then
  gives wrong positions for the rows added later.
* F4 (C11). `add_gradient` with a NUL byte in the parameter inserts the gradient, then panics.
* F5 (C28). `components_to_properties` removes the component before other steps which can fail or panic.
* F6 (C30). The `sample` column of gradients is not checked to be in range; moving keys panics later.
* F7 (C07). `Labels::count` divides by zero for labels without names.
* F8 (C30). `keys_to_properties` panics when a block has no properties.
* F9 (C30). Moving all the keys of an empty tensor map panics.
* F10 (C33). `copy_str_to_c` computes `buflen - 1`, which underflows for a length of zero; and `eqs_get_data_origin`
  reports a small buffer as an invalid parameter, not as a buffer size error.
* F11 (C48). `load` panics on repeated rows, repeated or invalid names, labels without names, data with one axis (debug
  builds), a file named `blocks/0/gradients/data.npy`, and shapes larger than the address space.
* F12 (C31, C50). Gradient components of merged blocks are compared in a `debug_assert` only, values are lost in release
  builds; blocks with arrays from different origins are merged without a check, which casts pointers to the wrong type.
* F13 (C38, C40). `eqs_tensormap_blocks_matching` writes to `*count` before the indexes, and panics (index out of bounds)
  when the buffer is too small. `eqs_tensormap` takes the blocks even when it fails, and does not check that the pointers
  in the list are not null.
* F14 (C30). Moving a key with the same name as a sample or property panics.
* F15 (C114). `equistore/data.py` line 220: inverted check of the device of torch tensors: `_eqs_array_data` raises
  when the device *is* the CPU, and `.numpy()` raises when it is not. `equistore.io.save` can only save tensor maps with
  tensors of torch with `use_numpy=True`; otherwise it always fails, after emptying the file (F65).
* F16 (C35). Messages which contain a NUL byte make the conversion of errors to status panic, outside of `catch_unwind`.
* F17 (C49). A failed reshape of an ndarray loses its elements.
* F18 (C71). `to_shape` on an ndarray which is not in standard layout can give an array which is not in standard layout
  either. See F23.
* F19 (not modelled). Parameter names of more than 65535 bytes do not fit in a ZIP archive.
* F20 (C36). Labels without variables and a positive count become empty labels, without an error. Null pointers are given
  to `slice::from_raw_parts` for empty labels and components, which is documented as undefined behaviour (not modelled).
* F21 (C64, not a contradiction). `eqs_tensormap_block_by_id` with an index which is too large panics, so the status is
  `EQS_INTERNAL_ERROR` instead of `EQS_INVALID_PARAMETER_ERROR`.
* F22 (C67, documentation only). src/io/mod.rs:35-48 documents `components/<n_components>.npy` as the last file of the
  components; the last one is `<n_components - 1>.npy`.
* F23 (C71). With at least two components and one property, `components_to_properties` of the component before last
  exchanges the last two axes, and then reshapes without moving the elements. When both components have at least two
  entries, the array is not in standard layout any more: `data()` panics with "array is not contiguous", so reading the
  data fails with status 255, and the tensor map can not be saved. Moving keys (even none) repairs the arrays (C70).
  The same happens for a component which is not one of the last two, when it or the properties have a single entry, and the
  last component has as many entries as some of the first components after the moved one (`C71_readable_iff`).
* F24 (C75). `equistore.save(use_numpy=True)` writes arrays which are contiguous in Fortran order only with
  `fortran_order: True`; `eqs_tensormap_load` refuses these files.
* F25 (C75). `_labels_from_npz` (`equistore/io.py` line 92) uses `data.view(dtype=np.int32)`, whatever the endianness of
  the file: labels written with the other endianness are read with their bytes reversed, without an error. The Rust
  library reads them correctly.
* F26 (C73, not a contradiction). `numpy.load` refuses headers of more than 10000 bytes by default: labels with many
  variables saved by the library can not be loaded with `use_numpy=True`. This is the hypothesis `short_headers`.
* F27 (C80). `data_origin_name` (`equistore/data.py`) grows its buffer on `EQS_BUFFER_SIZE_ERROR`, which
  `eqs_get_data_origin` never returns (F10): names of 1024 bytes or more raise an exception.
* F28 (C82). `TensorMap.__init__` (`equistore/tensor.py`) takes the pointers of the blocks one by one: when a later
  block of the list is a view, the blocks before it have lost their pointer, and their memory. The same happens to all
  blocks when `eqs_tensormap` fails before it takes them (invalid keys, or the same block twice in the list).
* F29 (C76). `Labels._as_eqs_labels_t` (`equistore/labels.py` line 174) gives the address of the first element to the
  library, whatever the strides and the fields of the array are. `labels[::2]` and `labels[["a", "c"]]` are Labels and are
  accepted everywhere, but the library silently uses other entries, and with `labels[::-1]` it reads after the end of the
  array. The same with a selection: `tensor.blocks(labels[0:1][["spin"]])` selects blocks with another key (C79).
* F30 (C77, C78). `astype(np.int32, casting="same_kind")` and `ctypes.c_int32` drop the high bits of larger integers:
  `Labels(["a"], np.array([[2**32 + 1]]))` has the entry 1, and `(2**32 + 1,) in labels` is true when `(1,)` is there.
* F31 (C78). `Labels._from_eqs_labels_t` makes labels without entries as standalone labels, so `position` and `in` raise
  "can not lookup the position of an entry in standalone Labels" for empty labels of a block.
* F32 (C77, not a contradiction). numpy gives the name `f<position>` to fields without a name: `Labels([""], values)` is
  accepted, with the name `f0`.
* F33 (C81). `TensorMap.__init__` gives the pointer of a block which is already in a tensor map to the library, as NULL:
  `TensorMap(keys, [block]); TensorMap(keys, [block])` reads from NULL in `eqs_tensormap` (`src/c_api/tensor.rs` line 84,
  `Box::from_raw` without `check_pointers`). With two such blocks, there is an error about the same block used twice.
* F34 (C81). `TensorMap.__init__` keeps the list of the caller (`self._blocks = blocks`, `equistore/tensor.py` line 56) to
  keep the numpy arrays alive. Changing this list afterwards (`blocks.clear()`) frees the arrays the library still uses.
* F35 (C81). Blocks, keys, labels and Rust arrays obtained from a tensor map keep the tensor map alive, but point inside of
  its memory: all of them dangle after `keys_to_samples` or `keys_to_properties`, and labels and arrays after
  `components_to_properties`.
* F36 (C81). The values of a copied Rust block keep the block alive, not the tensor map it was moved to: they dangle when
  this tensor map is freed.
* F37 (C81). `tensor.block(i).add_gradient(...)` is accepted on a block of a tensor map. The array is only kept by this
  view of the block: it is freed with the view, and the library uses it afterwards. The gradients of the blocks also are
  no longer the same.
* F38 (C81). `np.asarray(block.values)`, and all numpy functions which return a base array sharing the memory, lose the
  attribute `_parent` of `_RustNDArray`: the array dangles when the tensor map is freed. The same for labels.
* F39 (C81). `TensorBlock(values=other.values, ...)` with a view of a Rust array dangles when the other tensor map changes,
  although a block was made from these values.
* F40 (C81). A tensor map can have both Rust and numpy arrays (a copy of a loaded block, and a new block); merging them
  calls the function of one on the other (F3 from Python).
* F41 (C122). `TensorBlock.__deepcopy__` leaves the garbage collector disabled when it raises (`equistore/block.py`
  lines 102-127): there is no `try`/`finally` around the copy, and `array.copy()` can raise.
* F42. The same as F15.
* F43 (C85). Blocks with arrays of different types are accepted in the same tensor map (all numpy arrays have the same
  origin). Merging them converts all the values to the type of the first array, without an error: merging a block of integers
  and a block of floating point numbers drops the fractional parts.
* F44 (C87). F23 also happens with numpy arrays: after `components_to_properties` with two components or more and one
  property, the array is a view which is not contiguous, `_eqs_array_data` raises, and saving without `use_numpy=True` fails.
* F45 (C85, C88). In release builds, merging gradients with another number of components is a broadcast, and numpy broadcasts
  to the left (samples become components) while the Rust arrays use the components of the output (F12).
* F46 (C89). `scripts/generate-declarations.py` drops parts of some typedefs without an error: `typedef int32_t *eqs_x`
  becomes `c_int32` and `typedef long double eqs_x` becomes `c_long`. Functions which return `eqs_status_t` are always called
  as functions which return a C int. No current typedef of the header has these forms.

* F47 (C93). When `shape` or `origin` fails for an array which the library just created, the error is turned into a panic by
  `expect("invalid block")` and others: the status of the callback is lost (the C API gives 255).
* F48 (C92). With F5, after a `reshape` which fails, the array keeps swapped axes and the block no longer has the component:
  shape and labels of the block do not match any more.
* F49 (C95). When an exception ends as a panic (F47), `_check_status` gets a positive status and ignores `LAST_EXCEPTION`: the
  exception is lost, and becomes the cause of a later error of `_check_pointer` with nothing in common.
* F50 (C95). `LAST_EXCEPTION` is one variable for all threads, while the error message is per thread: with two threads, an error
  can have the exception of another thread as its cause, and the other error none.
* F51 (C95). `catch_exceptions` only catches `Exception`: after a `KeyboardInterrupt` in a callback, the status is not
  set by anyone. If it is zero, the merge continues and returns successfully without the values.
* F52 (C96). Without debug assertions, gradients with a different number of components are moved: `move_samples_from` is called
  with arrays whose shapes do not go together, against its documentation, and it is up to the array to refuse it.
* F53 (C97). `_print_labels` does not put a blank between values: the column of a value has half of the width of the
  previous name and half of its own, and longer values take all of it. With names of one letter, values with four
  characters touch the previous one: keys (1, 12345, 1234) and (1, 1234, 51234) are both printed as `1123451234`.
* F54 (C98). The widths are divided by two with rounding, so every name with an even number of characters shifts the
  next values one character to the left. With names `aa`, `bb` and `cc`, the third value is not under its name. With no
  entries there is also a blank before the closing bracket (`['a' ]`), because it is only removed if there are entries.
* F55 (C99). Parameters of gradients are printed between quotes without escaping: one parameter named `a', 'b` has the
  same text as the two parameters `a` and `b`. Unlike the names in labels, parameters can have any characters.
* F56 (C101). `as_namedtuples` raises for `Labels.single()`: namedtuple refuses names which start with an underscore, and
  Python keywords such as `lambda`, but both are accepted by the library. For these tensor maps, a selection without match in
  `block` and `blocks` is the error of namedtuple, and not the one which says that nothing matches.
* F57 (C101). The class of named tuples has a method `as_dict`, set after its fields: a variable called `as_dict` is hidden.
* F58 (C102). `labels[["b"]].asarray()` contains the columns of the variables which were not selected, because the view of
  numpy keeps the padding. It raises for labels without entries (`reshape(0, -1)`), and for `labels[::2]` with two or
  more variables and two or more entries.
* F59 (C103, C79). If a variable of the keys is called `self` or `__return_selection`, `tensor.block(tensor.keys[0])`, and the
  same with keywords, raise a TypeError: names of variables are used as names of arguments.
* F60 (C105). `sample_names`, `components_names` and `property_names` raise for a tensor map without blocks, which can be made.
* F61 (C106). `keys_to_samples("")` moves the variable `f0`: numpy renames fields without a name. A name with a NUL character
  is cut: `keys_to_samples("spin\0s")` moves `spin`.
* F62 (C108). `LibraryFinder` stores the library before `setup_functions`: if a function is missing, the first request raises an
  AttributeError, and the next ones give the library without types for the rest of the functions, with panics printed, and
  without checks of the status of these functions.
* F63 (C109, C107). `_lib_path` stores the path before its checks: after an ImportError, the next request skips them. On Windows
  for ARM64, whose architecture is `64bit`, `_check_dll` refuses the right DLL on the first request and the second one
  works. The path can also not be set any more after the error which says that the library is not there.
* F64 (C88). In release builds, gradients with another number of component entries are merged by `move_samples_from`. With numpy this
  raises even if there are no gradient samples to move, where other arrays have nothing to do and the merge succeeds.
* F65 (C111). `eqs_tensormap_save` creates its file before anything is known about the data. If the data of an array can not be read
  (for example after `components_to_properties`, C71), it fails and what was in the file is lost; the new file is an
  archive with the first blocks only. It is never loaded as a tensor map (C112).
* F66 (C113). `save` takes a `BufWriter` and drops it without flushing: errors are ignored there. The last bytes (at least the
  22 of the end record of the archive, since `finish` seeks just before) can be missing from the file while
  `eqs_tensormap_save` returns `EQS_SUCCESS`, for example if the disk is full. Loading this file is an error.
* F67 (C116). `len()` of the iterators returned by `TensorMap::iter` and `TensorMap::iter_mut` panics as long as there are
  blocks left. They call `len` of `std::iter::Zip`, which requires that `size_hint` is exact; `labels::Iter` implements
  `ExactSizeIterator` without `size_hint`, so it is `(0, None)`. For labels without names, `iter` itself panics.
* F68 (C119). Without the feature `serialization`, which is not activated by default by Cargo or by CMake,
  `eqs_tensormap_save` creates the file before it calls `io::save`, which always fails. A file which already existed is
  lost: it is empty afterwards, while the function reports that serialization was not enabled.
* F69 (C120). `eqs_array_t::as_array` only compares the origin with the identifier of "rust.ndarray", which any program
  can get with `eqs_register_data_origin("rust.ndarray")` (Python does this), or guess before it is registered. The pointer
  of an array with this origin is then used as a pointer to `Box<dyn Array>`, which is undefined behaviour.
* The call of `eqs_get_rust_array` on an array which is not from Rust fails, but registers "rust.ndarray" if it was not
  registered before; the identifiers of the next names depend on this (C121).
* F70 (C123). `TensorBlock.__deepcopy__` relies on the garbage collector being disabled, which is a setting of the whole
  process, while ctypes lets other threads run during `eqs_block_copy`. If two threads copy blocks at the same time, the one
  which disabled the collector enables it again when it is done, and the next collection frees the arrays which the other
  thread did not take yet: it then uses an object which was freed. The same happens if another thread (or `array.copy()`
  itself) calls `gc.collect()`, even with only one copy.
* F71 (C124). `get_version` in `setup.py` compares the number of commits, which is a string, with the number 0: `.dev0` is
  added to the version of releases built from a checkout with git. pip does not install such versions by default. Also,
  without tags and with several first commits git fails, and the version is the one of a release.
* F72 (C125). The regular expression of `CMakeLists.txt` is not anchored: a key such as `rust-version = "1.53.0"` before
  `version` in `Cargo.toml` gives the version `rust-1.53.0` in CMake, and not in Python. Versions which are not three numbers
  are not found.
* F73 (not modelled). `cmake/equistore-config.in.cmake` always declares a shared library, also when a static one was
  installed (`BUILD_SHARED_LIBS=OFF`). `CMakeLists.txt` checks the version of `${CARGO_EXE}`, but then runs `cargo`.
* F74 (C127, C129). `ArrayWrapper` (`equistore/data.py` line 164) remembers the shape of the array, and `block.values` gives
  the array itself: after `block.values.shape = (4, 3, 2)` Python and the library disagree on the shape, and the labels of
  the block do not describe the array any more. `_eqs_array_swap_axes` then takes the shape from the array, so the shape
  known by the library changes to one which does not follow from the previous one: `components_to_properties` gives labels
  to the wrong values without an error, if the number of elements is right.
* F75 (C128). `_eqs_array_data` checks the type of the array each time, but not the shape: after
  `block.values.dtype = numpy.float64` for an array of `float32`, the pointer is given and the library reads twice the
  number of elements which exist (for instance in `save`).
* F76 (C132). `write_data` (`src/io/mod.rs` lines 212-232) calls `shape` for the header of the file, and `data` (`src/data.rs`
  line 290) calls `shape` again for the number of elements. The answers are not compared: if the array changed between the
  calls, for instance in another thread, saving succeeds with a file which can not be loaded.
* F77 (C133). A tensor map can have blocks with tensors of torch on different devices, or with different types: nothing
  compares them. `keys_to_properties` and `keys_to_samples` then fail, because `output[...] = input[...]`
  (`equistore/data.py` line 325) raises for torch, while numpy converts the elements (F43). The output has the device and the
  type of the first block which is merged.
* F78 (C137). `data_origin` (`equistore/data.py` lines 145-148) does not use the status given by the function `origin` of the
  array, and `eqs_array_to_python_object` (lines 129-137) trusts the identifier. An array of another program which uses the
  name `equistore.data.numpy` is used as a pointer to a Python object, even if its function `origin` failed. If `origin`
  failed and did not set the identifier, the exception is about `unregistered origin` and not about the failure.
* F79 (C139). The order in which keys are moved decides whether the moves are accepted. `keys_to_samples` needs the same
  properties in merged blocks (`src/tensor/keys_to_samples.rs` lines 111-126, as documented on lines 29-30), and `keys_to_properties` gives blocks
  different properties when some keys are missing. Moving `spin` to the samples and then `center` to the properties works
  for keys (center, spin) = (1, 0), (1, 1), (8, 0); in the other order the second move is refused.
* F80 (C141). `keys_to_samples` refuses blocks with different components (`src/tensor/keys_to_samples.rs` lines 111-126), but accepts
  them once the component was moved to the properties, if the blocks have no properties: the product of any component with
  no properties is empty. In the other direction, if the keys can be moved first, the component can (`C141_components_first_accepted`).
* F81 (C142). `keys_to_properties` refuses blocks with different entries in a component, and accepts them once the component was
  moved to the properties, as its error message says (`src/tensor/keys_to_properties.rs` lines 125-131). In the other direction, if the keys can be
  moved first, the component can (`C142_components_first_accepted_partial`, for blocks without empty components or properties).
  When both orders are accepted, the variables of the properties are in a different order: what was moved last is first.
* F82 (C143). The order in which two components are moved to the properties changes the values: of three components x, y and z, moving
  x and then y gives values under wrong labels, since x is followed by two components when it is moved (the defect shown for `C27`); moving y
  and then x gives the right ones. Both orders are accepted, and give the same samples, components and names.
* F83 (C144). `Debug` for `eqs_array_t` (`src/data.rs` lines 177-192) shows `None` when a callback fails, and calls none for a null
  pointer, but it panics when the pointer is set and the `origin` or `shape` callback is not (lines 273 and 324). Formatting the first array of
  a Rust implementation also registers its origin.

## 6. Assumptions

`Print Assumptions` gives `Closed under the global context` for every theorem of the `Prop*.v` files: no axiom is used,
from the standard library or otherwise.

## 7. Wrong programs

`seeded/LOG.jsonl` records edits which put a realistic bug in one definition of the model, in a copy outside of this
repository. For each one, the proofs which no longer compile are admitted, one by one, until everything compiles:
`theorems_failed` lists the property theorems which were admitted or whose proof uses an admitted lemma. This says that
their proof depends on the code which was edited, and not always that their statement became false. `theorems_tightened`
lists theorems which were added or changed because the bug was not noticed.
