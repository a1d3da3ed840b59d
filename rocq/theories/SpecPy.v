(* Vocabulary for the files written and read by numpy *)
From Verif Require Import Base Labels Array Block Tensor Npy Spec SpecTensor SpecIo SpecFormat PyIo.
Local Open Scope string_scope.
Local Open Scope list_scope.
Local Open Scope nat_scope.

(** * What is expected from numpy *)

(* the types used by the library: 64-bit floating point numbers, or structures
   made of 32-bit integers whose names are identifiers *)
Inductive common_type : py_value -> Prop :=
| common_float e : common_type (PyString match e with LittleEndian => "<f8" | BigEndian => ">f8" end)
| common_labels e names : Forall identifier names ->
    common_type (PyList (map (fun name =>
      PyTuple [PyString name; PyString match e with LittleEndian => "<i4" | BigEndian => ">i4" end]) names)).

(* a number of variables or axes for which numpy can write a header *)
Definition reasonable_header (h : header) : Prop :=
  (Z.of_nat (length (h_shape h)) < 2 ^ 20)%Z
  /\ forall fields, h_descriptor h = PyList fields ->
     (Z.of_nat (14 * length fields + text_size (field_names fields)) < 2 ^ 31)%Z.

(* numpy writes the NPY format, and reads all the files in this format, as long as
   there are at most [limit] bytes before the elements *)
Record follows_format (np : numpy) (limit : nat) : Prop := {
  ff_writes : forall h content,
    common_type (h_descriptor h) -> usize_shape (h_shape h) -> reasonable_header h ->
    exists f, np_write np h content = Some f;
  ff_written : forall h content f,
    common_type (h_descriptor h) -> usize_shape (h_shape h) ->
    np_write np h content = Some f -> npy_format h content f;
  ff_read : forall h content f,
    common_type (h_descriptor h) -> usize_shape (h_shape h) ->
    npy_format h content f -> length f <= length content + limit -> np_read np f = Some (h, content) }.

(* the same limit for all the files of an archive *)
Definition short_headers (limit : nat) (a : list (string * bytes)) : Prop :=
  forall path f h content, In (path, f) a -> npy_format h content f -> length f <= length content + limit.

(* the integers in labels are stored with this endianness *)
Definition labels_stored (e : endianness) (a : list (string * bytes)) : Prop :=
  forall path f shape names e' content,
    In (path, f) a -> names <> [] -> usize_shape shape ->
    npy_file (PyList (map (fun name =>
      PyTuple [PyString name; PyString match e' with LittleEndian => "<i4" | BigEndian => ">i4" end]) names)) shape content f ->
    e' = e.

(** * The layout of numpy arrays *)

(* distance in memory between the first element and the one at [idx] *)
Definition distance (strides idx : list nat) : nat :=
  fold_right Nat.add 0 (map (fun si => fst si * snd si) (combine strides idx)).

(* the elements are next to each other in memory, the last index varies fastest *)
Definition row_major (shape strides : list nat) : Prop :=
  forall idx, in_bounds shape idx -> distance strides idx = offset shape idx.

(* the first index varies fastest *)
Definition column_major (shape strides : list nat) : Prop :=
  forall idx, in_bounds shape idx -> distance strides idx = offset (rev shape) (rev idx).

(* arrays of numpy or torch which numpy writes in Fortran order *)
Definition fortran_array (a : eqs_array) : Prop :=
  (exists origin, a_kind a = ForeignArray origin)
  /\ column_major (shape_of a) (a_strides a) /\ ~ row_major (shape_of a) (a_strides a).

(* arrays which can be seen from Python *)
Definition python_array (np : numpy) (a : eqs_array) : Prop :=
  match a_kind a with
  | RustNdarray => row_major (shape_of a) (a_strides a)
  | RustEmptyArray => False
  | ForeignArray origin => origin = np_origin np \/ origin = torch_origin np
  end.

Definition python_tensor (np : numpy) (t : TensorMap) : Prop :=
  forall b part, In b (tm_blocks t) -> In part (parts_of_block b) -> python_array np (bb_data part).

(* one stride for each axis, for the arrays of Python too *)
Definition strided_tensor (t : TensorMap) : Prop :=
  forall b part, In b (tm_blocks t) -> In part (parts_of_block b) ->
    length (a_strides (bb_data part)) = length (shape_of (bb_data part)).

Definition has_fortran_array (t : TensorMap) : Prop :=
  exists b part, In b (tm_blocks t) /\ In part (parts_of_block b) /\ fortran_array (bb_data part).
