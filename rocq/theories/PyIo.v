(* Model of equistore/io.py with use_numpy=True: files written and read by numpy,
   and not by the Rust library. numpy is not part of the repository: what is used
   of its file format is a parameter, see [numpy] below. *)
From Verif Require Import Base Labels Layout Array Block Tensor Npy Io.
Local Open Scope string_scope.
Local Open Scope list_scope.
Local Open Scope nat_scope.

(* The functions of numpy.lib.format: write_array and read_array, as functions of
   the header and of the bytes of the elements. None is an exception. The other
   fields are the endianness of the machine, and the origins which
   equistore/data.py registers for the arrays of numpy and torch. *)
Record numpy := mk_numpy {
  np_native : endianness;
  np_origin : nat;
  torch_origin : nat;
  np_write : header -> bytes -> option bytes;
  np_read : bytes -> option (header * bytes);
}.

(* All the exceptions are the same error *)
Definition exception {A} (message : string) : outcome A := Err (InvalidParameter message).

(** * Arrays *)

(* numpy.ndarray with 64-bit floating point numbers: the elements in logical
   order, and the strides (in elements) *)
Record py_array := mk_py_array {
  py_nd : ndarray;
  py_strides : list nat;
}.

(* array.flags.c_contiguous and array.flags.f_contiguous *)
Definition c_contiguous (a : py_array) : bool := is_standard_layout (nd_shape (py_nd a)) (py_strides a).
Definition f_contiguous (a : py_array) : bool :=
  is_standard_layout (rev (nd_shape (py_nd a))) (rev (py_strides a)).

(* array.T *)
Definition transposed (nd : ndarray) : ndarray :=
  nd_tabulate (rev (nd_shape nd)) (fun idx => nd_get nd (rev idx)).

(* equistore/data.py:128-137 and equistore/io.py:60-66 -- the array behind an
   eqs_array_t. The ndarrays of Rust are seen through their data, which must be in
   row-major order (equistore/data.py:90-121, src/c_api/data.rs:77-105). The arrays of
   Python are kept as they are, with the strides they have when the function is
   called; torch shares the memory and the strides of its tensors with numpy. *)
Definition py_array_of (np : numpy) (a : eqs_array) : outcome py_array :=
  match a_kind a with
  | RustNdarray =>
      if is_standard_layout (nd_shape (a_nd a)) (a_strides a)
      then Ok (mk_py_array (a_nd a) (default_strides (nd_shape (a_nd a))))
      else exception "assertion failed: array.is_standard_layout()"
  | RustEmptyArray => exception "unable to handle data coming from 'rust.EmptyArray'"
  | ForeignArray origin =>
      if (origin =? np_origin np) || (origin =? torch_origin np) then Ok (mk_py_array (a_nd a) (a_strides a))
      else exception "unable to handle data coming from another origin"
  end.

(** * Saving *)

(* numpy.lib.format.write_array for an array of float64: the elements are in
   Fortran order when the array is contiguous only in this order *)
Definition in_fortran_order (a : py_array) : bool := negb (c_contiguous a) && f_contiguous a.

Definition float_type (e : endianness) : py_value :=
  PyString match e with LittleEndian => "<f8" | BigEndian => ">f8" end.

Definition py_write_array (np : numpy) (a : py_array) : outcome bytes :=
  let nd := if in_fortran_order a then transposed (py_nd a) else py_nd a in
  let h := mk_header (float_type (np_native np)) (in_fortran_order a) (map Z.of_nat (nd_shape (py_nd a))) in
  match np_write np h (flat_map (encode (np_native np) 8) (nd_data nd)) with
  | Some f => Ok f
  | None => exception "can not write array"
  end.

(* the same for Labels: one structured element for each entry
   (equistore/labels.py:91-94). Labels always have a name here: labels without
   names can not be in a tensor map. *)
Definition labels_type (e : endianness) (names : list string) : py_value :=
  PyList (map (fun name => PyTuple [PyString name; PyString match e with LittleEndian => "<i4" | BigEndian => ">i4" end]) names).

Definition py_write_labels (np : numpy) (l : Labels) : outcome bytes :=
  let? entries := labels_iter l in
  let h := mk_header (labels_type (np_native np) (labels_names l)) false [Z.of_nat (length entries)] in
  match np_write np h (flat_map (encode (np_native np) 4) (concat entries)) with
  | Some f => Ok f
  | None => exception "can not write array"
  end.

(* numpy.savez: one file for each entry of the dictionary, with its key and the
   extension .npy as a name *)
Definition npz_labels (np : numpy) (key : string) (l : Labels) : outcome archive :=
  let? f := py_write_labels np l in Ok [(key +++ ".npy", f)].

Definition npz_array (np : numpy) (key : string) (a : eqs_array) : outcome archive :=
  let? array := py_array_of np a in
  let? f := py_write_array np array in
  Ok [(key +++ ".npy", f)].

(* equistore/io.py:76-77 and 85-86 *)
Fixpoint npz_components (np : numpy) (prefix : string) (i : nat) (components : list Labels) : outcome archive :=
  match components with
  | [] => Ok []
  | component :: rest =>
      let? first := npz_labels np (prefix +++ "/components/" +++ string_of_nat i) component in
      let? others := npz_components np prefix (i + 1) rest in
      Ok (first ++ others)
  end.

(* equistore/io.py:80-86 *)
Fixpoint npz_gradients (np : numpy) (block_i : nat) (gradients : list (string * BasicBlock)) : outcome archive :=
  match gradients with
  | [] => Ok []
  | (parameter, gradient) :: rest =>
      let prefix := "blocks/" +++ string_of_nat block_i +++ "/gradients/" +++ parameter in
      let? data := npz_array np (prefix +++ "/data") (bb_data gradient) in
      let? samples := npz_labels np (prefix +++ "/samples") (bb_samples gradient) in
      let? components := npz_components np prefix 0 (bb_components gradient) in
      let? others := npz_gradients np block_i rest in
      Ok (data ++ samples ++ components ++ others)
  end.

(* equistore/io.py:72-86 *)
Fixpoint npz_blocks (np : numpy) (block_i : nat) (blocks : list TensorBlock) : outcome archive :=
  match blocks with
  | [] => Ok []
  | block :: rest =>
      let prefix := "blocks/" +++ string_of_nat block_i +++ "/values" in
      let values := tb_values block in
      let? data := npz_array np (prefix +++ "/data") (bb_data values) in
      let? samples := npz_labels np (prefix +++ "/samples") (bb_samples values) in
      let? components := npz_components np prefix 0 (bb_components values) in
      let? properties := npz_labels np (prefix +++ "/properties") (bb_properties values) in
      let? gradients := npz_gradients np block_i (tb_gradients block) in
      let? others := npz_blocks np (block_i + 1) rest in
      Ok (data ++ samples ++ components ++ properties ++ gradients ++ others)
  end.

(* equistore/io.py:53-55 and 69-88 -- save(use_numpy=True), _tensor_map_to_dict.
   The keys of the dictionary are all different, so no entry replaces another
   one. *)
Definition py_save (np : numpy) (t : TensorMap) : outcome archive :=
  let? keys := npz_labels np "keys" (tm_keys t) in
  let? blocks := npz_blocks np 0 (tm_blocks t) in
  Ok (keys ++ blocks).

(** * Loading *)

(* the fields of a structured type with 32-bit integers; other types are not
   modelled, and refused *)
Fixpoint int_fields (fields : list py_value) : option (list string) :=
  match fields with
  | [] => Some []
  | PyTuple [PyString name; PyString typ] :: rest =>
      if String.eqb typ "<i4" || String.eqb typ ">i4"
      then option_map (cons name) (int_fields rest) else None
  | _ :: _ => None
  end.

(* the number of bytes of an array with this shape *)
Definition array_size (shape : list Z) (width : nat) : nat := Z.to_nat (z_prod shape) * width.

(* numpy.lib.format.read_array: as many bytes as there should be. What follows is
   ignored. *)
Definition take_bytes (n : nat) (content : bytes) : outcome bytes :=
  if n <=? length content then Ok (firstn n content) else exception "EOF: reading array data".

(* a Rust panic in the C API is an error for Python *)
Definition caught {A} (o : outcome A) : outcome A :=
  match o with Panic message => exception message | other => other end.

(* equistore/io.py:91-93 -- _labels_from_npz. data.view(dtype=np.int32) is the same
   bytes, as integers with the endianness of the machine. The conversion to Rust
   labels, when the labels are used, is part of this function; the check of
   Labels.__new__ for unique entries (equistore/labels.py:96-100) is the one of
   Rust. *)
Definition py_read_labels (np : numpy) (f : bytes) : outcome Labels :=
  match np_read np f with
  | None => exception "can not read array"
  | Some (h, content) =>
      match h_descriptor h with
      | PyList fields =>
          match int_fields fields with
          | Some names =>
              let? raw := take_bytes (array_size (h_shape h) (4 * length names)) content in
              let values := map (decode_i32 (np_native np)) (chunks_exact 4 raw) in
              caught (labels_build names (chunks_exact (length names) values))
          | None => exception "other types are not modelled"
          end
      | _ => exception "object of type 'NoneType' has no len()"
      end
  end.

(* the callbacks of numpy arrays (equistore/data.py:211-235): the data is only
   available in row-major order, with the type numpy.float64 *)
Definition py_callbacks (available : bool) (op : array_op) : callback :=
  match op with
  | OpData => if available then Works else Fails (-1)
  | _ => Works
  end.

(* numpy.lib.format.read_array for floating point numbers, and the array given to
   the library. Other types are not modelled, and refused. *)
Definition py_read_array (np : numpy) (f : bytes) : outcome eqs_array :=
  match np_read np f with
  | None => exception "can not read array"
  | Some (h, content) =>
      let? e :=
        match h_descriptor h with
        | PyString s =>
            if String.eqb s "<f8" then Ok LittleEndian
            else if String.eqb s ">f8" then Ok BigEndian
            else exception "other types are not modelled"
        | _ => exception "other types are not modelled"
        end in
      let? raw := take_bytes (array_size (h_shape h) 8) content in
      let data := map (decode e) (chunks_exact 8 raw) in
      let shape := map Z.to_nat (h_shape h) in
      let a :=
        if h_fortran_order h
        then mk_py_array (transposed (mk_nd (rev shape) data)) (rev (default_strides (rev shape)))
        else mk_py_array (mk_nd shape data) (default_strides shape) in
      Ok (mk_array (ForeignArray (np_origin np)) (py_nd a) (py_strides a)
            (py_callbacks (c_contiguous a && endianness_eqb e (np_native np))))
  end.

(* numpy.lib.npyio.NpzFile.__getitem__: the name of the file, with or without the
   extension. zipfile, as the zip crate, uses the last file with this name. *)
Definition npz_get (a : archive) (key : string) : outcome bytes :=
  by_name a (if existsb (String.eqb key) (map fst a) then key else key +++ ".npy").

(* NpzFile.keys(): the names of the files, without the extension *)
Definition npz_key (name : string) : string :=
  if has_suffix ".npy" name then substring 0 (String.length name - 4) name else name.

(* equistore/io.py:116-120 -- the gradients of the first block *)
Definition py_gradient_parameters (a : archive) : list string :=
  flat_map (fun name =>
    if has_prefix "blocks/0/gradients/" name && has_suffix "/data" name
    then [substring 19 (String.length name - 5 - 19) name] else [])
    (map (fun file => npz_key (fst file)) a).

(* equistore/io.py:108-110 and 127-131 *)
Definition py_read_components (np : numpy) (a : archive) (prefix : string) (shape : list nat) : outcome (list Labels) :=
  mapM (fun i => let? f := npz_get a (prefix +++ "/components/" +++ string_of_nat i) in py_read_labels np f)
    (seq 0 (length shape - 2)).

(* equistore/io.py:122-133 -- one iteration of the loop over the gradients *)
Definition py_load_gradient (np : numpy) (a : archive) (block_i : nat) (block : TensorBlock) (parameter : string)
  : outcome TensorBlock :=
  let prefix := "blocks/" +++ string_of_nat block_i +++ "/gradients/" +++ parameter in
  let? f := npz_get a (prefix +++ "/data") in
  let? data := py_read_array np f in
  let? f := npz_get a (prefix +++ "/samples") in
  let? samples := py_read_labels np f in
  let? components := py_read_components np a prefix (nd_shape (a_nd data)) in
  let '(block, result) := tensor_block_add_gradient block parameter data samples components in
  let? _ := caught result in
  Ok block.

(* equistore/io.py:102-135 -- one iteration of the loop over the blocks *)
Definition py_load_block (np : numpy) (a : archive) (parameters : list string) (block_i : nat) : outcome TensorBlock :=
  let prefix := "blocks/" +++ string_of_nat block_i +++ "/values" in
  let? f := npz_get a (prefix +++ "/data") in
  let? data := py_read_array np f in
  let? f := npz_get a (prefix +++ "/samples") in
  let? samples := py_read_labels np f in
  let? components := py_read_components np a prefix (nd_shape (a_nd data)) in
  let? f := npz_get a (prefix +++ "/properties") in
  let? properties := py_read_labels np f in
  let? block := caught (tensor_block_new data samples components properties) in
  foldM (py_load_gradient np a block_i) parameters block.

(* equistore/io.py:96-137 -- _read_npz *)
Definition py_load (np : numpy) (a : archive) : outcome TensorMap :=
  let? f := npz_get a "keys" in
  let? keys := py_read_labels np f in
  let? entries := labels_iter keys in
  let? blocks := mapM (py_load_block np a (py_gradient_parameters a)) (seq 0 (length entries)) in
  caught (tensor_map_new keys blocks).
