(* Model of equistore/labels.py, of the selection of blocks in
   equistore/tensor.py, and of data_origin_name in equistore/data.py: what Python
   code does around the calls of the C API. *)
From Verif Require Import Base Labels Array Block Tensor Npy CApi PyIo.
Local Open Scope string_scope.
Local Open Scope list_scope.
Local Open Scope nat_scope.

(** * Labels

    Labels are a sub-class of numpy.ndarray, with one structured element for each
    entry. The element [i] starts at the position [pl_start + i * pl_stride] of a
    memory made of 32-bit integers, and takes [pl_item] of these integers; each
    field is a name and the position of an integer in the element. Labels made
    from an array without columns are a 2D array, and are described here without
    fields. Labels which come from the library also keep the eqs_labels_t. *)
Record py_labels := mk_py_labels {
  pl_memory : list Z;
  pl_start : nat;
  pl_stride : Z;
  pl_count : nat;
  pl_item : nat;
  pl_fields : list (string * nat);
  pl_library : option c_labels;
}.

(* the integer at some position of the element [i] *)
Definition pl_position (l : py_labels) (i offset : nat) : Z :=
  (Z.of_nat (pl_start l) + Z.of_nat i * pl_stride l + Z.of_nat offset)%Z.

Definition pl_get (l : py_labels) (i offset : nat) : Z :=
  nth (Z.to_nat (pl_position l i offset)) (pl_memory l) 0%Z.

(* equistore/labels.py:124-127 -- Labels.names *)
Definition py_names (l : py_labels) : list string := map fst (pl_fields l).

(* the entries: for entry in labels: tuple(entry) *)
Definition py_rows (l : py_labels) : list (list Z) :=
  map (fun i => map (fun field => pl_get l i (snd field)) (pl_fields l)) (seq 0 (pl_count l)).

(** ** Making labels *)

(* conversion of an integer of any size to 32 bits, by numpy (astype with
   casting="same_kind") and by ctypes (c_int32) *)
Definition wrap_32 (z : Z) : Z := to_signed_32 (z mod 2 ^ 32)%Z.

(* numpy.dtype: a field without a name is called after its position *)
Fixpoint field_names (i : nat) (names : list string) : list string :=
  match names with
  | [] => []
  | name :: rest => (if String.eqb name "" then "f" +++ string_of_nat i else name) :: field_names (i + 1) rest
  end.

Fixpoint has_duplicates {A} (eqb : A -> A -> bool) (l : list A) : bool :=
  match l with
  | [] => false
  | a :: rest => existsb (eqb a) rest || has_duplicates eqb rest
  end.

(* equistore/labels.py:59-113 -- Labels(names, values), for a 2D array of
   integers of any size with this number of columns. Other arrays give a
   ValueError or a TypeError. *)
Definition labels_new (names : list string) (columns : nat) (values : list (list Z)) : outcome py_labels :=
  if negb (length names =? columns) then
    exception "names parameter must have an entry for each column of the array"
  else
    let values := map (map wrap_32) values in
    let names := field_names 0 names in
    if has_duplicates String.eqb names then exception "field occurs more than once"
    else if negb (columns =? 0) && has_duplicates row_eqb values then
      exception "values in Labels must be unique"
    else
      Ok (mk_py_labels (concat values) 0 (Z.of_nat columns) (length values) columns
            (combine names (seq 0 columns)) None).

(* equistore/labels.py:179-203 and equistore/utils.py:40-55 -- _from_eqs_labels_t,
   a view inside of the memory of the library. There is no check for unique
   values, and labels without entries are made without eqs_labels_t. *)
Definition from_eqs_labels (c : c_labels) : outcome py_labels :=
  let names := match cl_names c with Some memory => map c_str (firstn (cl_size c) memory) | None => [] end in
  if cl_count c =? 0 then labels_new names (cl_size c) []
  else
    let names := field_names 0 names in
    if has_duplicates String.eqb names then exception "field occurs more than once"
    else
      match cl_values c with
      | None => if cl_size c =? 0 then Ok (mk_py_labels [] 0 0 (cl_count c) 0 [] (Some c)) else exception "assertion failed"
      | Some memory =>
          Ok (mk_py_labels memory 0 (Z.of_nat (cl_size c)) (cl_count c) (cl_size c)
                (combine names (seq 0 (cl_size c))) (Some c))
      end.

(** ** Parts of labels: Labels.__array_finalize__ (equistore/labels.py:115-122)
    removes the eqs_labels_t *)

(* labels[start:stop:step], in terms of what slice(start, stop, step).indices
   gives: the position of the first entry, the step, and the number of entries *)
Definition py_slice (l : py_labels) (first : nat) (step : Z) (number : nat) : py_labels :=
  mk_py_labels (pl_memory l) (Z.to_nat (pl_position l first 0)) (step * pl_stride l) number (pl_item l) (pl_fields l) None.

(* labels[["a", "b"]]: a view on the same elements, with only some of the fields.
   The fields must exist, and be different. *)
Definition py_select (l : py_labels) (names : list string) : outcome py_labels :=
  if has_duplicates String.eqb names then exception "duplicate field"
  else
    let? fields := mapM (fun name =>
      match find (fun field => String.eqb (fst field) name) (pl_fields l) with
      | Some field => Ok field
      | None => exception "no field of this name"
      end) names in
    Ok (mk_py_labels (pl_memory l) (pl_start l) (pl_stride l) (pl_count l) (pl_item l) fields None).

(* labels[[3, 0]] or labels[mask]: a copy of these elements *)
Definition py_take (l : py_labels) (indexes : list nat) : py_labels :=
  mk_py_labels (flat_map (fun i => map (pl_get l i) (seq 0 (pl_item l))) indexes)
    0 (Z.of_nat (pl_item l)) (length indexes) (pl_item l) (pl_fields l) None.

(** ** Giving labels to the library *)

(* equistore/labels.py:163-177 -- _as_eqs_labels_t: a pointer to the first
   element, whatever the fields and the distance between elements are *)
Definition as_eqs_labels (l : py_labels) : c_labels :=
  mk_c_labels None (Some (py_names l)) (Some (skipn (pl_start l) (pl_memory l)))
    (length (pl_fields l)) (pl_count l).

(* equistore/labels.py:205-236 -- Labels.position; a negative result is None *)
Definition py_position (l : py_labels) (label : list Z) : outcome (option nat) :=
  match pl_library l with
  | None => exception "can not lookup the position of an entry in standalone Labels"
  | Some c =>
      match c_labels_position c (Some (map wrap_32 label)) (length label) with
      | Ok position => Ok (if (0 <=? position)%Z then Some (Z.to_nat position) else None)
      | Undefined reason => Undefined reason
      | _ => exception "EquistoreError"
      end
  end.

(** * Selection of blocks

    A call of the C API which does not succeed is an exception in Python
    (equistore/status.py). *)
Definition called_from_python (p : profile) (thread : nat) (w : world) (c : c_call) : outcome c_value :=
  match run_call p thread w c with
  | (_, v, Returned 0) => Ok v
  | (_, _, Returned _) => exception "EquistoreError"
  | (_, _, Unwound message) => Undefined message
  | (_, _, Crashed reason) => Undefined reason
  end.

(* the arguments of TensorMap.block, blocks and blocks_matching: an index, Labels
   or keywords. An entry of Labels or a named tuple are used as keywords
   (equistore/tensor.py:215-225). *)
Inductive py_selection :=
| ByIndex (index : nat)
| ByLabels (labels : py_labels)
| ByKeywords (keywords : list (string * Z)).

(* Keywords with the name of another argument are a TypeError: self is the argument
   of all methods (equistore/tensor.py:106, 155, 199), and blocks_matching is called
   with __return_selection (equistore/tensor.py:137-139, 187-189, 217-225).
   Simplified: blocks_matching(__return_selection=...) in the code of a user is
   accepted, and does not only give indexes. *)
Definition other_arguments : list string := ["self"; "__return_selection"].

(* equistore/tensor.py:231-235 -- numpy.array(values, dtype=np.int32) raises an
   OverflowError (older versions wrap the values) *)
Definition selection_labels (selection : py_selection) : outcome py_labels :=
  match selection with
  | ByIndex _ => exception "got unexpected object in `TensorMap.blocks_matching`"
  | ByLabels labels => Ok labels
  | ByKeywords keywords =>
      if existsb (fun name => existsb (String.eqb name) other_arguments) (map fst keywords) then
        exception "got multiple values for argument"
      else if forallb is_i32 (map snd keywords) then labels_new (map fst keywords) (length keywords) [map snd keywords]
      else exception "Python integer out of bounds for int32"
  end.

(* len(self.keys): equistore/tensor.py:99-104 *)
Definition py_len_keys (p : profile) (thread : nat) (w : world) (tensor : nat) : outcome nat :=
  let? v := called_from_python p thread w (TensorKeys (Some tensor) out) in
  match v with
  | VLabels c => let? l := from_eqs_labels c in Ok (pl_count l)
  | _ => exception "eqs_tensormap_keys gives labels"
  end.

(* equistore/tensor.py:199-254 -- TensorMap.blocks_matching *)
Definition py_blocks_matching (p : profile) (thread : nat) (w : world) (tensor : nat) (selection : py_selection)
  : outcome (list nat) :=
  let? labels := selection_labels selection in
  let? length := py_len_keys p thread w tensor in
  let? v := called_from_python p thread w
    (TensorBlocksMatching (Some tensor) (Some (repeat 0 length)) out (as_eqs_labels labels)) in
  match v with
  | VIndexes buffer count => Ok (firstn count buffer)
  | _ => exception "eqs_tensormap_blocks_matching gives indexes"
  end.

(* equistore/tensor.py:256-259 -- TensorMap._get_block_by_id *)
Definition py_block_by_id (p : profile) (thread : nat) (w : world) (tensor index : nat) : outcome block_ptr :=
  let? v := called_from_python p thread w (TensorBlockById (Some tensor) out index) in
  match v with
  | VBlock block => Ok block
  | _ => exception "eqs_tensormap_block_by_id gives a block"
  end.

(* equistore/tensor.py:106-153 -- TensorMap.block. The text of the errors uses the
   first entry of the selection as a named tuple; making it can also be a
   ValueError. *)
Definition py_block (p : profile) (thread : nat) (w : world) (tensor : nat) (selection : py_selection)
  : outcome block_ptr :=
  match selection with
  | ByIndex index => py_block_by_id p thread w tensor index
  | _ =>
      let? matching := py_blocks_matching p thread w tensor selection in
      match matching with
      | [] => exception "Couldn't find any block matching the selection"
      | [index] => py_block_by_id p thread w tensor index
      | _ => exception "more than one block matched"
      end
  end.

(* equistore/tensor.py:155-197 -- TensorMap.blocks *)
Definition py_blocks (p : profile) (thread : nat) (w : world) (tensor : nat) (selection : py_selection)
  : outcome (list block_ptr) :=
  match selection with
  | ByIndex index => let? block := py_block_by_id p thread w tensor index in Ok [block]
  | _ =>
      let? matching := py_blocks_matching p thread w tensor selection in
      match matching with
      | [] => exception "Couldn't find any block matching the selection"
      | _ => mapM (py_block_by_id p thread w tensor) matching
      end
  end.

(** * Names of the origins *)

(* bytes up to the first NUL: ctypes.c_char_Array.value *)
Fixpoint buffer_value (buffer : list ascii) : string :=
  match buffer with
  | [] => ""
  | c :: rest => if Ascii.eqb c nul then "" else String c (buffer_value rest)
  end.

(* equistore/utils.py:11-25 -- _call_with_growing_buffer, with at most [tries]
   calls. [callback] is given the buffer, of [bufflen] zeros, and the buffer is in
   its result. None is when there should be more calls. The decoding always works
   for data_origin_name: names are valid UTF-8 (src/c_api/data.rs:27). *)
Fixpoint growing_buffer (callback : list ascii -> world * c_value * c_result) (tries bufflen : nat)
  : option (outcome string) :=
  match tries with
  | O => None
  | S tries =>
      match callback (repeat nul bufflen) with
      | (_, VText buffer, Returned status) =>
          if (status =? 0)%Z then Some (Ok (buffer_value buffer))
          else if (status =? 254)%Z then growing_buffer callback tries (bufflen * 2)
          else Some (exception "EquistoreError")
      | (_, _, Unwound message) => Some (Undefined message)
      | (_, _, Crashed reason) => Some (Undefined reason)
      | _ => Some (exception "the callback gives a text")
      end
  end.

(* equistore/data.py:151-156 -- data_origin_name *)
Definition data_origin_name (tries : nat) (p : profile) (thread : nat) (w : world) (origin : nat)
  : option (outcome string) :=
  growing_buffer (fun buffer => run_call p thread w (GetDataOrigin origin (Some buffer))) tries 1024.
