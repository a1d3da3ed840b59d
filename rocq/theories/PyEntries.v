(* Model of what equistore/labels.py, equistore/block.py and equistore/tensor.py do
   with the entries of labels: named tuples, arrays of integers, iteration over
   tensor maps, labels of blocks, and names of variables to move. *)
From Verif Require Import Base Labels Array Block Tensor Npy CApi PyIo PyLabels.
Local Open Scope string_scope.
Local Open Scope list_scope.
Local Open Scope nat_scope.

(** * Named tuples *)

(* keyword.kwlist, in Python 3.7 and later versions *)
Definition python_keywords : list string :=
  ["False"; "None"; "True"; "and"; "as"; "assert"; "async"; "await"; "break"; "class"; "continue"; "def"; "del"; "elif";
   "else"; "except"; "finally"; "for"; "from"; "global"; "if"; "import"; "in"; "is"; "lambda"; "nonlocal"; "not"; "or";
   "pass"; "raise"; "return"; "try"; "while"; "with"; "yield"].

(* str.isidentifier. [unicode] is the answer for names with other characters than
   the ones of ASCII. *)
Definition between (first last : nat) (c : ascii) : bool := (first <=? nat_of_ascii c) && (nat_of_ascii c <=? last).

Definition starts_identifier (c : ascii) : bool :=
  between 65 90 c || between 97 122 c || Ascii.eqb c "_"%char.

Definition continues_identifier (c : ascii) : bool := starts_identifier c || between 48 57 c.

Definition is_identifier (unicode : string -> bool) (name : string) : bool :=
  if forallb (between 0 127) (list_ascii_of_string name) then
    match list_ascii_of_string name with
    | [] => false
    | c :: rest => starts_identifier c && forallb continues_identifier rest
    end
  else unicode name.

Definition starts_with_underscore (name : string) : bool :=
  match name with String c _ => Ascii.eqb c "_"%char | EmptyString => false end.

(* collections.namedtuple(typename, names), in the standard library: the checks of
   the names. All of these are a ValueError. *)
Definition named_tuple_class (unicode : string -> bool) (names : list string) : outcome (list string) :=
  if existsb (fun name => negb (is_identifier unicode name)) names then
    exception "Type names and field names must be valid identifiers"
  else if existsb (fun name => existsb (String.eqb name) python_keywords) names then
    exception "Type names and field names cannot be a keyword"
  else if existsb starts_with_underscore names then exception "Field names cannot start with an underscore"
  else if has_duplicates String.eqb names then exception "Encountered duplicate field name"
  else Ok names.

(* the entries of labels, with the names of their fields *)
Definition py_entries (l : py_labels) : list (list (string * Z)) := map (combine (py_names l)) (py_rows l).

(* equistore/labels.py:139-161 -- list(labels.as_namedtuples()). The class is made
   by the first call of next, also if there are no entries. The result is what
   as_dict gives for each tuple. *)
Definition as_namedtuples (unicode : string -> bool) (l : py_labels) : outcome (list (list (string * Z))) :=
  let? names := named_tuple_class unicode (py_names l) in
  Ok (map (combine names) (py_rows l)).

(* getattr(tuple, name): a value or a method. as_dict is added to the class after
   the fields (equistore/labels.py:158), and replaces the field of the same name.
   Other attributes of tuples are not described. *)
Inductive tuple_attribute :=
| AttributeValue (value : Z)
| AttributeMethod.

Definition py_getattr (tuple : list (string * Z)) (name : string) : option tuple_attribute :=
  if (name =? "as_dict")%string then Some AttributeMethod
  else
    match find (fun field => String.eqb (fst field) name) tuple with
    | Some field => Some (AttributeValue (snd field))
    | None => None
    end.

(** * Arrays of integers *)

(* labels.view(dtype=np.int32): the integers of an array of elements. The size of
   elements can only change if the elements are next to each other; numpy does not
   check this for zero or one element. *)
Definition view_int32 (l : py_labels) : outcome (list Z) :=
  if pl_item l =? 1 then Ok (map (fun i => pl_get l i 0) (seq 0 (pl_count l)))
  else if (pl_count l * pl_item l =? 0) || (pl_count l =? 1) || (pl_stride l =? Z.of_nat (pl_item l))%Z then
    Ok (map (fun k => nth (pl_start l + k) (pl_memory l) 0%Z) (seq 0 (pl_count l * pl_item l)))
  else exception "To change to a dtype of a different size, the last axis must be contiguous".

(* array.reshape(count, -1) *)
Fixpoint split_rows (count width : nat) (values : list Z) : list (list Z) :=
  match count with
  | O => []
  | S count => firstn width values :: split_rows count width (skipn width values)
  end.

Definition reshape_rows (count : nat) (values : list Z) : outcome (list (list Z)) :=
  if count =? 0 then exception "cannot reshape array of size 0 into shape (0,newaxis)"
  else Ok (split_rows count (length values / count) values).

(* equistore/labels.py:238-240 -- Labels.asarray *)
Definition py_asarray (l : py_labels) : outcome (list (list Z)) :=
  let? values := view_int32 l in
  reshape_rows (pl_count l) values.

(** * Tensor maps and blocks *)

(* equistore/tensor.py:99-104 -- TensorMap.keys *)
Definition py_tensor_keys (p : profile) (thread : nat) (w : world) (tensor : nat) : outcome py_labels :=
  let? v := called_from_python p thread w (TensorKeys (Some tensor) out) in
  match v with
  | VLabels c => from_eqs_labels c
  | _ => exception "eqs_tensormap_keys gives labels"
  end.

(* equistore/tensor.py:77-80 -- list(tensor). The tensor map is not changed during
   the iteration. *)
Definition py_items (p : profile) (thread : nat) (w : world) (tensor : nat)
  : outcome (list (list (string * Z) * block_ptr)) :=
  let? keys := py_tensor_keys p thread w tensor in
  mapM (fun item =>
    let? block := py_block_by_id p thread w tensor (fst item) in
    Ok (snd item, block)) (combine (seq 0 (pl_count keys)) (py_entries keys)).

(* equistore/block.py:216-219 and 381-386 -- TensorBlock._labels and
   Gradient._labels; [name] is "values" or the parameter of a gradient *)
Definition py_axis_labels (p : profile) (thread : nat) (w : world) (block : block_ptr) (name : string) (axis : nat)
  : outcome py_labels :=
  let? v := called_from_python p thread w (BlockLabels block (Some name) axis out) in
  match v with
  | VLabels c => from_eqs_labels c
  | _ => exception "eqs_block_labels gives labels"
  end.

(* equistore/block.py:166-176, 331-341 and 389-392 -- len(block.values.shape) *)
Definition py_dimensions (p : profile) (thread : nat) (w : world) (block : block_ptr) (name : string) : outcome nat :=
  let? v := called_from_python p thread w (BlockData block (Some name) out) in
  match v with
  | VArray given => Ok (length (nd_shape (a_nd (ga_array given))))
  | _ => exception "eqs_block_data gives an array"
  end.

(* equistore/block.py:178-214 and 343-379 -- samples, components and properties *)
Definition py_samples (p : profile) (thread : nat) (w : world) (block : block_ptr) (name : string) : outcome py_labels :=
  py_axis_labels p thread w block name 0.

Definition py_components (p : profile) (thread : nat) (w : world) (block : block_ptr) (name : string)
  : outcome (list py_labels) :=
  let? dimensions := py_dimensions p thread w block name in
  mapM (fun axis => py_axis_labels p thread w block name (axis + 1)) (seq 0 (dimensions - 2)).

Definition py_properties (p : profile) (thread : nat) (w : world) (block : block_ptr) (name : string) : outcome py_labels :=
  let? dimensions := py_dimensions p thread w block name in
  py_axis_labels p thread w block name (dimensions - 1).

(* equistore/tensor.py:345-358 -- TensorMap.sample_names, components_names and
   property_names *)
Definition py_sample_names (p : profile) (thread : nat) (w : world) (tensor : nat) : outcome (list string) :=
  let? block := py_block p thread w tensor (ByIndex 0) in
  let? labels := py_samples p thread w block "values" in
  Ok (py_names labels).

Definition py_components_names (p : profile) (thread : nat) (w : world) (tensor : nat) : outcome (list (list string)) :=
  let? block := py_block p thread w tensor (ByIndex 0) in
  let? labels := py_components p thread w block "values" in
  Ok (map py_names labels).

Definition py_property_names (p : profile) (thread : nat) (w : world) (tensor : nat) : outcome (list string) :=
  let? block := py_block p thread w tensor (ByIndex 0) in
  let? labels := py_properties p thread w block "values" in
  Ok (py_names labels).

(** * Names to move *)

(* a string, a list of strings, or labels *)
Inductive names_argument :=
| OneName (name : string)
| ManyNames (names : list string)
| NamesOfLabels (labels : py_labels).

(* equistore/tensor.py:361-376 -- _normalize_keys_to_move *)
Definition normalize_keys_to_move (argument : names_argument) : outcome py_labels :=
  match argument with
  | OneName name => labels_new [name] 1 []
  | ManyNames names => labels_new names (length names) []
  | NamesOfLabels labels => Ok labels
  end.

(* a call which changes a tensor map *)
Definition changed_from_python (p : profile) (thread : nat) (w : world) (c : c_call) : world * outcome unit :=
  match run_call p thread w c with
  | (w, _, Returned 0) => (w, Ok tt)
  | (w, _, Returned _) => (w, exception "EquistoreError")
  | (w, _, Unwound message) => (w, Undefined message)
  | (w, _, Crashed reason) => (w, Undefined reason)
  end.

(* equistore/tensor.py:261-299 -- TensorMap.keys_to_properties. [temporary] is the
   number of arrays which the library makes and destroys. *)
Definition py_keys_to_properties (p : profile) (thread : nat) (w : world) (tensor : nat) (argument : names_argument)
    (sort_samples : bool) (temporary : nat) : world * outcome unit :=
  match normalize_keys_to_move argument with
  | Ok labels =>
      changed_from_python p thread w (TensorKeysToProperties (Some tensor) (as_eqs_labels labels) sort_samples temporary)
  | Err e => (w, Err e)
  | Panic message => (w, Panic message)
  | Undefined reason => (w, Undefined reason)
  end.

(* equistore/tensor.py:301-330 -- TensorMap.keys_to_samples *)
Definition py_keys_to_samples (p : profile) (thread : nat) (w : world) (tensor : nat) (argument : names_argument)
    (sort_samples : bool) (temporary : nat) : world * outcome unit :=
  match normalize_keys_to_move argument with
  | Ok labels =>
      changed_from_python p thread w (TensorKeysToSamples (Some tensor) (as_eqs_labels labels) sort_samples temporary)
  | Err e => (w, Err e)
  | Panic message => (w, Panic message)
  | Undefined reason => (w, Undefined reason)
  end.

(* equistore/tensor.py:332-343 and 379-388 -- TensorMap.components_to_properties
   with _list_or_str_to_array_c_char, where other arguments fail an assertion *)
Definition py_components_to_properties (p : profile) (thread : nat) (w : world) (tensor : nat) (argument : names_argument)
  : world * outcome unit :=
  match argument with
  | OneName name => changed_from_python p thread w (TensorComponentsToProperties (Some tensor) (Some [Some name]))
  | ManyNames names => changed_from_python p thread w (TensorComponentsToProperties (Some tensor) (Some (map Some names)))
  | NamesOfLabels _ => (w, exception "AssertionError")
  end.
