(* The Python tests of the repository, as computations of the model:
   tests/python/*.py. Numbers such as 1.0 are written 1: the model only moves them.
   Not here: what is about the identity of Python objects, errors of numpy
   (read-only arrays, values which are not integers) and the text of exceptions of
   Python, which the model does not have. Arrays of torch are in Torch.v. *)
From Verif Require Import Base Labels Array Block Tensor Strided Npy Io CApi PyIo PyLabels PyEntries PyPrint Numpy SpecApi SpecPyPrint.
From Verif Require Import ExamplesPy RepoTests.
Local Open Scope string_scope.
Local Open Scope list_scope.
Local Open Scope nat_scope.

(** * tests/python/utils.py *)

(* the number of the origin of numpy arrays, given by the library *)
Definition numpy_origin : nat := 1.

(* np.full *)
Definition np_full (shape : list nat) (value : Z) : eqs_array :=
  mk_array (ForeignArray numpy_origin) (mk_nd shape (repeat value (prod shape))) [] (fun _ => Works).

(* Labels(names, values), given to the library *)
Definition given (names : list string) (values : list (list Z)) : c_labels :=
  match labels_new names (length names) values with
  | Ok l => as_eqs_labels l
  | _ => mk_c_labels None None None 0 0
  end.

Definition block_calls (handle : nat) (samples components properties gradient_samples : list (list Z)) (values gradient_values : Z)
  : list c_call :=
  [BlockCreate (np_full [length samples; length components; length properties] values) (given ["samples"] samples)
     [given ["components"] components] (given ["properties"] properties);
   BlockAddGradient (BlockAt handle) (Some "parameter") (np_full [length gradient_samples; length components; length properties] gradient_values)
     (given ["sample"; "parameter"] gradient_samples) [given ["components"] components]].

(* tests/python/utils.py:6-81 -- test_tensor_map. The blocks have handles 0 to 3,
   and the tensor map has handle 4. *)
Definition test_tensor_map_calls : list c_call :=
  [RegisterDataOrigin (Some "equistore.data.numpy") out]
  ++ block_calls 0 [[0]; [2]; [4]]%Z [[0]]%Z [[0]]%Z [[0; -2]; [2; 3]]%Z 1 11
  ++ block_calls 1 [[0]; [1]; [3]]%Z [[0]]%Z [[3]; [4]; [5]]%Z [[0; -2]; [0; 3]; [2; -2]]%Z 2 12
  ++ block_calls 2 [[0]; [3]; [6]; [8]]%Z [[0]; [1]; [2]]%Z [[0]]%Z [[1; -2]]%Z 3 13
  ++ block_calls 3 [[0]; [1]; [2]; [5]]%Z [[0]; [1]; [2]]%Z [[0]]%Z [[0; 1]; [3; 3]]%Z 4 14
  ++ [TensorCreate (given ["key_1"; "key_2"] [[0; 0]; [1; 0]; [2; 2]; [2; 3]]%Z) [BlockAt 0; BlockAt 1; BlockAt 2; BlockAt 3]].

Definition from_main (calls : list c_call) : list (nat * c_call) := map (fun c => (0, c)) calls.

Definition test_world : world :=
  state_at Debug (world_start []) (from_main test_tensor_map_calls) (length test_tensor_map_calls).
Definition tensor : nat := 4.

(* all calls succeed, the origin and the handles are these ones *)
Example test_tensor_map_created :
  map snd (snd (run Debug (world_start []) (from_main test_tensor_map_calls))) = repeat (Returned 0) (length test_tensor_map_calls)
  /\ map fst (firstn 1 (snd (run Debug (world_start []) (from_main test_tensor_map_calls)))) = [VOrigin numpy_origin]
  /\ map fst (w_tensors test_world) = [tensor] /\ w_blocks test_world = [].
Proof. vm_compute. auto. Qed.

Definition the_tensor : TensorMap :=
  match w_tensors test_world with
  | (_, t) :: _ => ot_tensor t
  | [] => mk_tensor (mk_labels [] [] []) []
  end.

(* block.values: shape and elements *)
Definition values_of (w : world) (block : block_ptr) (name : string) : option (list nat * list Z) :=
  match run_call Debug 0 w (BlockData block (Some name) out) with
  | (_, VArray a, Returned 0) => Some (nd_shape (a_nd (ga_array a)), nd_data (a_nd (ga_array a)))
  | _ => None
  end.

Definition values_of_all (w : world) (blocks : outcome (list block_ptr)) : option (list (option (list nat * list Z))) :=
  match blocks with
  | Ok blocks => Some (map (fun b => values_of w b "values") blocks)
  | _ => None
  end.
Definition one_block (b : outcome block_ptr) : outcome (list block_ptr) := let? b := b in Ok [b].

Definition fails {A} (o : outcome A) : bool := match o with Err _ => true | _ => false end.

(** * tests/python/labels.py *)

(* tests/python/labels.py:10-41 -- test_python_labels; the values can be any integers *)
Example test_python_labels :
  let labels := labels_new ["a"; "b"] 2 [[0; 0]]%Z in
  (let? l := labels in Ok (py_names l, pl_count l, py_rows l)) = Ok (["a"; "b"], 1, [[0; 0]]%Z)
  /\ (let? l := labels in py_asarray l) = Ok [[0; 0]]%Z.
Proof. vm_compute. auto. Qed.

Definition test_keys : outcome py_labels := py_tensor_keys Debug 0 test_world tensor.

(* tests/python/labels.py:43-62 -- test_native_labels *)
Example test_native_labels :
  let rows := [[0; 0]; [1; 0]; [2; 2]; [2; 3]]%Z in
  (let? l := test_keys in Ok (py_names l, pl_count l, py_rows l)) = Ok (["key_1"; "key_2"], 4, rows)
  /\ (let? l := test_keys in py_asarray l) = Ok rows.
Proof. vm_compute. auto. Qed.

(* tests/python/labels.py:64-78 -- test_position and test_contains *)
Example test_position :
  (let? l := test_keys in py_position l [0; 0]%Z) = Ok (Some 0)
  /\ (let? l := test_keys in py_position l [2; 3]%Z) = Ok (Some 3)
  /\ (let? l := test_keys in py_position l [2; -1]%Z) = Ok None.
Proof. vm_compute. auto. Qed.

(* tests/python/labels.py:80-99 -- test_named_tuples *)
Example test_named_tuples :
  let entry a b := [("key_1", a); ("key_2", b)]%Z in
  (let? l := test_keys in as_namedtuples (fun _ => false) l) = Ok [entry 0 0; entry 1 0; entry 2 2; entry 2 3]%Z
  /\ py_getattr (entry 0 0)%Z "key_1" = Some (AttributeValue 0)
  /\ py_getattr (entry 0 0)%Z "key_2" = Some (AttributeValue 0)
  /\ py_getattr (entry 0 0)%Z "as_dict" = Some AttributeMethod.
Proof. vm_compute. auto. Qed.

(** * tests/python/tensor.py *)

(* tests/python/tensor.py:18-44 -- test_print, for the tensor map of
   test_tensor_map; the other one is in ExamplesPyPrint.v *)
Example test_print : tensor_repr the_tensor = Ok (in_lines
  ["TensorMap with 4 blocks";
   "keys: ['key_1' 'key_2']";
   "          0       0";
   "          1       0";
   "          2       2";
   "          2       3"]).
Proof. vm_compute. reflexivity. Qed.

(* tests/python/tensor.py:46-51 -- test_labels_names *)
Example test_labels_names :
  py_sample_names Debug 0 test_world tensor = Ok ["samples"]
  /\ py_components_names Debug 0 test_world tensor = Ok [["components"]]
  /\ py_property_names Debug 0 test_world tensor = Ok ["properties"].
Proof. vm_compute. auto. Qed.

(* tests/python/tensor.py:53-85 -- test_block. The test compares the values of the
   second block to an array of shape (3, 1, 1), which numpy broadcasts: the shape is
   (3, 1, 3). *)
Example test_block :
  let block selection := values_of_all test_world (one_block (py_block Debug 0 test_world tensor selection)) in
  block (ByIndex 2) = Some [array_full [4; 3; 1] 3]
  /\ block (ByKeywords [("key_1", 1); ("key_2", 0)]%Z) = Some [array_full [3; 1; 3] 2]
  /\ block (ByKeywords [("key_1", 0); ("key_2", 0)]%Z) = Some [array_full [3; 1; 1] 1]
  /\ py_block Debug 0 test_world tensor (ByKeywords [("key_1", 3)]%Z)
     = exception "Couldn't find any block matching the selection"
  /\ py_block Debug 0 test_world tensor (ByKeywords [("key_2", 0)]%Z) = exception "more than one block matched".
Proof. vm_compute. auto 10. Qed.

(* tests/python/tensor.py:87-105 -- test_blocks *)
Example test_blocks :
  let blocks selection := values_of_all test_world (py_blocks Debug 0 test_world tensor selection) in
  blocks (ByIndex 2) = Some [array_full [4; 3; 1] 3]
  /\ blocks (ByKeywords [("key_1", 1); ("key_2", 0)]%Z) = Some [array_full [3; 1; 3] 2]
  /\ blocks (ByKeywords [("key_2", 0)]%Z) = Some [array_full [3; 1; 1] 1; array_full [3; 1; 3] 2].
Proof. vm_compute. auto. Qed.

(* tests/python/tensor.py:107-120 -- test_iter *)
Example test_iter :
  (let? items := py_items Debug 0 test_world tensor in
   Ok (map (fun item => (map snd (fst item), values_of test_world (snd item) "values")) items))
  = Ok [([0; 0]%Z, array_full [3; 1; 1] 1); ([1; 0]%Z, array_full [3; 1; 3] 2);
        ([2; 2]%Z, array_full [4; 3; 1] 3); ([2; 3]%Z, array_full [4; 3; 1] 4)].
Proof. vm_compute. reflexivity. Qed.

(** * tests/python/blocks.py *)

Definition block_world (components : list c_labels) (shape : list nat) (value : Z) (more : list c_call) : world :=
  let calls := BlockCreate (np_full shape value) (given ["samples"] [[0]; [2]; [4]]%Z) components
    (given ["properties"] [[5]; [3]]%Z) :: more in
  state_at Debug (world_start []) (from_main calls) (length calls).

Definition shown_labels (l : outcome py_labels) : outcome (list string * list (list Z)) :=
  let? l := l in Ok (py_names l, py_rows l).

(* samples, components, properties *)
Definition shown_axes (w : world) (block : block_ptr) (name : string) :=
  (shown_labels (py_samples Debug 0 w block name),
   (let? l := py_components Debug 0 w block name in Ok (map (fun l => (py_names l, py_rows l)) l)),
   shown_labels (py_properties Debug 0 w block name)).

(* tests/python/blocks.py:9-44 -- test_repr and test_block_no_components *)
Example test_block_no_components :
  let w := block_world [] [3; 2] (-1) [] in
  values_of w (BlockAt 0) "values" = array_full [3; 2] (-1)
  /\ shown_axes w (BlockAt 0) "values"
     = (Ok (["samples"], [[0]; [2]; [4]]%Z), Ok [], Ok (["properties"], [[5]; [3]]%Z))
  /\ match w_blocks w with
     | [(0, b)] => block_repr (ob_block b) = Ok (in_lines
         ["TensorBlock"; "    samples: ['samples']"; "    component: []"; "    properties: ['properties']"; "    gradients: no"])
     | _ => False
     end.
Proof. vm_compute. auto. Qed.

Definition two_components : list c_labels :=
  [given ["component_1"] [[-1]; [0]; [1]]%Z; given ["component_2"] [[-4]; [1]]%Z].
Definition shown_two_components := [(["component_1"], [[-1]; [0]; [1]]%Z); (["component_2"], [[-4]; [1]]%Z)].

(* tests/python/blocks.py:46-82 -- test_block_with_components *)
Example test_block_with_components :
  let w := block_world two_components [3; 3; 2; 2] (-1) [] in
  values_of w (BlockAt 0) "values" = array_full [3; 3; 2; 2] (-1)
  /\ shown_axes w (BlockAt 0) "values"
     = (Ok (["samples"], [[0]; [2]; [4]]%Z), Ok shown_two_components, Ok (["properties"], [[5]; [3]]%Z)).
Proof. vm_compute. auto. Qed.

(* tests/python/blocks.py:84-119 -- test_gradients *)
Example test_gradients :
  let w := block_world two_components [3; 3; 2; 2] (-1)
    [BlockAddGradient (BlockAt 0) (Some "parameter") (np_full [2; 3; 2; 2] 11) (given ["sample"; "parameter"] [[0; -2]; [2; 3]]%Z)
       two_components] in
  snd (fst (run_call Debug 0 w (BlockGradientsList (BlockAt 0) out out))) = VNames (Some ["parameter"]) 1
  /\ shown_axes w (BlockAt 0) "parameter"
     = (Ok (["sample"; "parameter"], [[0; -2]; [2; 3]]%Z), Ok shown_two_components, Ok (["properties"], [[5]; [3]]%Z))
  /\ values_of w (BlockAt 0) "parameter" = array_full [2; 3; 2; 2] 11
  /\ values_of w (BlockAt 0) "something else" = None.
Proof. vm_compute. auto 10. Qed.

(* tests/python/blocks.py:121-144 -- test_copy: the copy is still there when the block
   is not, and has another array *)
Example test_copy :
  let w := block_world [given ["component_1"] [[-1]; [0]; [1]]%Z] [3; 3; 2] 2 [BlockCopy (BlockAt 0); BlockFree (BlockAt 0)] in
  map fst (w_blocks w) = [1]
  /\ w_destroyed w = [0]
  /\ values_of w (BlockAt 1) "values" = array_full [3; 3; 2] 2
  /\ fst (fst (shown_axes w (BlockAt 1) "values")) = Ok (["samples"], [[0]; [2]; [4]]%Z).
Proof. vm_compute. auto. Qed.

(** * tests/python/data.py, with numpy *)

Definition rules : np_rules := mk_rules (fun _ _ z => z) (fun shape strides shape' =>
  let distances := map (np_distance strides) (all_indices shape) in
  let strides' := map (fun k => nth k distances 0%Z) (row_major_strides shape') in
  if list_eq_dec Z.eq_dec (map (np_distance strides') (all_indices shape')) distances then Some strides' else None).

Definition zeros (m : memory) (shape : list nat) := np_new m shape Float64 (repeat 0%Z (prod shape)).

(* tests/python/data.py:32-51 -- test_shape and test_swap_axes *)
Example test_numpy_shape :
  (let '(m, a) := zeros [] [2; 3; 4] in
   np_shape a = [2; 3; 4] /\ option_map (fun r => np_shape (snd r)) (np_reshape rules m a [2; 3; 2; 2]) = Some [2; 3; 2; 2])
  /\ option_map np_shape (np_swap_axes (mk_np 0 0 [2; 3; 18; 23] [1242; 414; 23; 1]%Z Float64) 1 3) = Some [2; 23; 18; 3].
Proof. vm_compute. auto. Qed.

(* tests/python/data.py:59-73 -- test_copy *)
Example test_numpy_copy :
  let elements := (repeat 0 12 ++ repeat 3 8 ++ repeat 5 4)%Z in
  let '(m, a) := np_new [] [2; 3; 4] Float64 elements in
  let '(m, copy) := np_copy m a in
  np_buffer copy <> np_buffer a /\ np_elements m copy = np_elements m a /\ np_elements m copy = elements /\ np_shape copy = [2; 3; 4].
Proof. vm_compute. repeat split. discriminate. Qed.

(* tests/python/data.py:75-113 -- test_move_samples_from *)
Example test_numpy_move_samples_from :
  let '(m, a) := np_new [] [2; 3; 8] Float64 (repeat 4%Z 48) in
  let '(m, other) := np_new m [1; 3; 4] Float64 (repeat 2%Z 12) in
  option_map (fun m => np_elements m a) (np_move_samples rules m other a [mk_mapping 0 1] 3 7)
  = Some (repeat 4 24 ++ [4; 4; 4; 2; 2; 2; 2; 4; 4; 4; 4; 2; 2; 2; 2; 4; 4; 4; 4; 2; 2; 2; 2; 4])%Z.
Proof. vm_compute. reflexivity. Qed.

(** * tests/python/serialization.py *)

(* tests/python/serialization.py:49-75 -- check_file, for a file written by the
   library: there are 29 arrays, and what is read from them is in the tensor map *)
Definition file_of {A} (read : bytes -> outcome A) (a : archive) (path : string) : outcome A :=
  let? content := by_name a (path +++ ".npy") in read content.
Definition data_in (a : archive) (path : string) : outcome (list nat * list Z) :=
  let? data := file_of (read_data Debug) a path in Ok (nd_shape data, nd_data data).
Definition labels_in (a : archive) (path : string) : outcome (list string * outcome (list (list Z))) :=
  let? l := file_of (read_labels Debug) a path in Ok (labels_names l, labels_iter l).

Definition in_file (a : archive) (prefix : string) (b : BasicBlock) : Prop :=
  data_in a (prefix +++ "/data") = Ok (nd_shape (a_nd (bb_data b)), nd_data (a_nd (bb_data b)))
  /\ labels_in a (prefix +++ "/samples") = Ok (labels_names (bb_samples b), labels_iter (bb_samples b))
  /\ [labels_in a (prefix +++ "/components/0")] = map (fun l => Ok (labels_names l, labels_iter l)) (bb_components b).

Fixpoint all_in_file (a : archive) (i : nat) (blocks : list TensorBlock) : Prop :=
  match blocks with
  | [] => True
  | b :: blocks' =>
      let block := "blocks/" +++ string_of_nat i in
      in_file a (block +++ "/values") (tb_values b)
      /\ labels_in a (block +++ "/values/properties")
         = Ok (labels_names (bb_properties (tb_values b)), labels_iter (bb_properties (tb_values b)))
      /\ fold_right and True (map (fun g => in_file a (block +++ "/gradients/" +++ fst g) (snd g)) (tb_gradients b))
      /\ all_in_file a (S i) blocks'
  end.

Definition check_file (saved : outcome archive) : Prop :=
  match saved with
  | Ok a =>
      length a = 29
      /\ labels_in a "keys" = Ok (["key_1"; "key_2"], Ok [[0; 0]; [1; 0]; [2; 2]; [2; 3]]%Z)
      /\ all_in_file a 0 (tm_blocks the_tensor)
  | _ => False
  end.

(* tests/python/serialization.py:77-90 -- use_numpy=False, then use_numpy=True with
   the header which numpy writes *)
Example test_save :
  check_file (save LittleEndian the_tensor)
  /\ check_file (py_save (mk_numpy LittleEndian numpy_origin 2 numpy_write numpy_read) the_tensor).
Proof. vm_compute. repeat split. Qed.
