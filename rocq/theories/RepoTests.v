(* The tests of the repository, as computations of the model: src/*.rs and
   tests/python/*.py. Numbers such as 1.0 are written 1: the model only moves
   them. Each example computes what the test computes, and compares it to what the
   test expects. Some examples also fix labels which the test does not look at
   (names of samples, components and properties of merged blocks). *)
From Verif Require Import Base Labels Array Block Tensor Npy Io Origin CApi.
Local Open Scope string_scope.
Local Open Scope list_scope.
Local Open Scope nat_scope.

(* result.unwrap_err().to_string() *)
Definition unwrap_err {A} (o : outcome A) : option string :=
  match o with
  | Err e => Some (error_text e)
  | _ => None
  end.

(* names, then entries *)
Definition content (o : outcome Labels) : option (list string * outcome (list (list Z))) :=
  match o with
  | Ok l => Some (labels_names l, labels_iter l)
  | _ => None
  end.
Definition content_of (l : Labels) : option (list string * outcome (list (list Z))) := content (Ok l).
Definition as_expected (names : list string) (entries : list (list Z)) : option (list string * outcome (list (list Z))) :=
  Some (names, Ok entries).

(* ArrayD::from_elem, ArrayD::from_shape_vec, EmptyArray::new *)
Definition full (shape : list nat) (value : Z) : eqs_array := rust_ndarray (mk_nd shape (repeat value (prod shape))).
Definition from_shape_vec (shape : list nat) (values : list Z) : eqs_array := rust_ndarray (mk_nd shape values).

(* as_array, for an ndarray: shape and elements *)
Definition as_array (a : eqs_array) : option (list nat * list Z) :=
  match a_kind a with
  | RustNdarray => Some (nd_shape (a_nd a), nd_data (a_nd a))
  | _ => None
  end.
Definition array_full (shape : list nat) (value : Z) := Some (shape, repeat value (prod shape)).

(** * src/labels.rs *)

(* src/labels.rs:420-435 -- labels *)
Example test_labels :
  let l := labels_build ["foo"; "bar"] [[2; 3]; [1; 243]; [-4; -2413]]%Z in
  (let? l := l in Ok (labels_names l, labels_size l)) = Ok (["foo"; "bar"], 2)
  /\ (let? l := l in labels_count l) = Ok 3
  /\ (let? l := l in labels_index l 0) = Ok [2; 3]%Z
  /\ (let? l := l in labels_index l 1) = Ok [1; 243]%Z
  /\ (let? l := l in labels_index l 2) = Ok [-4; -2413]%Z.
Proof. vm_compute. auto. Qed.

(* src/labels.rs:437-452 -- labels_iter *)
Example test_labels_iter :
  (let? l := labels_build ["foo"; "bar"] [[2; 3]; [1; 2]; [4; 3]]%Z in labels_iter l) = Ok [[2; 3]; [1; 2]; [4; 3]]%Z.
Proof. vm_compute. reflexivity. Qed.

(* src/labels.rs:454-473 -- invalid_label_name, duplicated_label_name,
   duplicated_label_value *)
Example test_labels_panics :
  builder_new ["foo"; "33 bar"] = Panic "all labels names must be valid identifiers, '33 bar' is not"
  /\ builder_new ["foo"; "bar"; "foo"] = Panic "invalid labels: the same name is used multiple times"
  /\ labels_build ["foo"; "bar"] [[0; 1]; [0; 1]]%Z
     = Panic "can not have the same label value multiple time: [0, 1] is already present at position 0".
Proof. vm_compute. auto. Qed.

(* src/labels.rs:475-481 -- single_label *)
Example test_single_label : content labels_single = as_expected ["_"] [[0%Z]].
Proof. vm_compute. reflexivity. Qed.

(** * src/data.rs *)

(* src/data.rs:802-809 -- data_origin *)
Example test_data_origin :
  get_data_origin registry_start 0 = Ok "unregistered origin"
  /\ (let (r, origin) := register_data_origin registry_start "test origin" in get_data_origin r origin) = Ok "test origin".
Proof. vm_compute. auto. Qed.

Example test_unknown_data_origin : get_data_origin registry_start (Z.to_nat 10000) = Ok "unregistered origin".
Proof. vm_compute. reflexivity. Qed.

(* src/data.rs:828-839 -- shape *)
Example test_shape :
  let data := full [3; 4; 2] 1 in
  let reshaped := array_reshape data [12; 2] in
  let swapped := array_swap_axes (fst reshaped) 0 1 in
  array_shape data = Ok [3; 4; 2] /\ snd reshaped = Ok tt
  /\ array_shape (fst reshaped) = Ok [12; 2] /\ as_array (fst reshaped) = array_full [12; 2] 1
  /\ snd swapped = Ok tt /\ array_shape (fst swapped) = Ok [2; 12].
Proof. vm_compute. auto 10. Qed.

(* src/data.rs:841-852 -- create *)
Example test_create :
  let data := full [4; 2] 1 in
  let other := array_create data [5; 3; 7; 12] in
  array_origin data = Ok RustNdarray /\ as_array data = array_full [4; 2] 1
  /\ (let? other := other in array_shape other) = Ok [5; 3; 7; 12] /\ (let? other := other in array_origin other) = Ok RustNdarray
  /\ (let? other := other in Ok (as_array other)) = Ok (array_full [5; 3; 7; 12] 0).
Proof. vm_compute. auto 10. Qed.

(* src/data.rs:854-874 -- move_samples_from *)
Example test_move_samples_from :
  let data := full [3; 2; 2; 4] 1 in
  let other := array_create data [1; 2; 2; 8] in
  (let? other := other in Ok (as_array other)) = Ok (array_full [1; 2; 2; 8] 0)
  /\ (let? other := other in let? other := array_move_samples_from other data [mk_mapping 1 0] 2 6 in Ok (as_array other))
     = Ok (Some ([1; 2; 2; 8], [0; 0; 1; 1; 1; 1; 0; 0;
                                0; 0; 1; 1; 1; 1; 0; 0;
                                0; 0; 1; 1; 1; 1; 0; 0;
                                0; 0; 1; 1; 1; 1; 0; 0]%Z)).
Proof. vm_compute. auto. Qed.

(** * src/blocks.rs *)

(* src/blocks.rs:386-392 -- example_labels *)
Definition default_labels : Labels := mk_labels [] [] [].
Definition built (names : list string) (entries : list (list Z)) : Labels :=
  match labels_build names entries with Ok l => l | _ => default_labels end.
Definition count_labels (name : string) (count : nat) : Labels := built [name] (map (fun i => [Z.of_nat i]) (seq 0 count)).

Definition is_ok {A} (o : outcome A) : bool := match o with Ok _ => true | _ => false end.
Definition new_empty (shape : list nat) (samples : Labels) (components : list Labels) (properties : Labels) : outcome TensorBlock :=
  tensor_block_new (rust_empty_array shape) samples components properties.

(* src/blocks.rs:394-425 -- no_components *)
Example test_no_components :
  let samples := count_labels "samples" 4 in
  let properties := count_labels "properties" 7 in
  is_ok (new_empty [4; 7] samples [] properties) = true
  /\ unwrap_err (new_empty [3; 7] samples [] properties)
     = Some "invalid parameter: data and labels don't match: the array shape along axis 0 is 3 but we have 4 sample labels"
  /\ unwrap_err (new_empty [4; 9] samples [] properties)
     = Some "invalid parameter: data and labels don't match: the array shape along axis 1 is 9 but we have 7 properties labels"
  /\ unwrap_err (new_empty [4; 1; 7] samples [] properties)
     = Some "invalid parameter: data and labels don't match: the array has 3 dimensions, but we have 2 separate labels".
Proof. vm_compute. auto. Qed.

(* src/blocks.rs:427-481 -- multiple_components *)
Example test_multiple_components :
  let component_1 := count_labels "component_1" 4 in
  let component_2 := count_labels "component_2" 3 in
  let samples := count_labels "samples" 3 in
  let properties := count_labels "properties" 2 in
  is_ok (new_empty [3; 4; 2] samples [component_1] properties) = true
  /\ is_ok (new_empty [3; 4; 3; 2] samples [component_1; component_2] properties) = true
  /\ unwrap_err (new_empty [3; 4; 2] samples [component_1; component_2] properties)
     = Some "invalid parameter: data and labels don't match: the array has 3 dimensions, but we have 4 separate labels"
  /\ unwrap_err (new_empty [3; 4; 4; 2] samples [component_1; component_2] properties)
     = Some "invalid parameter: data and labels don't match: the array shape along axis 2 is 4 but we have 3 entries for the corresponding component"
  /\ unwrap_err (new_empty [3; 4; 4; 2] samples [component_1; component_1] properties)
     = Some "invalid parameter: data and labels don't match: some of the component names appear more than once in component labels"
  /\ unwrap_err (new_empty [3; 1; 2] samples [built ["component_1"; "component_2"] [[0; 1]]%Z] properties)
     = Some "invalid parameter: component labels must have a single variable, got 2: [component_1, component_2] for component 0".
Proof. vm_compute. auto 10. Qed.

(* block.add_gradient(...).unwrap() *)
Definition add (b : outcome TensorBlock) (parameter : string) (data : eqs_array) (samples : Labels) (components : list Labels)
  : outcome TensorBlock :=
  let? b := b in
  let (b, result) := tensor_block_add_gradient b parameter data samples components in
  let? _ := result in Ok b.

Definition gradient_of (b : outcome TensorBlock) (parameter : string) : option BasicBlock :=
  match b with
  | Ok b => tensor_block_gradient b parameter
  | _ => None
  end.

(* src/blocks.rs:486-523 -- gradients::values_without_components *)
Example test_values_without_components :
  let block := new_empty [4; 7] (count_labels "samples" 4) [] (count_labels "properties" 7) in
  let with_foo := add block "foo" (rust_empty_array [3; 7]) (built ["sample"; "foo"] [[0; 0]; [1; 1]; [3; -2]]%Z) [] in
  let with_both := add with_foo "component" (rust_empty_array [3; 5; 7]) (count_labels "sample" 3) [count_labels "component" 5] in
  (let? b := block in Ok (tb_gradients b)) = Ok []
  /\ (let? b := with_both in Ok (map fst (tb_gradients b))) = Ok ["foo"; "component"]
  /\ option_map (fun g => (labels_names (bb_samples g), map labels_names (bb_components g), labels_names (bb_properties g)))
       (gradient_of with_both "foo") = Some (["sample"; "foo"], [], ["properties"])
  /\ option_map (fun g => (labels_names (bb_samples g), map labels_names (bb_components g), labels_names (bb_properties g)))
       (gradient_of with_both "component") = Some (["sample"], [["component"]], ["properties"])
  /\ gradient_of with_both "baz" = None.
Proof. vm_compute. auto 10. Qed.

(* src/blocks.rs:525-552 -- gradients::values_with_components *)
Example test_values_with_components :
  let component := count_labels "component" 5 in
  let component_2 := count_labels "component_2" 3 in
  let gradient_samples := count_labels "sample" 3 in
  let block := new_empty [4; 5; 7] (count_labels "samples" 4) [component] (count_labels "properties" 7) in
  let basic := add block "basic" (rust_empty_array [3; 5; 7]) gradient_samples [component] in
  let components := add basic "components" (rust_empty_array [3; 3; 5; 7]) gradient_samples [component_2; component] in
  is_ok basic = true /\ is_ok components = true
  /\ unwrap_err (add components "wrong" (rust_empty_array [3; 3; 5; 7]) gradient_samples [component; component_2])
     = Some "invalid parameter: gradients and values components mismatch for values component 0 (the corresponding names are [component])".
Proof. vm_compute. auto. Qed.

Definition components_moved (b : outcome TensorBlock) (variables : list string) : outcome TensorBlock :=
  let? b := b in
  let (b, result) := tensor_block_components_to_properties b variables in
  let? _ := result in Ok b.

(* everything in values or gradients *)
Definition all_of_basic (b : BasicBlock) :=
  (content_of (bb_samples b), map content_of (bb_components b), content_of (bb_properties b), as_array (bb_data b)).

(* src/blocks.rs:560-611 -- components_to_properties::one_component *)
Example test_one_component :
  let block := tensor_block_new (full [3; 2; 3] 1) (count_labels "samples" 3) [count_labels "components" 2] (count_labels "properties" 3) in
  let block := add block "parameter" (full [2; 2; 3] 11) (built ["sample"; "parameter"] [[0; 2]; [1; 2]]%Z) [count_labels "components" 2] in
  let block := components_moved block ["components"] in
  let properties := as_expected ["components"; "properties"] [[0; 0]; [0; 1]; [0; 2]; [1; 0]; [1; 1]; [1; 2]]%Z in
  (let? b := block in Ok (all_of_basic (tb_values b)))
    = Ok (as_expected ["samples"] [[0]; [1]; [2]]%Z, [], properties, array_full [3; 6] 1)
  /\ option_map all_of_basic (gradient_of block "parameter")
     = Some (as_expected ["sample"; "parameter"] [[0; 2]; [1; 2]]%Z, [], properties, array_full [2; 6] 11).
Proof. vm_compute. auto. Qed.

(* src/blocks.rs:613-682 -- components_to_properties::multiple_components *)
Example test_components_to_properties_multiple_components :
  let components := [count_labels "component_1" 2; count_labels "component_2" 3] in
  let data := from_shape_vec [2; 2; 3; 2]
    [1; 1; 2; 2; 3; 3; 4; 4; 5; 5; 6; 6; -1; 1; -2; 2; -3; 3; -4; 4; -5; 5; -6; 6]%Z in
  let block := tensor_block_new data (count_labels "samples" 2) components (count_labels "properties" 2) in
  let block := add block "parameter" (full [3; 2; 3; 2] 11) (built ["sample"; "parameter"] [[0; 2]; [0; 3]; [1; 2]]%Z) components in
  let block := components_moved block ["component_1"] in
  let component_2 := [as_expected ["component_2"] [[0]; [1]; [2]]%Z] in
  let properties := as_expected ["component_1"; "properties"] [[0; 0]; [0; 1]; [1; 0]; [1; 1]]%Z in
  (let? b := block in Ok (all_of_basic (tb_values b)))
    = Ok (as_expected ["samples"] [[0]; [1]]%Z, component_2, properties,
          Some ([2; 3; 4], [1; 1; 4; 4; 2; 2; 5; 5; 3; 3; 6; 6; -1; 1; -4; 4; -2; 2; -5; 5; -3; 3; -6; 6]%Z))
  /\ option_map all_of_basic (gradient_of block "parameter")
     = Some (as_expected ["sample"; "parameter"] [[0; 2]; [0; 3]; [1; 2]]%Z, component_2, properties, array_full [3; 3; 4] 11).
Proof. vm_compute. auto. Qed.

(** * src/tensor/mod.rs *)

Definition map_new (keys : Labels) (blocks : list (outcome TensorBlock)) : outcome TensorMap :=
  let? blocks := list_rect (fun _ => outcome (list TensorBlock)) (Ok [])
    (fun b _ rest => let? b := b in let? rest := rest in Ok (b :: rest)) blocks in
  tensor_map_new keys blocks.

(* src/tensor/mod.rs:279-404 -- blocks_validation *)
Example test_blocks_validation :
  let one := [[0]]%Z in
  let two := [[0]; [1]]%Z in
  let three := [[0]; [1]; [2]]%Z in
  let keys := built ["keys"] two in
  let properties := built ["properties"] one in
  let block_1 := new_empty [1; 1; 1] (built ["samples"] one) [built ["components"] one] properties in
  let block_1' := new_empty [1; 1] (built ["samples"] one) [] properties in
  is_ok (map_new keys [block_1; new_empty [2; 3; 1] (built ["samples"] two) [built ["components"] three] properties]) = true
  /\ unwrap_err (map_new keys [block_1'; new_empty [2; 1] (built ["something_else"] two) [] properties])
     = Some "invalid parameter: all blocks must have the same sample label names, got [something_else] and [samples]"
  /\ unwrap_err (map_new keys [block_1; new_empty [2; 1] (built ["samples"] two) [] properties])
     = Some "invalid parameter: all blocks must contains the same set of components, the current block has 0 components while the first block has 1"
  /\ unwrap_err (map_new keys [block_1; new_empty [2; 3; 1] (built ["samples"] two) [built ["something_else"] three] properties])
     = Some "invalid parameter: all blocks must have the same component label names, got [something_else] and [components]"
  /\ unwrap_err (map_new keys [block_1'; new_empty [2; 1] (built ["samples"] two) [] (built ["something_else"] one)])
     = Some "invalid parameter: all blocks must have the same property label names, got [something_else] and [properties]".
Proof. vm_compute. auto 10. Qed.

(* src/tensor/mod.rs:406-463 -- blocks_matching *)
Example test_blocks_matching :
  let block := new_empty [1; 1] (built ["samples"] [[0]]%Z) [] (built ["properties"] [[0]]%Z) in
  let tensor := map_new (built ["key_1"; "key_2"] [[0; 1]; [0; 2]; [1; 1]; [1; 2]; [3; 0]; [4; 3]]%Z) (repeat block 6) in
  let matching names entries := let? t := tensor in blocks_matching t (built names entries) in
  matching ["key_1"; "key_2"] [[1; 1]]%Z = Ok [2]
  /\ matching ["key_1"] [[1]]%Z = Ok [2; 3]
  /\ unwrap_err (matching ["key_1"] []) = Some "invalid parameter: block selection labels must contain a single row, got 0"
  /\ unwrap_err (matching ["key_1"; "key_2"] [[3; 4]; [1; 2]]%Z)
     = Some "invalid parameter: block selection labels must contain a single row, got 2"
  /\ unwrap_err (matching ["key_3"] [[1]]%Z) = Some "invalid parameter: 'key_3' is not part of the keys for this tensor".
Proof. vm_compute. auto 10. Qed.

(** * src/tensor/keys_to_samples.rs *)

(* src/tensor/utils.rs:191-222 -- example_block *)
Definition example_block (samples components properties gradient_samples : list (list Z)) (values gradient_values : Z) : outcome TensorBlock :=
  let block := tensor_block_new (full [length samples; length components; length properties] values) (built ["samples"] samples)
    [built ["components"] components] (built ["properties"] properties) in
  add block "parameter" (full [length gradient_samples; length components; length properties] gradient_values)
    (built ["sample"; "parameter"] gradient_samples) [built ["components"] components].

(* src/tensor/utils.rs:224-271 -- example_tensor *)
Definition example_tensor : outcome TensorMap :=
  map_new (built ["key_1"; "key_2"] [[0; 0]; [1; 0]; [2; 2]; [2; 3]]%Z)
    [example_block [[0]; [2]; [4]] [[0]] [[0]] [[0; -2]; [2; 3]] 1 11;
     example_block [[0]; [1]; [3]] [[0]] [[3]; [4]; [5]] [[0; -2]; [0; 3]; [2; -2]] 2 12;
     example_block [[0]; [3]; [6]; [8]] [[0]; [1]; [2]] [[0]] [[1; -2]] 3 13;
     example_block [[0]; [1]; [2]; [5]] [[0]; [1]; [2]] [[0]] [[0; 1]; [3; 3]] 4 14]%Z.

(* debug assertions are checked in tests *)
Definition samples_moved (names : list string) (entries : list (list Z)) (sort : bool) : outcome TensorMap :=
  let? t := example_tensor in
  let (t, result) := keys_to_samples Debug t (built names entries) sort in
  let? _ := result in Ok t.

Definition block_values (t : outcome TensorMap) (i : nat) :=
  match t with
  | Ok t => option_map (fun b => all_of_basic (tb_values b)) (nth_error (tm_blocks t) i)
  | _ => None
  end.
Definition block_gradient (t : outcome TensorMap) (i : nat) (parameter : string) :=
  match t with
  | Ok t =>
      match nth_error (tm_blocks t) i with
      | Some b => option_map all_of_basic (tensor_block_gradient b parameter)
      | None => None
      end
  | _ => None
  end.
Definition map_keys (t : outcome TensorMap) := let? t := t in Ok (content_of (tm_keys t), length (tm_blocks t)).

Definition three_components := [as_expected ["components"] [[0]; [1]; [2]]%Z].
Definition one_component := [as_expected ["components"] [[0]]%Z].

(* src/tensor/keys_to_samples.rs:218-296 -- sorted_samples *)
Example test_keys_to_samples_sorted :
  let t := samples_moved ["key_2"] [] true in
  map_keys t = Ok (as_expected ["key_1"] [[0]; [1]; [2]]%Z, 3)
  /\ block_values t 0 = Some (as_expected ["samples"; "key_2"] [[0; 0]; [2; 0]; [4; 0]]%Z, one_component,
                              as_expected ["properties"] [[0]]%Z, array_full [3; 1; 1] 1)
  /\ block_values t 1 = Some (as_expected ["samples"; "key_2"] [[0; 0]; [1; 0]; [3; 0]]%Z, one_component,
                              as_expected ["properties"] [[3]; [4]; [5]]%Z, array_full [3; 1; 3] 2)
  /\ block_values t 2 = Some (as_expected ["samples"; "key_2"] [[0; 2]; [0; 3]; [1; 3]; [2; 3]; [3; 2]; [5; 3]; [6; 2]; [8; 2]]%Z,
                              three_components, as_expected ["properties"] [[0]]%Z,
                              Some ([8; 3; 1], [3; 3; 3; 4; 4; 4; 4; 4; 4; 4; 4; 4; 3; 3; 3; 4; 4; 4; 3; 3; 3; 3; 3; 3]%Z))
  /\ block_gradient t 2 "parameter"
     = Some (as_expected ["sample"; "parameter"] [[1; 1]; [4; -2]; [5; 3]]%Z, three_components, as_expected ["properties"] [[0]]%Z,
             Some ([3; 3; 1], [14; 14; 14; 13; 13; 13; 14; 14; 14]%Z)).
Proof. vm_compute. auto 10. Qed.

Definition first_of {A B C D} (x : option (A * B * C * D)) : option A := option_map (fun x => fst (fst (fst x))) x.

(* src/tensor/keys_to_samples.rs:298-315 -- unsorted_samples *)
Example test_keys_to_samples_unsorted :
  first_of (block_values (samples_moved ["key_2"] [] false) 2)
  = Some (as_expected ["samples"; "key_2"] [[0; 2]; [3; 2]; [6; 2]; [8; 2]; [0; 3]; [1; 3]; [2; 3]; [5; 3]]%Z).
Proof. vm_compute. reflexivity. Qed.

(* src/tensor/keys_to_samples.rs:317-330 -- user_provided_entries *)
Example test_keys_to_samples_user_provided_entries :
  unwrap_err (samples_moved ["key_2"] [[3]]%Z false)
  = Some "invalid parameter: user provided values for the keys to move is not yet implemented, `keys_to_move` should not contain any entry when calling keys_to_samples".
Proof. vm_compute. reflexivity. Qed.

(** * src/tensor/keys_to_properties.rs *)

Definition properties_moved (t : outcome TensorMap) (names : list string) (entries : list (list Z)) (sort : bool) : outcome TensorMap :=
  let? t := t in
  let (t, result) := keys_to_properties Debug t (built names entries) sort in
  let? _ := result in Ok t.

(* src/tensor/keys_to_properties.rs:302-369 -- sorted_samples *)
Example test_keys_to_properties_sorted :
  let t := properties_moved example_tensor ["key_1"] [] true in
  map_keys t = Ok (as_expected ["key_2"] [[0]; [2]; [3]]%Z, 3)
  /\ block_values t 0
     = Some (as_expected ["samples"] [[0]; [1]; [2]; [3]; [4]]%Z, one_component,
             as_expected ["key_1"; "properties"] [[0; 0]; [1; 3]; [1; 4]; [1; 5]]%Z,
             Some ([5; 1; 4], [1; 2; 2; 2;
                               0; 2; 2; 2;
                               1; 0; 0; 0;
                               0; 2; 2; 2;
                               1; 0; 0; 0]%Z))
  /\ block_gradient t 0 "parameter"
     = Some (as_expected ["sample"; "parameter"] [[0; -2]; [0; 3]; [3; -2]; [4; 3]]%Z, one_component,
             as_expected ["key_1"; "properties"] [[0; 0]; [1; 3]; [1; 4]; [1; 5]]%Z,
             Some ([4; 1; 4], [11; 12; 12; 12;
                               0; 12; 12; 12;
                               0; 12; 12; 12;
                               11; 0; 0; 0]%Z))
  /\ block_values t 1 = Some (as_expected ["samples"] [[0]; [3]; [6]; [8]]%Z, three_components,
                              as_expected ["key_1"; "properties"] [[2; 0]]%Z, array_full [4; 3; 1] 3)
  /\ block_values t 2 = Some (as_expected ["samples"] [[0]; [1]; [2]; [5]]%Z, three_components,
                              as_expected ["key_1"; "properties"] [[2; 0]]%Z, array_full [4; 3; 1] 4).
Proof. vm_compute. auto 10. Qed.

(* src/tensor/keys_to_properties.rs:371-385 -- unsorted_samples *)
Example test_keys_to_properties_unsorted :
  let t := properties_moved example_tensor ["key_1"] [] false in
  (let? x := map_keys t in Ok (snd x)) = Ok 3
  /\ first_of (block_values t 0) = Some (as_expected ["samples"] [[0]; [2]; [4]; [1]; [3]]%Z).
Proof. vm_compute. auto. Qed.

(* src/tensor/keys_to_properties.rs:387-400 -- user_provided_entries_different_properties *)
Example test_user_provided_entries_different_properties :
  unwrap_err (properties_moved example_tensor ["key_1"] [[0]]%Z false)
  = Some "invalid parameter: can not provide values for the keys to move to properties if the blocks have different property labels".
Proof. vm_compute. reflexivity. Qed.

(* src/tensor/keys_to_properties.rs:402-439 -- example_tensor_same_properties_in_all_blocks *)
Definition same_properties_tensor : outcome TensorMap :=
  map_new (built ["key_1"; "key_2"] [[0; 0]; [1; 0]; [0; 1]]%Z)
    [example_block [[0]; [2]; [4]] [[0]] [[0]; [1]; [2]; [3]] [[0; 1]; [0; 2]; [2; 0]] 1 11;
     example_block [[0]; [1]; [3]] [[0]] [[0]; [1]; [2]; [3]] [] 2 12;
     example_block [[0]; [1]; [4]] [[0]] [[0]; [1]; [2]; [3]] [[0; 1]; [0; 2]; [2; 0]] 3 13]%Z.

(* key_1 and four properties *)
Definition four_properties (keys : list Z) := as_expected ["key_1"; "properties"] (flat_map (fun k => [[k; 0]; [k; 1]; [k; 2]; [k; 3]]%Z) keys).

(* src/tensor/keys_to_properties.rs:440-605 -- user_provided_entries *)
Example test_keys_to_properties_user_provided_entries :
  let samples := as_expected ["samples"] [[0]; [1]; [2]; [3]; [4]]%Z in
  let samples_1 := as_expected ["samples"] [[0]; [1]; [4]]%Z in
  let t := properties_moved same_properties_tensor ["key_1"] [[0]; [1]]%Z true in
  let subset := properties_moved same_properties_tensor ["key_1"] [[0]]%Z true in
  let more := properties_moved same_properties_tensor ["key_1"] [[0]; [1]; [2]]%Z true in
  block_values t 0 = Some (samples, one_component, four_properties [0; 1]%Z,
    Some ([5; 1; 8], [1; 1; 1; 1; 2; 2; 2; 2;
                      0; 0; 0; 0; 2; 2; 2; 2;
                      1; 1; 1; 1; 0; 0; 0; 0;
                      0; 0; 0; 0; 2; 2; 2; 2;
                      1; 1; 1; 1; 0; 0; 0; 0]%Z))
  /\ block_values t 1 = Some (samples_1, one_component, four_properties [0; 1]%Z,
    Some ([3; 1; 8], [3; 3; 3; 3; 0; 0; 0; 0;
                      3; 3; 3; 3; 0; 0; 0; 0;
                      3; 3; 3; 3; 0; 0; 0; 0]%Z))
  /\ block_values subset 0 = Some (samples, one_component, four_properties [0]%Z,
    Some ([5; 1; 4], [1; 1; 1; 1;
                      0; 0; 0; 0;
                      1; 1; 1; 1;
                      0; 0; 0; 0;
                      1; 1; 1; 1]%Z))
  /\ block_values subset 1 = Some (samples_1, one_component, four_properties [0]%Z, array_full [3; 1; 4] 3)
  /\ block_values more 0 = Some (samples, one_component, four_properties [0; 1; 2]%Z,
    Some ([5; 1; 12], [1; 1; 1; 1; 2; 2; 2; 2; 0; 0; 0; 0;
                       0; 0; 0; 0; 2; 2; 2; 2; 0; 0; 0; 0;
                       1; 1; 1; 1; 0; 0; 0; 0; 0; 0; 0; 0;
                       0; 0; 0; 0; 2; 2; 2; 2; 0; 0; 0; 0;
                       1; 1; 1; 1; 0; 0; 0; 0; 0; 0; 0; 0]%Z))
  /\ block_values more 1 = Some (samples_1, one_component, four_properties [0; 1; 2]%Z,
    Some ([3; 1; 12], [3; 3; 3; 3; 0; 0; 0; 0; 0; 0; 0; 0;
                       3; 3; 3; 3; 0; 0; 0; 0; 0; 0; 0; 0;
                       3; 3; 3; 3; 0; 0; 0; 0; 0; 0; 0; 0]%Z)).
Proof. vm_compute. auto 10. Qed.
