(* Properties C101 to C106: entries of labels in Python *)
From Coq Require Import Permutation Sorting.Sorted.
From Verif Require Import Base Labels Array Block Tensor CApi Spec SpecTensor SpecApi PyIo PyLabels SpecPyLabels PyEntries SpecPyEntries
  PyLabelsFacts PySelectFacts PyEntriesFacts Examples ExamplesApi ExamplesPyLabels ExamplesPyEntries.
Local Open Scope string_scope.
Local Open Scope list_scope.
Local Open Scope nat_scope.

(* C101: the named tuples are the entries, in order, and their attributes have the
   values of the entries. The full statement: for all names of variables. This is
   proved here for all names but as_dict. *)
Theorem C101_named_tuples_partial :
  forall unicode l tuples,
    as_namedtuples unicode l = Ok tuples ->
    length tuples = length (py_rows l)
    /\ forall i row, nth_error (py_rows l) i = Some row ->
         exists tuple, nth_error tuples i = Some tuple /\ tuple = combine (py_names l) row
           /\ forall name value, In (name, value) (combine (py_names l) row) -> name <> "as_dict" ->
                py_getattr tuple name = Some (AttributeValue value).
Proof. exact tuples_right. Qed.
Print Assumptions C101_named_tuples_partial.

(* C101. The full statement: as_namedtuples gives the entries of all labels of the
   library. This is proved here for the names which can be fields, there is an
   exception for all other ones. *)
Theorem C101_labels_of_the_library_partial :
  forall unicode labels c l,
    axis_labels labels -> labels_to_c labels = Ok c -> from_eqs_labels c = Ok l ->
    (Forall field_name (labels_names labels) -> as_namedtuples unicode l = Ok (map (combine (labels_names labels)) (rows labels)))
    /\ (forall name, In name (labels_names labels) -> ~ field_name name -> raises (as_namedtuples unicode l)).
Proof. exact tuples_of_library. Qed.
Print Assumptions C101_labels_of_the_library_partial.

Example C101_example :
  axis_labels ex_keys /\ Forall field_name (labels_names ex_keys) /\ ~ field_name "lambda" /\ ~ field_name "_" /\ ~ field_name "a b"
  /\ exists c l, labels_to_c ex_keys = Ok c /\ from_eqs_labels c = Ok l
       /\ as_namedtuples (fun _ => false) l
          = Ok [[("center", 1); ("spin", 0); ("kind", 4)]; [("center", 1); ("spin", 1); ("kind", 4)]; [("center", 8); ("spin", 0); ("kind", 4)]]%Z
       /\ py_getattr [("center", 1); ("spin", 0); ("kind", 4)]%Z "kind" = Some (AttributeValue 4).
Proof.
  split; [exact ex_keys_axis|]. destruct ex_field_names as (H1 & H2 & H3 & H4). do 4 (split; [assumption|]).
  do 2 eexists. split; [vm_compute; reflexivity|]. split; [vm_compute; reflexivity|]. split; vm_compute; reflexivity.
Qed.

(* C101 is false for Labels.single(): there is an exception *)
Theorem C101_single_refuted :
  exists l, labels_new ["_"] 1 [[0]]%Z = Ok l /\ python_labels l /\ forall unicode, raises (as_namedtuples unicode l).
Proof. exact ex_single. Qed.
Print Assumptions C101_single_refuted.

(* C101 is false for variables called as_dict: the attribute is a method *)
Theorem C101_as_dict_refuted :
  exists unicode l tuples tuple name value,
    python_labels l /\ as_namedtuples unicode l = Ok tuples /\ In tuple tuples /\ In (name, value) tuple
    /\ py_getattr tuple name <> Some (AttributeValue value).
Proof. exact ex_as_dict. Qed.
Print Assumptions C101_as_dict_refuted.

(* C102. The full statement: asarray gives the entries of all labels. This is proved
   here for labels with entries, made without [::step] and [["a", "b"]]. *)
Theorem C102_array_of_labels_partial :
  forall l, plain_labels l -> py_rows l <> [] -> py_asarray l = Ok (py_rows l).
Proof. exact asarray_plain. Qed.
Print Assumptions C102_array_of_labels_partial.

(* C102: with all the variables the array is never wrong, and this is exactly when
   there is one *)
Theorem C102_never_wrong :
  forall l, all_fields l ->
    (py_rows l = [] -> raises (py_asarray l))
    /\ (py_asarray l = Ok (py_rows l) \/ raises (py_asarray l))
    /\ (py_rows l <> [] -> length (py_names l) <= 1 \/ length (py_rows l) = 1 \/ pl_stride l = Z.of_nat (length (py_names l)) ->
        py_asarray l = Ok (py_rows l))
    /\ (2 <= length (py_names l) -> 2 <= length (py_rows l) -> pl_stride l <> Z.of_nat (length (py_names l)) -> raises (py_asarray l)).
Proof. exact asarray_never_wrong. Qed.
Print Assumptions C102_never_wrong.

Example C102_example :
  plain_labels ex_py_ab /\ py_asarray ex_py_ab = Ok [[0; 1]; [2; 3]; [4; 5]]%Z
  /\ plain_labels (py_slice ex_py_ab 1 1 2) /\ py_asarray (py_slice ex_py_ab 1 1 2) = Ok [[2; 3]; [4; 5]]%Z
  /\ all_fields ex_py_reversed /\ raises (py_asarray ex_py_reversed)
  /\ all_fields (py_slice ex_py_ab 2 (-2) 1) /\ py_asarray (py_slice ex_py_ab 2 (-2) 1) = Ok [[4; 5]]%Z.
Proof.
  split; [exact ex_py_plain|]. split; [vm_compute; reflexivity|]. split; [apply plain_slice; [exact ex_py_plain|cbn; lia]|].
  split; [vm_compute; reflexivity|]. split; [reflexivity|]. split; [eexists; vm_compute; reflexivity|]. split; [reflexivity|]. vm_compute. reflexivity.
Qed.

(* C102 is false for labels[["b"]]: the array contains other variables *)
Theorem C102_fields_refuted : exists l values, python_labels l /\ py_asarray l = Ok values /\ values <> py_rows l.
Proof. exact ex_array_of_fields. Qed.
Print Assumptions C102_fields_refuted.

(* C102 is false for labels[::2], and labels without entries: there is an exception *)
Theorem C102_steps_refuted : exists l, python_labels l /\ all_fields l /\ py_rows l <> [] /\ raises (py_asarray l).
Proof. exact ex_array_of_steps. Qed.
Print Assumptions C102_steps_refuted.

Theorem C102_no_entries_refuted : exists l, plain_labels l /\ raises (py_asarray l).
Proof. exact ex_array_of_nothing. Qed.
Print Assumptions C102_no_entries_refuted.

(* C103: for key, block in tensor *)
Theorem C103_iteration :
  forall p files calls i thread handle t,
    never_crashed p (world_start files) calls -> ordinary p (world_start files) calls ->
    let s := state_at p (world_start files) calls i in
    tensor_at s handle t ->
    exists items, py_items p thread s handle = Ok items /\ length items = length (tm_blocks (ot_tensor t))
      /\ forall j entry pointer, nth_error items j = Some (entry, pointer) ->
           points_to_block s (ot_tensor t) j pointer
           /\ exists key, nth_error (rows (tm_keys (ot_tensor t))) j = Some key
                /\ entry = combine (labels_names (tm_keys (ot_tensor t))) key.
Proof. exact items_of_tensor. Qed.
Print Assumptions C103_iteration.

(* C103. The full statement: tensor.block(tensor.keys[j]) is the block j. This is
   proved here if no variable of the keys is called self or __return_selection. *)
Theorem C103_block_of_a_key_partial :
  forall p files calls i thread handle t j key,
    never_crashed p (world_start files) calls -> ordinary p (world_start files) calls ->
    let s := state_at p (world_start files) calls i in
    let names := labels_names (tm_keys (ot_tensor t)) in
    let selection := ByKeywords (combine names key) in
    tensor_at s handle t -> nth_error (rows (tm_keys (ot_tensor t))) j = Some key -> Forall (fun z => is_i32 z = true) key ->
    ~ In "self" names -> ~ In "__return_selection" names ->
    py_blocks_matching p thread s handle selection = Ok [j]
    /\ exists pointer, py_block p thread s handle selection = Ok pointer /\ py_blocks p thread s handle selection = Ok [pointer]
         /\ points_to_block s (ot_tensor t) j pointer.
Proof. exact block_of_entry. Qed.
Print Assumptions C103_block_of_a_key_partial.

Example C103_example :
  never_crashed Debug ex_start ex_calls /\ ordinary Debug ex_start ex_calls /\ tensor_at (ex_state 17) 4 ex_owned
  /\ py_items Debug 0 (ex_state 17) 4
     = Ok [([("center", 1); ("spin", 0); ("kind", 4)]%Z, BlockIn 4 0); ([("center", 1); ("spin", 1); ("kind", 4)]%Z, BlockIn 4 1);
           ([("center", 8); ("spin", 0); ("kind", 4)]%Z, BlockIn 4 2)]
  /\ nth_error (rows (tm_keys (ot_tensor ex_owned))) 2 = Some [8; 0; 4]%Z
  /\ py_block Debug 0 (ex_state 17) 4 (ByKeywords [("center", 8); ("spin", 0); ("kind", 4)]%Z) = Ok (BlockIn 4 2).
Proof.
  split; [exact ex_never_crashed|]. split; [exact ex_ordinary|]. split; [apply ex_tensor_at; cbn; auto|].
  split; [vm_compute; reflexivity|]. split; vm_compute; reflexivity.
Qed.

(* C103 and C79 are false for keys with a variable called self: there is an
   exception *)
Theorem C103_self_refuted :
  exists p files calls i thread handle t j key,
    never_crashed p (world_start files) calls /\ ordinary p (world_start files) calls
    /\ tensor_at (state_at p (world_start files) calls i) handle t
    /\ nth_error (rows (tm_keys (ot_tensor t))) j = Some key /\ Forall (fun z => is_i32 z = true) key
    /\ raises (py_block p thread (state_at p (world_start files) calls i) handle
                 (ByKeywords (combine (labels_names (tm_keys (ot_tensor t))) key))).
Proof. exact ex_key_called_self. Qed.
Print Assumptions C103_self_refuted.

(* C104: the labels of blocks and gradients in Python are the ones of the library *)
Theorem C104_labels_of_blocks :
  forall p files calls i thread block b name part,
    never_crashed p (world_start files) calls -> ordinary p (world_start files) calls ->
    let s := state_at p (world_start files) calls i in
    points_to s block b -> utf8_text name -> named_part (ob_block b) (c_str name) part ->
    (exists l, py_samples p thread s block name = Ok l /\ same_entries l (bb_samples part))
    /\ (exists ls, py_components p thread s block name = Ok ls /\ Forall2 same_entries ls (bb_components part))
    /\ (exists l, py_properties p thread s block name = Ok l /\ same_entries l (bb_properties part)).
Proof. exact part_labels. Qed.
Print Assumptions C104_labels_of_blocks.

Example C104_example :
  points_to (ex_state 17) (BlockIn 4 1) (mk_owned_block ex_block_2 [2; 3]) /\ utf8_text "positions"
  /\ (exists part, named_part ex_block_2 "positions" part)
  /\ (exists l, py_samples Debug 1 (ex_state 17) (BlockIn 4 1) "positions" = Ok l
        /\ py_names l = ["sample"; "atom"] /\ py_rows l = [[2; 5]]%Z)
  /\ (exists ls, py_components Debug 1 (ex_state 17) (BlockIn 4 1) "positions" = Ok ls
        /\ map py_names ls = [["cell"]; ["xyz"]] /\ map py_rows ls = [[[1]; [2]]; [[0]; [1]]]%Z)
  /\ (exists l, py_properties Debug 1 (ex_state 17) (BlockIn 4 1) "positions" = Ok l /\ py_names l = ["n"; "l"]).
Proof.
  split; [exact ex_points_to|]. split; [reflexivity|]. split; [eexists; right; split; [discriminate|left; reflexivity]|].
  split; [eexists; split; [vm_compute; reflexivity|]; split; vm_compute; reflexivity|].
  split; [eexists; split; [vm_compute; reflexivity|]; split; vm_compute; reflexivity|].
  eexists. split; vm_compute; reflexivity.
Qed.

(* C105: sample_names, components_names and property_names are the names in all
   the blocks. The full statement: for all tensor maps. This is proved here if there
   is a block. *)
Theorem C105_names_of_all_blocks_partial :
  forall p files calls i thread handle t,
    never_crashed p (world_start files) calls -> ordinary p (world_start files) calls ->
    let s := state_at p (world_start files) calls i in
    tensor_at s handle t -> tm_blocks (ot_tensor t) <> [] ->
    exists samples components properties,
      py_sample_names p thread s handle = Ok samples /\ py_components_names p thread s handle = Ok components
      /\ py_property_names p thread s handle = Ok properties
      /\ forall block, In block (tm_blocks (ot_tensor t)) ->
           labels_names (bb_samples (tb_values block)) = samples
           /\ map labels_names (bb_components (tb_values block)) = components
           /\ labels_names (bb_properties (tb_values block)) = properties.
Proof. exact names_of_tensor. Qed.
Print Assumptions C105_names_of_all_blocks_partial.

(* C105: without blocks, these are exceptions *)
Theorem C105_no_blocks :
  forall p files calls i thread handle t,
    never_crashed p (world_start files) calls ->
    let s := state_at p (world_start files) calls i in
    tensor_at s handle t -> tm_blocks (ot_tensor t) = [] ->
    raises (py_sample_names p thread s handle) /\ raises (py_components_names p thread s handle)
    /\ raises (py_property_names p thread s handle).
Proof. exact names_of_nothing. Qed.
Print Assumptions C105_no_blocks.

Example C105_example :
  tensor_at (ex_state 17) 4 ex_owned /\ length (tm_blocks (ot_tensor ex_owned)) = 3
  /\ py_sample_names Debug 0 (ex_state 17) 4 = Ok ["structure"]
  /\ py_components_names Debug 0 (ex_state 17) 4 = Ok [["xyz"]]
  /\ py_property_names Debug 0 (ex_state 17) 4 = Ok ["n"; "l"].
Proof.
  split; [apply ex_tensor_at; cbn; auto|]. split; [reflexivity|]. split; [vm_compute; reflexivity|]. split; vm_compute; reflexivity.
Qed.

(* C105 is false for tensor maps without blocks, which can be made *)
Theorem C105_no_blocks_refuted :
  exists p files calls i thread handle t,
    never_crashed p (world_start files) calls /\ ordinary p (world_start files) calls
    /\ tensor_at (state_at p (world_start files) calls i) handle t
    /\ raises (py_sample_names p thread (state_at p (world_start files) calls i) handle).
Proof. exact ex_no_names. Qed.
Print Assumptions C105_no_blocks_refuted.

(* C106: keys_to_samples with a name, a list of names, or labels. The full statement:
   for all names. This is proved here for names without NUL which are not empty. *)
Theorem C106_names_to_samples_partial :
  forall p files calls i thread handle t argument names values sort temporary s' o,
    never_crashed p (world_start files) calls ->
    let s := state_at p (world_start files) calls i in
    tensor_at s handle t -> asks_for argument names values -> names <> [] ->
    Forall (fun name => name <> "" /\ has_nul name = false) names ->
    py_keys_to_samples p thread s handle argument sort temporary = (s', o) ->
    (good_names names -> NoDup values ->
       exists keys, is_labels keys names values
         /\ (o = Ok tt <-> snd (keys_to_samples p (ot_tensor t) keys sort) = Ok tt)
         /\ (o = Ok tt -> now_holds s s' handle t (fst (keys_to_samples p (ot_tensor t) keys sort))))
    /\ (~ (good_names names /\ NoDup values) -> raises o /\ w_tensors s' = w_tensors s).
Proof. exact names_moved_to_samples. Qed.
Print Assumptions C106_names_to_samples_partial.

(* C106: the same for keys_to_properties *)
Theorem C106_names_to_properties_partial :
  forall p files calls i thread handle t argument names values sort temporary s' o,
    never_crashed p (world_start files) calls ->
    let s := state_at p (world_start files) calls i in
    tensor_at s handle t -> asks_for argument names values -> names <> [] ->
    Forall (fun name => name <> "" /\ has_nul name = false) names ->
    py_keys_to_properties p thread s handle argument sort temporary = (s', o) ->
    (good_names names -> NoDup values ->
       exists keys, is_labels keys names values
         /\ (o = Ok tt <-> snd (keys_to_properties p (ot_tensor t) keys sort) = Ok tt)
         /\ (o = Ok tt -> now_holds s s' handle t (fst (keys_to_properties p (ot_tensor t) keys sort))))
    /\ (~ (good_names names /\ NoDup values) -> raises o /\ w_tensors s' = w_tensors s).
Proof. exact names_moved_to_properties. Qed.
Print Assumptions C106_names_to_properties_partial.

(* C106: components_to_properties with a name or a list of names *)
Theorem C106_names_of_components_partial :
  forall p files calls i thread handle t argument names s' o,
    never_crashed p (world_start files) calls ->
    let s := state_at p (world_start files) calls i in
    tensor_at s handle t -> argument = ManyNames names \/ (exists name, argument = OneName name /\ names = [name]) ->
    Forall (fun name => utf8_text name /\ has_nul name = false) names ->
    py_components_to_properties p thread s handle argument = (s', o) ->
    (o = Ok tt <-> snd (components_to_properties (ot_tensor t) names) = Ok tt)
    /\ tensor_at s' handle (mk_owned_tensor (fst (components_to_properties (ot_tensor t) names)) (ot_arrays t)).
Proof. exact names_of_components_moved. Qed.
Print Assumptions C106_names_of_components_partial.

(* a name, a list, and labels with entries; then names which can not be used *)
Example C106_example :
  tensor_at (ex_state 17) 4 ex_owned /\ asks_for (OneName "spin") ["spin"] []
  /\ asks_for (NamesOfLabels (ex_py ["spin"] [[0]; [1]]%Z)) ["spin"] [[0]; [1]]%Z
  /\ snd (py_keys_to_samples Debug 0 (ex_state 17) 4 (OneName "spin") true 2) = Ok tt
  /\ snd (py_keys_to_samples Debug 0 (ex_state 17) 4 (ManyNames ["spin"; "kind"]) true 2) = Ok tt
  /\ snd (py_keys_to_properties Debug 0 (ex_state 17) 4 (NamesOfLabels (ex_py ["spin"] [[0]; [1]]%Z)) false 2) = Ok tt
  /\ snd (py_components_to_properties Debug 0 (ex_state 17) 4 (OneName "xyz")) = Ok tt
  /\ raises (snd (py_keys_to_samples Debug 0 (ex_state 17) 4 (ManyNames ["spin"; "spin"]) true 2))
  /\ raises (snd (py_keys_to_samples Debug 0 (ex_state 17) 4 (OneName "not a name") true 2)).
Proof.
  split; [apply ex_tensor_at; cbn; auto|]. split; [split; reflexivity|]. split.
  { split; [apply (plain_new ["spin"] 1 [[0]; [1]]%Z); [repeat constructor|vm_compute; reflexivity]|]. split; vm_compute; reflexivity. }
  split; [vm_compute; reflexivity|]. split; [vm_compute; reflexivity|]. split; [vm_compute; reflexivity|]. split; [vm_compute; reflexivity|].
  split; eexists; vm_compute; reflexivity.
Qed.

(* C106 is false for an empty name: the variable f0 is moved *)
Theorem C106_empty_name_refuted :
  exists p files calls i thread handle t argument names values sort temporary s',
    never_crashed p (world_start files) calls /\ ordinary p (world_start files) calls
    /\ tensor_at (state_at p (world_start files) calls i) handle t /\ asks_for argument names values
    /\ ~ good_names names /\ Forall (fun name => has_nul name = false) names
    /\ py_keys_to_samples p thread (state_at p (world_start files) calls i) handle argument sort temporary = (s', Ok tt).
Proof. exact ex_moves_f0. Qed.
Print Assumptions C106_empty_name_refuted.

(* C106 is false for a name with NUL: a variable with another name is moved *)
Theorem C106_name_with_nul_refuted :
  exists p files calls i thread handle t argument names values sort temporary s',
    never_crashed p (world_start files) calls /\ ordinary p (world_start files) calls
    /\ tensor_at (state_at p (world_start files) calls i) handle t /\ asks_for argument names values
    /\ ~ good_names names /\ ~ In "" names
    /\ py_keys_to_samples p thread (state_at p (world_start files) calls i) handle argument sort temporary = (s', Ok tt).
Proof. exact ex_moves_spin. Qed.
Print Assumptions C106_name_with_nul_refuted.
