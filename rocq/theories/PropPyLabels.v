(* Properties C76-C80: labels, selections and names of origins from Python *)
From Coq Require Import Sorting.Sorted.
From Verif Require Import Base Labels Array Block Tensor Origin CApi Spec SpecTensor SpecApi PyIo PyLabels SpecPyLabels
  PyLabelsFacts PySelectFacts Examples ExamplesApi ExamplesPyLabels.
Local Open Scope string_scope.
Local Open Scope list_scope.
Local Open Scope nat_scope.

(* C76. The full statement: the library gets the names and entries which are seen
   from Python, for all the labels a program can have. This is proved here for
   labels made without labels[::step] and labels[["a", "b"]], and is false for the
   other ones. *)
Theorem C76_labels_as_seen_partial :
  forall l,
    plain_labels l -> py_names l <> [] -> Forall (fun name => has_nul name = false) (py_names l) ->
    ((exists labels, labels_from_c (as_eqs_labels l) = Ok labels) <-> good_names (py_names l) /\ NoDup (py_rows l))
    /\ (forall labels, labels_from_c (as_eqs_labels l) = Ok labels -> is_labels labels (py_names l) (py_rows l)).
Proof. exact plain_accepted. Qed.
Print Assumptions C76_labels_as_seen_partial.

(* C76: when the library always reads the entries which are seen from Python *)
Theorem C76_labels_layout_iff :
  forall l,
    python_labels l -> py_names l <> [] ->
    ((forall memory, length memory = length (pl_memory l) -> same_in_library (with_memory l memory)) <-> packed l).
Proof. exact labels_same_iff. Qed.
Print Assumptions C76_labels_layout_iff.

Example C76_example :
  plain_labels (py_slice ex_py_ab 1 1 2) /\ py_names (py_slice ex_py_ab 1 1 2) = ["a"; "b"]
  /\ py_rows (py_slice ex_py_ab 1 1 2) = [[2; 3]; [4; 5]]%Z
  /\ labels_from_c (as_eqs_labels (py_slice ex_py_ab 1 1 2)) = Ok (ex_labels ["a"; "b"] [[2; 3]; [4; 5]]%Z)
  /\ python_labels ex_py_even /\ ~ packed ex_py_even /\ python_labels ex_py_field /\ ~ packed ex_py_field.
Proof.
  split; [apply plain_slice; [exact ex_py_plain|apply le_n]|]. split; [vm_compute; reflexivity|]. split; [vm_compute; reflexivity|].
  split; [vm_compute; reflexivity|]. split; [exact ex_py_even_python|]. split.
  - intros [H _]. vm_compute in H. specialize (H (le_n 2)). discriminate H.
  - split; [exact ex_py_field_python|]. intros [_ H]. vm_compute in H. specialize (H (le_S _ _ (le_S _ _ (le_n 1)))). discriminate H.
Qed.

(* C76 is false for labels[::2] *)
Theorem C76_slice_refuted :
  exists l labels,
    python_labels l /\ good_names (py_names l) /\ NoDup (py_rows l)
    /\ labels_from_c (as_eqs_labels l) = Ok labels /\ labels_names labels = py_names l /\ rows labels <> py_rows l.
Proof. exact ex_even_entries. Qed.
Print Assumptions C76_slice_refuted.

(* C76 is false for labels[["b"]]: other columns are used *)
Theorem C76_fields_refuted :
  exists l labels,
    python_labels l /\ (exists whole names, plain_labels whole /\ py_select whole names = Ok l)
    /\ good_names (py_names l) /\ NoDup (py_rows l)
    /\ labels_from_c (as_eqs_labels l) = Ok labels /\ labels_names labels = py_names l /\ rows labels <> py_rows l.
Proof. exact ex_field_entries. Qed.
Print Assumptions C76_fields_refuted.

(* C76 is false for labels[::-1]: the library reads after the end of the array *)
Theorem C76_reversed_refuted :
  exists l reason,
    python_labels l /\ good_names (py_names l) /\ NoDup (py_rows l) /\ labels_from_c (as_eqs_labels l) = Undefined reason.
Proof. exact ex_reversed_entries. Qed.
Print Assumptions C76_reversed_refuted.

(* C77. The full statement: new labels keep the values of any array of integers.
   This is proved here for 32-bit integers. *)
Theorem C77_labels_of_integers_partial :
  forall names columns values,
    Forall (fun row => length row = columns) values -> Forall (Forall (fun z => is_i32 z = true)) values -> ~ In "" names ->
    ((exists l, labels_new names columns values = Ok l) <-> length names = columns /\ NoDup names /\ (columns <> 0 -> NoDup values))
    /\ (forall l, labels_new names columns values = Ok l -> py_names l = names /\ py_rows l = values).
Proof. exact labels_new_exact. Qed.
Print Assumptions C77_labels_of_integers_partial.

(* C77: what remains of other integers *)
Theorem C77_labels_are_wrapped :
  forall names columns values l,
    Forall (fun row => length row = columns) values -> labels_new names columns values = Ok l ->
    Forall2 (Forall2 same_32_bits) values (py_rows l).
Proof. exact labels_new_wraps. Qed.
Print Assumptions C77_labels_are_wrapped.

Example C77_example :
  (exists l, labels_new ["a"; "b"] 2 [[-2147483648; 1]; [2147483647; 1]]%Z = Ok l)
  /\ raises (labels_new ["a"] 1 [[4294967297]; [1]]%Z)
  /\ labels_new ["a"; ""] 2 [[4294967297; -1]]%Z = Ok (ex_py ["a"; "f1"] [[1; -1]]%Z).
Proof. split; [|split; [|vm_compute; reflexivity]]; eexists; vm_compute; reflexivity. Qed.

Theorem C77_values_refuted :
  exists names columns values l,
    Forall (fun row => length row = columns) values /\ labels_new names columns values = Ok l /\ py_rows l <> values.
Proof. exact ex_wrapped_values. Qed.
Print Assumptions C77_values_refuted.

(* C78: labels of the library, seen from Python *)
Theorem C78_labels_of_the_library :
  forall labels c,
    axis_labels labels -> labels_to_c labels = Ok c ->
    exists l, from_eqs_labels c = Ok l /\ py_names l = labels_names labels /\ py_rows l = rows labels
      /\ (pl_library l = if length (rows labels) =? 0 then None else Some c).
Proof. exact from_library_rows. Qed.
Print Assumptions C78_labels_of_the_library.

(* C78. The full statement: for all labels which come from the library and all
   entries, position gives the position of the entry, or None if it is not there.
   This is proved here for 32-bit integers, and labels with at least one entry. *)
Theorem C78_position_partial :
  forall labels c l label,
    axis_labels labels -> labels_to_c labels = Ok c -> from_eqs_labels c = Ok l ->
    rows labels <> [] -> Forall (fun z => is_i32 z = true) label ->
    (length label = length (labels_names labels) ->
       (forall i, py_position l label = Ok (Some i) <-> nth_error (rows labels) i = Some label)
       /\ (py_position l label = Ok None <-> ~ In label (rows labels)))
    /\ (length label <> length (labels_names labels) -> raises (py_position l label)).
Proof. exact position_library. Qed.
Print Assumptions C78_position_partial.

Example C78_example :
  axis_labels ex_keys
  /\ exists c l, labels_to_c ex_keys = Ok c /\ from_eqs_labels c = Ok l /\ rows ex_keys <> []
       /\ py_position l [8; 0; 4]%Z = Ok (Some 2) /\ py_position l [8; 1; 4]%Z = Ok None /\ raises (py_position l [8]%Z).
Proof.
  split; [exact ex_keys_axis|]. do 2 eexists. split; [vm_compute; reflexivity|]. split; [vm_compute; reflexivity|].
  split; [vm_compute; discriminate|]. split; [vm_compute; reflexivity|]. split; [vm_compute; reflexivity|]. eexists. vm_compute. reflexivity.
Qed.

(* C78: in any labels, also parts of labels of the library, a position is the one of
   the entry in these labels *)
Theorem C78_position_in_parts :
  forall l label,
    python_labels l -> Forall (fun z => is_i32 z = true) label ->
    (forall i, py_position l label = Ok (Some i) -> nth_error (py_rows l) i = Some label)
    /\ (py_position l label = Ok None -> ~ In label (py_rows l)).
Proof. exact position_right. Qed.
Print Assumptions C78_position_in_parts.

Example C78_example_parts :
  exists c l, labels_to_c ex_keys = Ok c /\ from_eqs_labels c = Ok l /\ python_labels (py_slice l 1 1 2)
    /\ py_rows (py_slice l 1 1 2) = [[1; 1; 4]; [8; 0; 4]]%Z
    /\ py_position l [8; 0; 4]%Z = Ok (Some 2) /\ raises (py_position (py_slice l 1 1 2) [8; 0; 4]%Z).
Proof.
  do 2 eexists. split; [vm_compute; reflexivity|]. split; [vm_compute; reflexivity|]. split.
  - apply sliced; [|discriminate|].
    + apply (from_library ex_keys (match labels_to_c ex_keys with Ok c => c | _ => mk_c_labels None None None 0 0 end)); [exact ex_keys_axis|vm_compute; reflexivity..].
    + intros k Hk. cbn [pl_count]. lia.
  - split; [vm_compute; reflexivity|]. split; [vm_compute; reflexivity|]. eexists. vm_compute. reflexivity.
Qed.

(* C78 is false for larger integers: an entry can be found in labels without it *)
Theorem C78_large_integers_refuted :
  exists labels c l label i,
    axis_labels labels /\ labels_to_c labels = Ok c /\ from_eqs_labels c = Ok l /\ ~ In label (py_rows l)
    /\ py_position l label = Ok (Some i).
Proof. exact ex_wrapped_position. Qed.
Print Assumptions C78_large_integers_refuted.

(* C78 is false for labels without entries: there is an exception *)
Theorem C78_empty_labels_refuted :
  exists labels c l label,
    axis_labels labels /\ labels_to_c labels = Ok c /\ from_eqs_labels c = Ok l /\ length label = length (py_names l)
    /\ raises (py_position l label).
Proof. exact ex_empty_position. Qed.
Print Assumptions C78_empty_labels_refuted.

(* C79: TensorMap.block, blocks and blocks_matching with keywords. The full
   statement: the same for all names. This is proved here for the names which are
   not the one of another argument. *)
Theorem C79_selection_with_keywords_partial :
  forall p files calls i thread handle t keywords,
    never_crashed p (world_start files) calls -> ordinary p (world_start files) calls ->
    let s := state_at p (world_start files) calls i in
    let selection := ByKeywords keywords in
    tensor_at s handle t -> NoDup (map fst keywords) -> Forall (fun z => is_i32 z = true) (map snd keywords) ->
    Forall (fun name => name <> "" /\ has_nul name = false /\ name <> "self" /\ name <> "__return_selection") (map fst keywords) ->
    ((forall name, In name (map fst keywords) -> In name (labels_names (tm_keys (ot_tensor t)))) ->
       exists found, StronglySorted lt found /\ (forall i, In i found <-> key_agrees (ot_tensor t) keywords i)
         /\ py_blocks_matching p thread s handle selection = Ok found
         /\ (found <> [] -> exists pointers, py_blocks p thread s handle selection = Ok pointers
               /\ Forall2 (points_to_block s (ot_tensor t)) found pointers)
         /\ (found = [] -> raises (py_blocks p thread s handle selection))
         /\ (forall index, found = [index] -> exists pointer, py_block p thread s handle selection = Ok pointer
               /\ points_to_block s (ot_tensor t) index pointer)
         /\ (length found <> 1 -> raises (py_block p thread s handle selection)))
    /\ (forall name, In name (map fst keywords) -> ~ In name (labels_names (tm_keys (ot_tensor t))) ->
         raises (py_blocks_matching p thread s handle selection)
         /\ raises (py_blocks p thread s handle selection) /\ raises (py_block p thread s handle selection)).
Proof. exact selection_of_keywords. Qed.
Print Assumptions C79_selection_with_keywords_partial.

(* C79: with an index *)
Theorem C79_selection_with_an_index :
  forall p files calls i thread handle t index,
    never_crashed p (world_start files) calls ->
    let s := state_at p (world_start files) calls i in
    tensor_at s handle t ->
    (index < length (tm_blocks (ot_tensor t)) ->
       exists pointer, py_block p thread s handle (ByIndex index) = Ok pointer /\ points_to_block s (ot_tensor t) index pointer)
    /\ (length (tm_blocks (ot_tensor t)) <= index -> raises (py_block p thread s handle (ByIndex index))).
Proof. exact block_of_index. Qed.
Print Assumptions C79_selection_with_an_index.

(* C79. The full statement for selections with labels: the same, for all labels
   with one entry. This is proved here when the entry is in a packed order in
   memory. *)
Theorem C79_selection_with_labels_partial :
  forall p files calls i thread handle t l row,
    never_crashed p (world_start files) calls -> ordinary p (world_start files) calls ->
    let s := state_at p (world_start files) calls i in
    let selection := ByLabels l in
    tensor_at s handle t ->
    python_labels l -> packed l -> py_rows l = [row] -> NoDup (py_names l) ->
    Forall (fun name => has_nul name = false) (py_names l) ->
    ((forall name, In name (py_names l) -> In name (labels_names (tm_keys (ot_tensor t)))) ->
       exists found, StronglySorted lt found /\ (forall i, In i found <-> key_agrees (ot_tensor t) (combine (py_names l) row) i)
         /\ py_blocks_matching p thread s handle selection = Ok found
         /\ (found <> [] -> exists pointers, py_blocks p thread s handle selection = Ok pointers
               /\ Forall2 (points_to_block s (ot_tensor t)) found pointers)
         /\ (found = [] -> raises (py_blocks p thread s handle selection))
         /\ (forall index, found = [index] -> exists pointer, py_block p thread s handle selection = Ok pointer
               /\ points_to_block s (ot_tensor t) index pointer)
         /\ (length found <> 1 -> raises (py_block p thread s handle selection)))
    /\ (forall name, In name (py_names l) -> ~ In name (labels_names (tm_keys (ot_tensor t))) ->
         raises (py_blocks_matching p thread s handle selection)
         /\ raises (py_blocks p thread s handle selection) /\ raises (py_block p thread s handle selection)).
Proof. exact selection_of_labels. Qed.
Print Assumptions C79_selection_with_labels_partial.

Example C79_example :
  never_crashed Debug ex_start ex_calls /\ ordinary Debug ex_start ex_calls /\ tensor_at (ex_state 17) 4 ex_owned
  /\ py_blocks_matching Debug 0 (ex_state 17) 4 (ByKeywords [("spin", 0%Z)]) = Ok [0; 2]
  /\ py_blocks Debug 0 (ex_state 17) 4 (ByKeywords [("spin", 0%Z)]) = Ok [BlockIn 4 0; BlockIn 4 2]
  /\ raises (py_block Debug 0 (ex_state 17) 4 (ByKeywords [("spin", 0%Z)]))
  /\ py_block Debug 0 (ex_state 17) 4 (ByKeywords [("spin", 0%Z); ("center", 8%Z)]) = Ok (BlockIn 4 2)
  /\ py_block Debug 0 (ex_state 17) 4 (ByLabels (ex_py ["spin"] [[1]]%Z)) = Ok (BlockIn 4 1)
  /\ raises (py_blocks Debug 0 (ex_state 17) 4 (ByKeywords [("charge", 0%Z)])).
Proof.
  split; [exact ex_never_crashed|]. split; [exact ex_ordinary|]. split; [apply ex_tensor_at; cbn; auto|].
  split; [vm_compute; reflexivity|]. split; [vm_compute; reflexivity|]. split; [eexists; vm_compute; reflexivity|].
  split; [vm_compute; reflexivity|]. split; [vm_compute; reflexivity|]. eexists. vm_compute. reflexivity.
Qed.

(* C79 is false for Labels(...)[["spin"]]: blocks with another key are selected *)
Theorem C79_selection_with_fields_refuted :
  exists p files calls i thread handle t l row others pointer,
    never_crashed p (world_start files) calls /\ ordinary p (world_start files) calls
    /\ tensor_at (state_at p (world_start files) calls i) handle t
    /\ python_labels l /\ py_rows l = [row]
    /\ (forall name, In name (py_names l) -> In name (labels_names (tm_keys (ot_tensor t))))
    /\ py_blocks p thread (state_at p (world_start files) calls i) handle (ByLabels l) = Ok (pointer :: others)
    /\ points_to_block (state_at p (world_start files) calls i) (ot_tensor t) 0 pointer
    /\ ~ key_agrees (ot_tensor t) (combine (py_names l) row) 0.
Proof. exact ex_wrong_selection. Qed.
Print Assumptions C79_selection_with_fields_refuted.

(* C80. The full statement: data_origin_name gives the name of all registered
   origins. This is proved here for names with less than 1024 bytes, there is an
   exception for all the other ones. *)
Theorem C80_names_of_origins_partial :
  forall p files calls i j thread tries name id,
    registered p (world_start files) calls i name id -> i < j -> 0 < tries ->
    let s := state_at p (world_start files) calls j in
    (String.length name < 1024 -> data_origin_name tries p thread s id = Some (Ok name))
    /\ (1024 <= String.length name -> exists e, data_origin_name tries p thread s id = Some (Err e)).
Proof. exact origin_name_exact. Qed.
Print Assumptions C80_names_of_origins_partial.

Example C80_example :
  registered Debug (world_start []) ex_origin_calls 0 "julia" 1
  /\ registered Debug (world_start []) ex_origin_calls 1 ex_long_name 2 /\ String.length ex_long_name = 1024
  /\ data_origin_name 1 Debug 0 (state_at Debug (world_start []) ex_origin_calls 2) 1 = Some (Ok "julia").
Proof.
  split; [apply ex_registered; left; reflexivity|]. split; [apply ex_registered; right; left; reflexivity|].
  split; vm_compute; reflexivity.
Qed.

(* C80 is false for long names: the buffer does not grow *)
Theorem C80_long_names_refuted :
  exists p calls i j thread name id,
    registered p (world_start []) calls i name id /\ i < j
    /\ (forall tries, 0 < tries -> exists e, data_origin_name tries p thread (state_at p (world_start []) calls j) id = Some (Err e)).
Proof. exact ex_long_origin. Qed.
Print Assumptions C80_long_names_refuted.

(* C80: the loop of Python would find them, if the library returned the status of
   its documentation *)
Theorem C80_growing_buffer :
  forall callback text tries bufflen,
    writes_text callback text -> has_nul text = false -> String.length text < bufflen * 2 ^ tries ->
    growing_buffer callback (S tries) bufflen = Some (Ok text).
Proof. exact growing_buffer_text. Qed.
Print Assumptions C80_growing_buffer.

Example C80_growing_example :
  writes_text (ex_callback "julia") "julia" /\ has_nul "julia" = false /\ String.length "julia" < 2 * 2 ^ 2
  /\ growing_buffer (ex_callback "julia") 2 2 = None /\ growing_buffer (ex_callback "julia") 3 2 = Some (Ok "julia").
Proof.
  split; [apply ex_callback_writes|]. split; [reflexivity|]. split; [vm_compute; lia|]. split; vm_compute; reflexivity.
Qed.
