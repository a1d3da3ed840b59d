(* Properties C69 to C71: the memory layout of the arrays implemented in Rust *)
From Verif Require Import Base Labels Array Strided StridedFacts Block Tensor Npy Io Spec SpecTensor SpecIo ReadableFacts Examples ExamplesMoved ExamplesComponents ExamplesIo ExamplesLayout.
Local Open Scope string_scope.
Local Open Scope list_scope.
Local Open Scope nat_scope.

(* C69: no program can tell the arrays as they are in memory from arrays which are
   the list of their elements in row-major order *)
Theorem C69_same_programs :
  forall p arrays,
    Forall no_gap arrays ->
    run memory_step p (map Some arrays) = run array_step p (map (fun a => Some (as_array a)) arrays).
Proof. exact same_programs. Qed.
Print Assumptions C69_same_programs.

Theorem C69_created :
  forall shape, no_gap (st_create shape) /\ as_array (st_create shape) = rust_ndarray (nd_zeros shape).
Proof. exact created_as_array. Qed.
Print Assumptions C69_created.

Example C69_example :
  no_gap ex_transposed
  /\ nd_data (a_nd (as_array ex_transposed)) = [10; 20; 11; 21; 12; 22]%Z
  /\ run memory_step ex_client [Some ex_transposed] = ex_responses
  /\ run array_step ex_client [Some (as_array ex_transposed)] = ex_responses
  /\ (* the elements move in memory *)
     fst (st_reshape [2; 3] ex_transposed) = mk_strided [2; 3] [3; 1] [10; 20; 11; 21; 12; 22]%Z.
Proof. split; [exact ex_transposed_no_gap|]. repeat split; vm_compute; reflexivity. Qed.

(* C70: after moving keys the data of all arrays can be read, whatever the layout
   of the arrays was *)
Theorem C70_keys_to_samples_readable :
  forall p t keys sort t',
    in_ndarrays t -> keys_to_samples p t keys sort = (t', Ok tt) -> in_ndarrays t' /\ readable_tensor t'.
Proof. exact keys_to_samples_readable. Qed.
Print Assumptions C70_keys_to_samples_readable.

Theorem C70_keys_to_properties_readable :
  forall p t keys sort t',
    in_ndarrays t -> keys_to_properties p t keys sort = (t', Ok tt) -> in_ndarrays t' /\ readable_tensor t'.
Proof. exact keys_to_properties_readable. Qed.
Print Assumptions C70_keys_to_properties_readable.

Example C70_example :
  in_ndarrays ex_exchanged_moved /\ ~ readable_tensor ex_exchanged_moved
  /\ (let moved := keys_to_samples Debug ex_exchanged_moved (ex_labels ["key"] []) true in
      snd moved = Ok tt
      /\ map (fun b => array_data (bb_data (tb_values b))) (tm_blocks (fst moved))
         = [Ok [0; 2; 1; 3; 4; 6; 5; 7; 8; 10; 9; 11]%Z])
  /\ snd (keys_to_properties Debug ex_exchanged_moved (ex_labels ["key"] []) true) = Ok tt.
Proof.
  split; [exact ex_exchanged_moved_ndarrays|]. split; [exact ex_exchanged_moved_unreadable|].
  repeat split; vm_compute; reflexivity.
Qed.

(* C71: moving components can leave data which can not be read, and a tensor map
   which can not be saved *)
Theorem C71_readable_after_moving_components_refuted :
  exists t name t' e,
    wf_tensor t /\ in_ndarrays t /\ readable_tensor t
    /\ (forall b, In b (tm_blocks t) -> among_last_two (tb_values b) name)
    /\ (exists archive, save LittleEndian t = Ok archive)
    /\ components_to_properties t [name] = (t', Ok tt)
    /\ ~ readable_tensor t' /\ save LittleEndian t' = Err e.
Proof. exact ex_exchanged_unreadable. Qed.
Print Assumptions C71_readable_after_moving_components_refuted.

(* C71: when this happens, for one of the last two components. C71_readable_iff in
   PropReadable is for any component. *)
Theorem C71_last_two_components :
  forall t name t',
    wf_tensor t -> in_ndarrays t -> readable_tensor t ->
    (forall b, In b (tm_blocks t) -> among_last_two (tb_values b) name) ->
    components_to_properties t [name] = (t', Ok tt) ->
    (readable_tensor t' <->
     forall b part, In b (tm_blocks t) -> In part (parts_of_block b) -> ~ left_exchanged part name).
Proof. exact components_readable. Qed.
Print Assumptions C71_last_two_components.

Example C71_example :
  wf_tensor ex_exchanged /\ in_ndarrays ex_exchanged /\ readable_tensor ex_exchanged
  /\ (forall name b, In name ["x"; "y"] -> In b (tm_blocks ex_exchanged) -> among_last_two (tb_values b) name)
  /\ components_to_properties ex_exchanged ["x"] = (ex_exchanged_moved, Ok tt)
  /\ In ex_exchanged_block (tm_blocks ex_exchanged) /\ left_exchanged (tb_values ex_exchanged_block) "x"
  /\ (* the last component *)
     (let moved := components_to_properties ex_exchanged ["y"] in
      snd moved = Ok tt
      /\ map (fun b => array_data (bb_data (tb_values b))) (tm_blocks (fst moved))
         = [Ok [0; 1; 2; 3; 4; 5; 6; 7; 8; 9; 10; 11]%Z]).
Proof.
  split; [exact ex_exchanged_wf|]. split; [exact ex_exchanged_ndarrays|]. split; [exact ex_exchanged_readable|].
  split; [exact ex_exchanged_last_two|]. split; [exact ex_exchanged_moved_ok|].
  split; [rewrite ex_exchanged_blocks; left; reflexivity|]. split; [exact ex_exchanged_left|].
  split; vm_compute; reflexivity.
Qed.
