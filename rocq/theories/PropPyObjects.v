(* Properties C81-C84: the objects of Python programs *)
From Coq Require Import Permutation.
From Verif Require Import Base Labels Array Block Tensor Npy Io Origin CApi Spec SpecTensor SpecIo SpecApi PyIo PyObjects
  SpecPyObjects PyProgramFacts Examples ExamplesIo ExamplesApi ExamplesPyObjects.
Local Open Scope string_scope.
Local Open Scope list_scope.
Local Open Scope nat_scope.

(* C81. The full statement is for all programs. It is false without each of the
   conditions of [careful]: see the theorems below. *)
Theorem C81_careful_programs_are_defined_partial :
  forall p files program,
    careful p files program -> forall reason, py_run p (py_start files) program <> Undefined reason.
Proof. exact careful_defined. Qed.
Print Assumptions C81_careful_programs_are_defined_partial.

Example C81_example :
  careful Debug [] ex_program /\ length ex_program = 30 /\ exists s, py_run Debug (py_start []) ex_program = Ok s.
Proof.
  split; [exact ex_program_careful|]. split; [reflexivity|]. destruct ex_end_objects as (s & E & _). exists s. exact E.
Qed.

(* C81: block = tensor.block(0); tensor.keys_to_samples("k"); block.values *)
Theorem C81_old_block_refuted :
  exists program k o name reason,
    careful_but Debug [] program k /\ nth_error program k = Some (PartOf o name)
    /\ py_run Debug (py_start []) program = Undefined reason.
Proof. exact old_block_crashes. Qed.
Print Assumptions C81_old_block_refuted.

(* C81: keys = tensor.keys; tensor.keys_to_samples("k"); print(keys) *)
Theorem C81_old_keys_refuted :
  exists program k o reason,
    careful_but Debug [] program k /\ nth_error program k = Some (Read o)
    /\ nth_error program (k - 2) = Some (KeysOf 5) /\ py_run Debug (py_start []) program = Undefined reason.
Proof. exact old_keys_crash. Qed.
Print Assumptions C81_old_keys_refuted.

(* C81: properties = tensor.block(0).properties; tensor.components_to_properties("c");
   print(properties) *)
Theorem C81_old_properties_refuted :
  exists program k o reason,
    careful_but Debug [] program k /\ nth_error program k = Some (Read o)
    /\ nth_error program (k - 1) = Some (ComponentsToProperties 5 ["c"])
    /\ py_run Debug (py_start []) program = Undefined reason.
Proof. exact old_properties_crash. Qed.
Print Assumptions C81_old_properties_refuted.

(* C81: tensor.block(0).add_gradient("g", ...); tensor.block(0).gradient("g").data *)
Theorem C81_gradient_of_view_refuted :
  exists program k o parameter data samples components reason,
    careful_but Debug [] program k
    /\ nth_error program k = Some (AddGradient o parameter data None samples components [])
    /\ py_run Debug (py_start []) program = Undefined reason.
Proof. exact view_gradient_crashes. Qed.
Print Assumptions C81_gradient_of_view_refuted.

(* C81: TensorMap(keys, blocks); TensorMap(keys, blocks) *)
Theorem C81_same_blocks_refuted :
  exists program k keys blocks reason,
    careful_but Debug [] program k /\ nth_error program k = Some (NewTensor keys [] blocks)
    /\ py_run Debug (py_start []) program = Undefined reason.
Proof. exact twice_crashes. Qed.
Print Assumptions C81_same_blocks_refuted.

(* C81: tensor = TensorMap(keys, blocks); blocks.clear(); tensor.block(0).values *)
Theorem C81_cleared_list_refuted :
  exists program k o reason,
    careful_but Debug [] program k /\ nth_error program k = Some (SetList o [])
    /\ py_run Debug (py_start []) program = Undefined reason.
Proof. exact clear_crashes. Qed.
Print Assumptions C81_cleared_list_refuted.

(* C81: block = copy.deepcopy(loaded.block(0)); values = block.values;
   tensor = TensorMap(keys, [block]); del tensor; print(values) *)
Theorem C81_moved_values_refuted :
  exists files program k o reason,
    careful_but Debug files program k /\ nth_error program k = Some (Read o)
    /\ py_run Debug (py_start files) program = Undefined reason
    /\ nth_error program 3 = Some (PartOf 2 "values") /\ nth_error program 5 = Some (NewTensor ex_k1 [] 4).
Proof. exact moved_values_crash. Qed.
Print Assumptions C81_moved_values_refuted.

(* C81: block = TensorBlock(values=loaded.block(0).values, ...);
   loaded.keys_to_samples("spin"); copy.deepcopy(block) *)
Theorem C81_shared_values_refuted :
  exists files program k data view samples components properties reason,
    careful_but Debug files program k
    /\ nth_error program k = Some (NewBlock data (Some view) samples components properties [])
    /\ py_run Debug (py_start files) program = Undefined reason.
Proof. exact shared_values_crash. Qed.
Print Assumptions C81_shared_values_refuted.

(* C81: values = np.asarray(equistore.load("tensor.npz").block(0).values);
   print(values) *)
Theorem C81_as_array_refuted :
  exists files program k o reason,
    careful_but Debug files program k /\ nth_error program k = Some (Read o) /\ nth_error program 3 = Some (AsArray 2)
    /\ py_run Debug (py_start files) program = Undefined reason.
Proof. exact as_array_crashes. Qed.
Print Assumptions C81_as_array_refuted.

(* C81: TensorMap(keys, [copy.deepcopy(loaded.block(0)), block]).keys_to_samples("k") *)
Theorem C81_mixed_arrays_refuted :
  exists files program k tensor keys reason,
    careful_but Debug files program k /\ nth_error program k = Some (KeysToSamples tensor keys [] true 0 [])
    /\ py_run Debug (py_start files) program = Undefined reason.
Proof. exact mixed_crashes. Qed.
Print Assumptions C81_mixed_arrays_refuted.

(* C82. The full statement also is for programs where TensorMap() raises, which is
   false. *)
Theorem C82_one_owner_partial :
  forall p files program s,
    careful p files program -> tensors_made p files program -> py_run p (py_start files) program = Ok s ->
    (forall h, (exists b, block_at (py_world s) h b) <-> exists o, frees_block s o h /\ forall o', frees_block s o' h -> o' = o)
    /\ (forall h, (exists t, tensor_at (py_world s) h t) <-> exists o, frees_tensor s o h /\ forall o', frees_tensor s o' h -> o' = o).
Proof. exact owners_in_python. Qed.
Print Assumptions C82_one_owner_partial.

(* C82: everything is freed exactly once when nothing is used anymore *)
Theorem C82_everything_is_freed_partial :
  forall p files program s,
    careful p files program -> tensors_made p files program -> py_run p (py_start files) program = Ok s ->
    exists s', py_run p s (at_end s) = Ok s' /\ py_objects s' = [] /\ w_blocks (py_world s') = [] /\ w_tensors (py_world s') = []
      /\ w_files (py_world s') = w_files (py_world s)
      /\ Permutation (w_destroyed (py_world s')) (seq 0 (w_next_array (py_world s'))).
Proof. exact all_freed. Qed.
Print Assumptions C82_everything_is_freed_partial.

Example C82_example :
  careful Debug [] ex_program /\ tensors_made Debug [] ex_program
  /\ exists s, py_run Debug (py_start []) ex_program = Ok s
       /\ map fst (w_blocks (py_world s)) = [5; 3] /\ map fst (w_tensors (py_world s)) = [6; 4]
       /\ length (w_destroyed (py_world s)) = 7 /\ w_next_array (py_world s) = 20.
Proof.
  split; [exact ex_program_careful|]. split; [exact ex_program_made|]. eexists. split; [vm_compute; reflexivity|].
  split; [reflexivity|]. split; [reflexivity|]. split; reflexivity.
Qed.

(* C82 is false when TensorMap() raises because of its keys *)
Theorem C82_failure_refuted :
  exists program s s',
    careful Debug [] program /\ py_run Debug (py_start []) program = Ok s /\ py_run Debug s (at_end s) = Ok s'
    /\ py_objects s' = [] /\ w_blocks (py_world s') <> [].
Proof. exact failure_leaks. Qed.
Print Assumptions C82_failure_refuted.

(* C83: when Python frees objects makes no difference *)
Theorem C83_collection_is_unobservable :
  forall p files program s objects,
    careful p files program -> py_run p (py_start files) program = Ok s ->
    exists s', py_step p s (Collect objects) = (s', Ok None)
      /\ py_variables s' = py_variables s /\ w_files (py_world s') = w_files (py_world s)
      /\ (forall o x, reachable s o -> (object_is s' o x <-> object_is s o x))
      /\ (forall o ptr before owning wrappers parent, reachable s o -> current_block s o ->
            object_is s o (PyBlock ptr before owning wrappers parent) ->
            current_block s' o /\ forall b, points_to (py_world s') ptr b <-> points_to (py_world s) ptr b)
      /\ (forall o ptr blocks, reachable s o -> object_is s o (PyTensor ptr blocks) ->
            forall t, tensor_at (py_world s') ptr t <-> tensor_at (py_world s) ptr t)
      /\ (forall o, In o (py_variables s) -> current_view s o ->
            current_view s' o /\ snd (py_step p s' (Read o)) = snd (py_step p s (Read o))).
Proof. exact collect_unobservable. Qed.
Print Assumptions C83_collection_is_unobservable.

Example C83_example :
  exists s, py_run Debug (py_start []) ex_program = Ok s
    /\ unreachable s [12] = true /\ object_is s 12 (PyWrapper 8 None [])
    /\ In 26 (py_variables s) /\ current_block s 26 /\ object_is s 26 (PyBlock (BlockIn 6 0) 0 false [] (Some 25))
    /\ ~ In 25 (py_variables s) /\ object_is s 25 (PyTensor 6 None)
    /\ In 27 (py_variables s) /\ current_view s 27.
Proof.
  destruct ex_end_objects as (s & E & Ev & H26 & H25 & _ & _ & H12 & C26 & _ & C27 & Hu). exists s. rewrite Ev. cbn [In].
  split; [exact E|]. split; [exact Hu|]. split; [exact H12|]. split; [tauto|]. split; [exact C26|]. split; [exact H26|].
  split; [|split; [exact H25|]; split; [tauto|exact C27]]. intros H. repeat destruct H as [H|H]; try discriminate H; exact H.
Qed.

(* C84: the arrays of a block can be read *)
Theorem C84_blocks_can_be_read :
  forall p files program s o ptr before owning wrappers parent,
    careful p files program -> py_run p (py_start files) program = Ok s ->
    In o (py_variables s) -> object_is s o (PyBlock ptr before owning wrappers parent) -> current_block s o -> ptr <> BlockNull ->
    exists b, points_to (py_world s) ptr b
      /\ forall name part, utf8_text name -> named_part (ob_block b) (c_str name) part ->
         exists s' v, py_step p s (PartOf o name) = (s', Ok v)
           /\ forall view, v = Some view -> current_view s' view /\ snd (py_step p s' (Read view)) = Ok None.
Proof. exact read_part. Qed.
Print Assumptions C84_blocks_can_be_read.

Example C84_example :
  exists s, py_run Debug (py_start []) ex_program = Ok s
    /\ In 26 (py_variables s) /\ current_block s 26 /\ object_is s 26 (PyBlock (BlockIn 6 0) 0 false [] (Some 25))
    /\ In 11 (py_variables s) /\ current_block s 11 /\ object_is s 11 (PyBlock (BlockAt 3) 0 true [9; 10] None).
Proof.
  destruct ex_end_objects as (s & E & Ev & H26 & H25 & H11 & _ & H12 & C26 & C11 & C27 & Hu). exists s. rewrite Ev. cbn [In].
  split; [exact E|]. split; [tauto|]. split; [exact C26|]. split; [exact H26|]. split; [tauto|]. split; [exact C11|exact H11].
Qed.
