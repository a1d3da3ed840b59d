(* Properties C85-C88: arrays of numpy *)
From Verif Require Import Base Labels Array Block Tensor Strided Spec SpecTensor Numpy SpecNumpy NumpyFacts MoveWith MoveWithFacts
  Examples ExamplesNumpy.
Local Open Scope string_scope.
Local Open Scope list_scope.
Local Open Scope nat_scope.

(* C85. The full statement is for all arrays and all moves. It is false without the
   conditions: see the theorems below. *)
Theorem C85_same_as_numpy_partial :
  forall f origin t m arrays arrays' p,
    follows_numpy f -> Forall (fun a => in_memory m a /\ np_dtype a = t) arrays ->
    Forall2 (shown origin m) arrays arrays' -> regular (length arrays) p (map Some arrays') ->
    run (numpy_step f) p (mk_np_state m (map Some arrays)) = run array_step p (map Some arrays').
Proof. exact same_as_numpy. Qed.
Print Assumptions C85_same_as_numpy_partial.

Example C85_example :
  follows_numpy ex_rules
  /\ Forall (fun a => in_memory [ex_buffer] a /\ np_dtype a = Float64) [ex_first Float64; ex_second Float64]
  /\ Forall2 (shown 4 [ex_buffer]) [ex_first Float64; ex_second Float64] (ex_arrays Float64)
  /\ regular 2 (all_of ex_commands) (map Some (ex_arrays Float64))
  /\ nth_error (run array_step (all_of ex_commands) (map Some (ex_arrays Float64))) 3
     = Some (Data [10; 11; 0; 0; 12; 13; 0; 0; 0; 0; 21; 19; 0; 0; 20; 18; 14; 15; 17; 15; 16; 17; 16; 14]%Z).
Proof.
  split; [exact ex_follows|]. split; [apply ex_same_type|]. split; [apply ex_shown|]. split; [apply ex_regular|].
  vm_compute. reflexivity.
Qed.

(* C85: with arrays of different types, values are changed *)
Theorem C85_types_refuted :
  exists f origin m arrays arrays' p,
    follows_numpy f /\ Forall (in_memory m) arrays /\ Forall2 (shown origin m) arrays arrays'
    /\ regular (length arrays) p (map Some arrays')
    /\ run (numpy_step f) p (mk_np_state m (map Some arrays)) <> run array_step p (map Some arrays').
Proof. exact types_not_same. Qed.
Print Assumptions C85_types_refuted.

(* C85: with another number of components, values are at other places *)
Theorem C85_axes_refuted :
  exists f origin t m arrays arrays' commands,
    follows_numpy f /\ Forall (fun a => in_memory m a /\ np_dtype a = t) arrays
    /\ Forall2 (shown origin m) arrays arrays' /\ Forall (not_moved_to (length arrays)) commands
    /\ run (numpy_step f) (all_of commands) (mk_np_state m (map Some arrays)) <> run array_step (all_of commands) (map Some arrays').
Proof. exact axes_not_same. Qed.
Print Assumptions C85_axes_refuted.

(* C85: with an output given to the library, other arrays can change *)
Theorem C85_shared_refuted :
  exists f origin t m arrays arrays' p,
    follows_numpy f /\ Forall (fun a => in_memory m a /\ np_dtype a = t) arrays
    /\ Forall2 (shown origin m) arrays arrays' /\ regular 0 p (map Some arrays')
    /\ run (numpy_step f) p (mk_np_state m (map Some arrays)) <> run array_step p (map Some arrays').
Proof. exact shared_not_same. Qed.
Print Assumptions C85_shared_refuted.

(* C86 *)
Theorem C86_memory_is_not_changed :
  forall f m arrays commands,
    follows_numpy f -> Forall (in_memory m) arrays -> Forall (not_moved_to (length arrays)) commands ->
    firstn (length m) (np_memory (numpy_run f (mk_np_state m (map Some arrays)) commands)) = m.
Proof. exact user_memory. Qed.
Print Assumptions C86_memory_is_not_changed.

Theorem C86_created_arrays_are_apart :
  forall f m arrays commands i a,
    follows_numpy f -> Forall (in_memory m) arrays -> Forall (not_moved_to (length arrays)) commands ->
    let s := numpy_run f (mk_np_state m (map Some arrays)) commands in
    length arrays <= i -> live (np_arrays s) i = Some a ->
    in_memory (np_memory s) a /\ length m <= np_buffer a
    /\ forall j b, j <> i -> live (np_arrays s) j = Some b -> np_buffer b <> np_buffer a.
Proof. exact new_memory. Qed.
Print Assumptions C86_created_arrays_are_apart.

Example C86_example :
  Forall (in_memory [ex_buffer]) [ex_first (OtherType 0); ex_second Float64]
  /\ Forall (not_moved_to 2) ex_commands
  /\ exists a, live (np_arrays (numpy_run ex_rules (ex_start (OtherType 0) Float64) ex_commands)) 2 = Some a /\ 0 < np_buffer a
     /\ np_elements (np_memory (numpy_run ex_rules (ex_start (OtherType 0) Float64) ex_commands)) a <> np_elements [ex_buffer] a.
Proof.
  split; [exact ex_mixed_in_memory|]. split; [exact ex_not_moved_to|]. eexists. split; [vm_compute; reflexivity|].
  split; [vm_compute; lia|]. vm_compute. discriminate.
Qed.

(* C86 is false for an output given to the library *)
Theorem C86_outputs_refuted :
  exists f m arrays commands,
    follows_numpy f /\ Forall (in_memory m) arrays
    /\ firstn (length m) (np_memory (numpy_run f (mk_np_state m (map Some arrays)) commands)) <> m.
Proof. exact output_changes. Qed.
Print Assumptions C86_outputs_refuted.

(* C87 *)
Theorem C87_readable_arrays :
  forall m a, in_memory m a -> forall data,
    np_data m a = Some data <-> np_dtype a = Float64 /\ one_after_the_other a /\ data = np_elements m a.
Proof. exact readable. Qed.
Print Assumptions C87_readable_arrays.

(* C87: the full statement is for all the arrays created by the library. *)
Theorem C87_created_arrays_are_readable_partial :
  forall f m arrays commands i a,
    follows_numpy f -> Forall (in_memory m) arrays -> Forall (only_moved (length arrays)) commands ->
    let s := numpy_run f (mk_np_state m (map Some arrays)) commands in
    length arrays <= i -> live (np_arrays s) i = Some a -> np_dtype a = Float64 ->
    np_data (np_memory s) a = Some (np_elements (np_memory s) a).
Proof. exact created_readable. Qed.
Print Assumptions C87_created_arrays_are_readable_partial.

Example C87_example :
  Forall (in_memory [ex_buffer]) [ex_first Float64; ex_second Float64]
  /\ np_data [ex_buffer] (ex_first Float64) = Some [10; 11; 12; 13; 14; 15; 16; 17]%Z
  /\ np_data [ex_buffer] (ex_second Float64) = None
  /\ Forall (only_moved 2) (firstn 8 ex_commands)
  /\ let s := numpy_run ex_rules (ex_start Float64 Float64) (firstn 8 ex_commands) in
     exists a, live (np_arrays s) 2 = Some a /\ np_dtype a = Float64
     /\ np_data (np_memory s) a
        = Some [10; 11; 0; 0; 12; 13; 0; 0; 0; 0; 21; 19; 0; 0; 20; 18; 14; 15; 17; 15; 16; 17; 16; 14]%Z.
Proof.
  split; [apply ex_in_memory|]. split; [vm_compute; reflexivity|]. split; [vm_compute; reflexivity|].
  split; [exact ex_only_moved|]. intros s. eexists. split; [vm_compute; reflexivity|]. split; vm_compute; reflexivity.
Qed.

(* C87 is false after components_to_properties *)
Theorem C87_components_refuted :
  exists f m arrays commands i a,
    follows_numpy f /\ Forall (in_memory m) arrays /\ Forall (not_moved_to (length arrays)) commands
    /\ length arrays <= i /\ live (np_arrays (numpy_run f (mk_np_state m (map Some arrays)) commands)) i = Some a
    /\ np_dtype a = Float64 /\ np_data (np_memory (numpy_run f (mk_np_state m (map Some arrays)) commands)) a = None.
Proof. exact components_unreadable. Qed.
Print Assumptions C87_components_refuted.

(* C88. The full statement is for all tensor maps, arrays of all types and both
   profiles. It is proved here if gradients in a group have the same components
   (what is checked in Debug), and arrays the same type (see C85). *)
Theorem C88_keys_to_samples_numpy_partial :
  forall f origin move p t keys sort,
    follows_numpy f -> acts_as_numpy f origin move -> wf_tensor t -> numpy_tensor origin t ->
    (p = Debug \/ agreeing_groups t (labels_names keys)) ->
    keys_to_samples_with move p t keys sort = keys_to_samples p t keys sort.
Proof. exact keys_to_samples_numpy. Qed.
Print Assumptions C88_keys_to_samples_numpy_partial.

Theorem C88_keys_to_properties_numpy_partial :
  forall f origin move p t keys sort,
    follows_numpy f -> acts_as_numpy f origin move -> wf_tensor t -> numpy_tensor origin t -> wf_labels keys ->
    (p = Debug \/ agreeing_groups t (labels_names keys)) ->
    keys_to_properties_with move p t keys sort = keys_to_properties p t keys sort.
Proof. exact keys_to_properties_numpy. Qed.
Print Assumptions C88_keys_to_properties_numpy_partial.

Example C88_example :
  follows_numpy ex_rules /\ acts_as_numpy ex_rules 4 ex_move /\ (exists o i s, ex_move o i s 0 1 <> array_move_samples_from o i s 0 1)
  /\ wf_tensor ex_np_tensor /\ numpy_tensor 4 ex_np_tensor
  /\ (forall variables, agreeing_groups ex_np_tensor variables) /\ wf_labels ex_moved_keys
  /\ (exists t, keys_to_samples_with ex_move Release ex_np_tensor ex_moved_keys true = (t, Ok tt)
       /\ map (fun b => nd_data (a_nd (bb_data (tb_values b)))) (tm_blocks t)
          = [[106; 107; 108; 109; 110; 111; 300; 301; 302; 303; 304; 305; 100; 101; 102; 103; 104; 105;
              306; 307; 308; 309; 310; 311; 312; 313; 314; 315; 316; 317]%Z])
  /\ exists t, keys_to_properties_with ex_move Release ex_np_tensor ex_moved_keys true = (t, Ok tt)
       /\ map (fun b => shape_of (bb_data (tb_values b))) (tm_blocks t) = [[4; 2; 6]].
Proof.
  split; [exact ex_follows|]. split; [exact ex_move_acts|]. split; [exact ex_move_differs|]. split; [exact ex_np_tensor_wf|].
  split; [exact ex_np_tensor_numpy|]. split; [exact ex_np_agreeing|]. split; [apply ex_labels_wf|].
  split; eexists; split; vm_compute; reflexivity.
Qed.

(* C88 is false in Release, if gradients have other components: there is an
   exception of numpy where other arrays can be merged *)
Theorem C88_components_refuted :
  exists f origin p t keys sort t' e,
    follows_numpy f /\ acts_as_numpy f origin (numpy_move f) /\ wf_tensor t /\ numpy_tensor origin t /\ wf_labels keys
    /\ keys_to_samples p t keys sort = (t', Ok tt) /\ snd (keys_to_samples_with (numpy_move f) p t keys sort) = Err e.
Proof. exact components_not_same. Qed.
Print Assumptions C88_components_refuted.
