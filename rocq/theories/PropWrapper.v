(* Properties C127-C129: the shape of arrays which are changed in Python *)
From Verif Require Import Base Array Strided Spec SpecTensor Numpy ExamplesNumpy Wrapper SpecWrapper WrapperFacts ExamplesWrapper.
Local Open Scope list_scope.
Local Open Scope nat_scope.

(* C127. The full statement is for all programs. It is false: see the theorem below. *)
Theorem C127_same_shape_partial :
  forall view events w o,
    keeps_the_order view -> never_sets_shapes events -> keeps_item_sizes view events ->
    array_is (wrapper_run view events) w o ->
    asked view (wrapper_run view events) (AskShape w) = ShapeIs (ob_shape o).
Proof. exact same_shape. Qed.
Print Assumptions C127_same_shape_partial.

Example C127_example :
  keeps_the_order ex_view /\ never_sets_shapes ex_wrapping /\ keeps_item_sizes ex_view ex_wrapping
  /\ array_is (wrapper_run ex_view ex_wrapping) 0 (mk_object 0 0 [2; 4; 3] [96; 8; 32]%Z Double)
  /\ array_is (wrapper_run ex_view ex_wrapping) 1 (mk_object 0 0 [4; 3] [24; 8]%Z Double)
  /\ array_is (wrapper_run ex_view ex_wrapping) 2 (mk_object 1 0 [2; 12] [96; 8]%Z Double).
Proof.
  split; [exact ex_view_order|]. split; [exact ex_wrapping_never|]. split; [exact ex_wrapping_sizes|]. exact ex_wrapping_arrays.
Qed.

(* C127 is false after array.shape = ... *)
Theorem C127_refuted :
  exists view events w o,
    keeps_the_order view /\ keeps_item_sizes view events /\ array_is (wrapper_run view events) w o
    /\ asked view (wrapper_run view events) (AskShape w) <> ShapeIs (ob_shape o).
Proof. exact shape_not_followed. Qed.
Print Assumptions C127_refuted.

(* C128: the elements in Python are the ones at the pointer given to the library *)
Theorem C128_data_of_the_array :
  forall view events w buffer start,
    keeps_the_order view -> asked view (wrapper_run view events) (AskData w) = PointerTo buffer start ->
    exists o, array_is (wrapper_run view events) w o
      /\ forall idx, in_bounds (ob_shape o) idx ->
         let place := (start + 8 * Z.of_nat (offset (ob_shape o) idx))%Z in
         ob_buffer o = buffer /\ ob_address o idx = place /\ bytes_exist (wrapper_run view events) buffer place 8.
Proof. exact data_read. Qed.
Print Assumptions C128_data_of_the_array.

(* C128: what the library reads, with the shape it knows. The full statement is for
   all programs. It is false: see the theorem below. *)
Theorem C128_reads_the_array_partial :
  forall view events w buffer start shape,
    keeps_the_order view -> keeps_item_sizes view events ->
    asked view (wrapper_run view events) (AskData w) = PointerTo buffer start ->
    asked view (wrapper_run view events) (AskShape w) = ShapeIs shape ->
    exists o, array_is (wrapper_run view events) w o /\ ob_buffer o = buffer
      /\ forall k, k < prod shape ->
         bytes_exist (wrapper_run view events) buffer (start + 8 * Z.of_nat k) 8
         /\ exists idx, in_bounds (ob_shape o) idx /\ offset (ob_shape o) idx = k
            /\ ob_address o idx = (start + 8 * Z.of_nat k)%Z.
Proof. exact data_inside. Qed.
Print Assumptions C128_reads_the_array_partial.

Example C128_example :
  keeps_the_order ex_view /\ keeps_item_sizes ex_view ex_wrapping
  /\ map (fun w => asked ex_view (wrapper_run ex_view ex_wrapping) (AskData w)) [0; 1; 2] = [Raised; PointerTo 0 0; PointerTo 1 0]
  /\ map (fun w => asked ex_view (wrapper_run ex_view ex_wrapping) (AskShape w)) [0; 1; 2]
     = [ShapeIs [2; 4; 3]; ShapeIs [4; 3]; ShapeIs [2; 12]].
Proof. split; [exact ex_view_order|]. split; [exact ex_wrapping_sizes|]. exact ex_wrapping_answers. Qed.

(* C128: after array.dtype = ..., the library can read after the end of the array *)
Theorem C128_refuted :
  exists view events w buffer start shape k,
    keeps_the_order view /\ never_sets_shapes events
    /\ asked view (wrapper_run view events) (AskData w) = PointerTo buffer start
    /\ asked view (wrapper_run view events) (AskShape w) = ShapeIs shape
    /\ k < prod shape /\ ~ bytes_exist (wrapper_run view events) buffer (start + 8 * Z.of_nat k) 8.
Proof. exact data_outside. Qed.
Print Assumptions C128_refuted.

(* C129 *)
Theorem C129_shape_stays :
  forall view h e w shape,
    asked view h (AskShape w) = ShapeIs shape -> ~ gives_another_array e w ->
    asked view (then_heap view h e) (AskShape w) = ShapeIs shape.
Proof. exact shape_stays. Qed.
Print Assumptions C129_shape_stays.

Theorem C129_wrapped :
  forall view h i o,
    nth_error (hp_objects h) i = Some o ->
    asked view (then_heap view h (Wrap i)) (AskShape (length (hp_wrappers h))) = ShapeIs (ob_shape o).
Proof. exact wrap_shape. Qed.
Print Assumptions C129_wrapped.

Theorem C129_created :
  forall view h w shape,
    asked view h (DoCreate w shape) = Finished ->
    asked view (then_heap view h (DoCreate w shape)) (AskShape (length (hp_wrappers h))) = ShapeIs shape
    /\ exists o, array_is (then_heap view h (DoCreate w shape)) (length (hp_wrappers h)) o /\ ob_shape o = shape.
Proof. exact create_shape. Qed.
Print Assumptions C129_created.

Theorem C129_copied :
  forall view h w o,
    array_is h w o ->
    asked view (then_heap view h (DoCopy w)) (AskShape (length (hp_wrappers h))) = ShapeIs (ob_shape o)
    /\ exists o', array_is (then_heap view h (DoCopy w)) (length (hp_wrappers h)) o'
       /\ ob_shape o' = ob_shape o /\ ob_type o' = ob_type o /\ ob_buffer o' = length (hp_sizes h).
Proof. exact copy_shape. Qed.
Print Assumptions C129_copied.

Theorem C129_reshaped :
  forall view h w shape,
    asked view h (DoReshape w shape) = Finished ->
    asked view (then_heap view h (DoReshape w shape)) (AskShape w) = ShapeIs shape.
Proof. exact reshape_shape. Qed.
Print Assumptions C129_reshaped.

(* C129. The full statement is for all programs. It is false: see the theorem below. *)
Theorem C129_swapped_partial :
  forall view events w x y shape,
    keeps_the_order view -> never_sets_shapes events -> keeps_item_sizes view events ->
    asked view (wrapper_run view events) (AskShape w) = ShapeIs shape ->
    asked view (wrapper_run view events) (DoSwapAxes w x y) = Finished ->
    exists shape', asked view (then_heap view (wrapper_run view events) (DoSwapAxes w x y)) (AskShape w) = ShapeIs shape'
      /\ exchanged x y shape shape'.
Proof. exact swap_shape. Qed.
Print Assumptions C129_swapped_partial.

Example C129_example :
  let h := wrapper_run ex_view ex_wrapping in
  asked ex_view h (AskShape 0) = ShapeIs [2; 4; 3]
  /\ asked ex_view h (SetShape 1 [2; 6]) = Finished /\ asked ex_view h (SetType 0 (OtherItem 4 0)) = Finished
  /\ asked ex_view h (DoReshape 0 [8; 3]) = Finished /\ asked ex_view h (DoCreate 0 [5; 2]) = Finished
  /\ length (hp_wrappers h) = 3
  /\ asked ex_view h (DoSwapAxes 0 0 1) = Finished
  /\ asked ex_view (then_heap ex_view h (DoSwapAxes 0 0 1)) (AskShape 0) = ShapeIs [4; 2; 3].
Proof. vm_compute. repeat split. Qed.

Theorem C129_swapped_refuted :
  exists view events w x y shape,
    keeps_the_order view /\ keeps_item_sizes view events
    /\ asked view (wrapper_run view events) (AskShape w) = ShapeIs shape
    /\ asked view (wrapper_run view events) (DoSwapAxes w x y) = Finished
    /\ exists shape', asked view (then_heap view (wrapper_run view events) (DoSwapAxes w x y)) (AskShape w) = ShapeIs shape'
       /\ ~ exchanged x y shape shape'.
Proof. exact swap_not_known. Qed.
Print Assumptions C129_swapped_refuted.
