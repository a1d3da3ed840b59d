(* Properties C30, C31, C49 and C50: calls which can not succeed *)
From Coq Require Import Permutation.
From Verif Require Import Base Labels Array Block Tensor Spec SpecTensor LabelsFacts BlockFacts TensorFacts MovedFacts ComponentsFacts DefinedFacts Examples ExamplesMoved ExamplesRefuted.
Local Open Scope string_scope.
Local Open Scope list_scope.
Local Open Scope nat_scope.

(* C30 is false: the sample index of gradients is not checked when they are
   added, and out of range indices panic in both functions *)
Theorem C30_out_of_range_gradient_samples_refuted :
  exists p t keys sort t' m,
    accepted t /\ wf_labels keys /\ labels_names keys <> []
    /\ ~ Forall gradient_samples_in_range (tm_blocks t)
    /\ keys_to_samples p t keys sort = (t', Panic m).
Proof. exact ex_range_panics. Qed.
Print Assumptions C30_out_of_range_gradient_samples_refuted.

Theorem C30_out_of_range_gradient_samples_properties_refuted :
  exists p t keys sort t' m,
    accepted t /\ wf_labels keys /\ labels_names keys <> []
    /\ ~ Forall gradient_samples_in_range (tm_blocks t)
    /\ keys_to_properties p t keys sort = (t', Panic m).
Proof. exact ex_range_panics_properties. Qed.
Print Assumptions C30_out_of_range_gradient_samples_properties_refuted.

(* C30 is false: moving keys to properties panics when a block has no property *)
Theorem C30_no_property_refuted :
  exists p t keys sort t' m b,
    accepted t /\ wf_labels keys /\ labels_names keys <> []
    /\ In b (tm_blocks t) /\ rows (bb_properties (tb_values b)) = []
    /\ keys_to_properties p t keys sort = (t', Panic m).
Proof. exact ex_no_property_panics. Qed.
Print Assumptions C30_no_property_refuted.

(* C30 is false: a moved variable can have the name of a sample variable *)
Theorem C30_shared_name_refuted :
  exists p t keys sort t' m b n,
    accepted t /\ wf_labels keys
    /\ In b (tm_blocks t) /\ In n (labels_names keys) /\ In n (labels_names (bb_samples (tb_values b)))
    /\ keys_to_samples p t keys sort = (t', Panic m).
Proof. exact ex_shared_panics. Qed.
Print Assumptions C30_shared_name_refuted.

(* C30 is false: a tensor map without block *)
Theorem C30_no_block_refuted :
  exists p t keys sort t' m,
    accepted t /\ wf_labels keys /\ labels_names keys <> [] /\ tm_blocks t = []
    /\ keys_to_samples p t keys sort = (t', Panic m).
Proof. exact ex_no_block_panics. Qed.
Print Assumptions C30_no_block_refuted.

(* C30 is false: no variable to move *)
Theorem C30_no_variable_refuted :
  exists p t keys sort t' m,
    accepted t /\ wf_labels keys /\ labels_names keys = []
    /\ keys_to_samples p t keys sort = (t', Panic m).
Proof. exact ex_no_variable_panics. Qed.
Print Assumptions C30_no_variable_refuted.

(* C31: in debug builds, a success implies that the gradient components of the
   merged blocks were the same.
   Missing from the property: release builds, for which it is false, see the two
   following theorems *)
Theorem C31_debug_samples_refuses_mixed_components_partial :
  forall p t keys sort t',
    wf_tensor t -> keys_to_samples p t keys sort = (t', Ok tt) ->
    p = Debug -> agreeing_groups t (labels_names keys).
Proof. exact keys_to_samples_agreeing. Qed.
Print Assumptions C31_debug_samples_refuses_mixed_components_partial.

Theorem C31_debug_properties_refuses_mixed_components_partial :
  forall p t keys sort t',
    wf_tensor t -> wf_labels keys ->
    rows keys = [] -> keys_to_properties p t keys sort = (t', Ok tt) ->
    p = Debug -> agreeing_groups t (labels_names keys).
Proof. exact keys_to_properties_agreeing. Qed.
Print Assumptions C31_debug_properties_refuses_mixed_components_partial.

(* C31 is false in release builds: the call succeeds, and a gradient is not
   found anywhere under its component anymore *)
Theorem C31_release_samples_refuted :
  exists t keys sort t' key q s rest cs pr v,
    accepted t /\ wf_labels keys
    /\ keys_to_samples Release t keys sort = (t', Ok tt)
    /\ tensor_gradient_value t key q s rest cs pr v
    /\ (forall e s' v', ~ tensor_gradient_value t' e q s' rest cs pr v').
Proof. exact ex_mixed_samples_release. Qed.
Print Assumptions C31_release_samples_refuted.

Theorem C31_release_properties_refuted :
  exists t keys sort t' key q s rest cs pr v,
    accepted t /\ wf_labels keys
    /\ keys_to_properties Release t keys sort = (t', Ok tt)
    /\ tensor_gradient_value t key q s rest cs pr v
    /\ (forall e pr' v', ~ tensor_gradient_value t' e q s rest cs pr' v').
Proof. exact ex_mixed_properties_release. Qed.
Print Assumptions C31_release_properties_refuted.

Example C31_example :
  wf_tensor ex_tensor /\ keys_to_samples Debug ex_tensor (ex_labels ["center"] []) true = (ex_to_samples, Ok tt)
  /\ agreeing_groups ex_tensor ["center"]
  /\ (exists m, snd (keys_to_samples Debug ex_mixed_map ex_move_k true) = Panic m).
Proof.
  split; [apply ex_tensor_wf|]. split; [apply ex_to_samples_ok|]. split; [apply ex_agreeing|apply ex_mixed_debug].
Qed.

(* C49 is false: when the sizes do not match, the whole data is lost *)
Theorem C49_failed_reshape_loses_data_refuted :
  exists a shape a' e,
    a_kind a = RustNdarray /\ wf_array a /\ array_reshape a shape = (a', Err e)
    /\ (exists idx v, element a idx v) /\ (forall idx v, ~ element a' idx v).
Proof. exact ex_reshape_loses. Qed.
Print Assumptions C49_failed_reshape_loses_data_refuted.

(* C49: the call fails exactly when the sizes do not match; otherwise all the
   elements are kept, in row-major order.
   Missing from the property: what happens to the array after a failure, for
   which it is false, see above *)
Theorem C49_reshape_keeps_elements_partial :
  forall a shape,
    a_kind a = RustNdarray -> wf_array a -> volume shape = volume (shape_of a) ->
    exists a', array_reshape a shape = (a', Ok tt) /\ shape_of a' = shape
      /\ forall idx idx' v, in_bounds (shape_of a) idx -> in_bounds shape idx' ->
           offset (shape_of a) idx = offset shape idx' -> (element a idx v <-> element a' idx' v).
Proof. exact reshape_same_volume. Qed.
Print Assumptions C49_reshape_keeps_elements_partial.

Theorem C49_other_sizes_are_refused :
  forall a shape,
    a_kind a = RustNdarray -> wf_array a -> volume shape <> volume (shape_of a) ->
    exists a' e, array_reshape a shape = (a', Err e).
Proof. exact reshape_other_volume. Qed.
Print Assumptions C49_other_sizes_are_refused.

Example C49_example :
  a_kind (ex_array [2; 3] 10) = RustNdarray /\ wf_array (ex_array [2; 3] 10)
  /\ volume [3; 2] = volume (shape_of (ex_array [2; 3] 10))
  /\ offset [2; 3] [1; 0] = offset [3; 2] [1; 1]
  /\ element (ex_array [2; 3] 10) [1; 0] 13
  /\ element (fst (array_reshape (ex_array [2; 3] 10) [3; 2])) [1; 1] 13.
Proof.
  split; [reflexivity|]. split; [apply Examples.ex_array_wf|]. split; [reflexivity|]. split; [reflexivity|].
  split; (split; [apply bounded_in_bounds; reflexivity|vm_compute; reflexivity]).
Qed.

(* C50 is false: TensorMap::new accepts blocks from different origins, which are
   then given to the code of another origin *)
Theorem C50_different_origins_refuted :
  exists p t keys sort t' r b1 b2,
    accepted t /\ wf_labels keys
    /\ In b1 (tm_blocks t) /\ In b2 (tm_blocks t)
    /\ array_origin (bb_data (tb_values b1)) <> array_origin (bb_data (tb_values b2))
    /\ keys_to_samples p t keys sort = (t', Undefined r).
Proof. exact ex_origins_undefined. Qed.
Print Assumptions C50_different_origins_refuted.

(* C50: when all the blocks have the same origin, no code is ever given an array
   from another origin: not by the values, the gradients or the new arrays.
   Missing from the property: tensor maps with several origins, see above *)
Theorem C50_same_origin_samples_partial :
  forall p t keys sort t' r,
    wf_tensor t -> (forall b1 b2, In b1 (tm_blocks t) -> In b2 (tm_blocks t) ->
      a_kind (bb_data (tb_values b1)) = a_kind (bb_data (tb_values b2))) ->
    keys_to_samples p t keys sort <> (t', Undefined r).
Proof. exact keys_to_samples_defined. Qed.
Print Assumptions C50_same_origin_samples_partial.

Theorem C50_same_origin_properties_partial :
  forall p t keys sort t' r,
    wf_tensor t -> (forall b1 b2, In b1 (tm_blocks t) -> In b2 (tm_blocks t) ->
      a_kind (bb_data (tb_values b1)) = a_kind (bb_data (tb_values b2))) ->
    keys_to_properties p t keys sort <> (t', Undefined r).
Proof. exact keys_to_properties_defined. Qed.
Print Assumptions C50_same_origin_properties_partial.

Example C50_example :
  wf_tensor ex_tensor
  /\ (forall b1 b2, In b1 (tm_blocks ex_tensor) -> In b2 (tm_blocks ex_tensor) ->
        a_kind (bb_data (tb_values b1)) = a_kind (bb_data (tb_values b2)))
  /\ length (tm_blocks ex_tensor) = 3.
Proof. split; [apply ex_tensor_wf|]. split; [apply ex_same_kind|vm_compute; reflexivity]. Qed.
