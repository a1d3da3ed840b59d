(* Properties C27-C29: moving components to the properties *)
From Coq Require Import Permutation.
From Verif Require Import Base Labels Array Block Tensor Spec SpecTensor LabelsFacts BlockFacts TensorFacts MovedFacts ComponentsFacts Examples ExamplesMoved ExamplesComponents.
Local Open Scope string_scope.
Local Open Scope list_scope.
Local Open Scope nat_scope.

(* C27: the values are found under the same labels, the moved component being
   the first variable of the properties, and nothing else is there.
   Missing from the property: components which are not among the last two, for
   which it is false, see [C27_first_of_three_components_refuted] *)
Theorem C27_components_keep_values_partial :
  forall t name t',
    wf_tensor t -> components_to_properties t [name] = (t', Ok tt) ->
    (forall b, In b (tm_blocks t) -> a_kind (bb_data (tb_values b)) <> RustEmptyArray) ->
    (forall b, In b (tm_blocks t) -> among_last_two (tb_values b) name) ->
    forall key s cs' pr' v,
      tensor_entry t' key s cs' pr' v <->
      exists b cs1 xv cs2 pr, block_of t key b /\ component_at (tb_values b) name (length cs1)
        /\ cs' = cs1 ++ cs2 /\ pr' = xv ++ pr /\ entry (tb_values b) s (cs1 ++ xv :: cs2) pr v.
Proof. exact components_values. Qed.
Print Assumptions C27_components_keep_values_partial.

(* C27: the same for all the gradients *)
Theorem C27_components_keep_gradients_partial :
  forall t name t',
    wf_tensor t -> components_to_properties t [name] = (t', Ok tt) ->
    (forall b, In b (tm_blocks t) -> a_kind (bb_data (tb_values b)) <> RustEmptyArray) ->
    (forall b, In b (tm_blocks t) -> among_last_two (tb_values b) name) ->
    forall key q s rest cs' pr' v,
      tensor_gradient_value t' key q s rest cs' pr' v <->
      exists b i g cs1 xv cs2 pr, block_of t key b /\ In (q, g) (tb_gradients b)
        /\ nth_error (rows (bb_samples (tb_values b))) i = Some s
        /\ component_at g name (length cs1)
        /\ cs' = cs1 ++ cs2 /\ pr' = xv ++ pr /\ entry g (Z.of_nat i :: rest) (cs1 ++ xv :: cs2) pr v.
Proof. exact components_gradients. Qed.
Print Assumptions C27_components_keep_gradients_partial.

(* C27: the keys, samples and other components do not change. The properties
   are all the pairs of moved entry and old property, in this order. This holds
   for all components *)
Theorem C27_components_labels :
  forall t name t',
    wf_tensor t -> components_to_properties t [name] = (t', Ok tt) ->
    tm_keys t' = tm_keys t
    /\ forall key b', block_of t' key b' ->
       exists b pre x post, block_of t key b
         /\ bb_components (tb_values b) = pre ++ x :: post /\ labels_names x = [name]
         /\ bb_samples (tb_values b') = bb_samples (tb_values b)
         /\ bb_components (tb_values b') = pre ++ post
         /\ labels_names (bb_properties (tb_values b')) = name :: labels_names (bb_properties (tb_values b))
         /\ rows (bb_properties (tb_values b'))
            = flat_map (fun xv => map (app xv) (rows (bb_properties (tb_values b)))) (rows x).
Proof. exact components_names. Qed.
Print Assumptions C27_components_labels.

(* C27 is false for the first of three components: the value ends up under the
   labels of another one *)
Theorem C27_first_of_three_components_refuted :
  exists t name t' key b s cs1 xv cs2 pr v v',
    wf_tensor t /\ components_to_properties t [name] = (t', Ok tt)
    /\ block_of t key b /\ component_at (tb_values b) name (length cs1)
    /\ a_kind (bb_data (tb_values b)) = RustNdarray
    /\ entry (tb_values b) s (cs1 ++ xv :: cs2) pr v
    /\ tensor_entry t' key s (cs1 ++ cs2) (xv ++ pr) v' /\ v' <> v.
Proof. exact ex_component_mislabelled. Qed.
Print Assumptions C27_first_of_three_components_refuted.

Example C27_example :
  wf_tensor ex_tensor /\ components_to_properties ex_tensor ["xyz"] = (ex_components_moved, Ok tt)
  /\ (forall b, In b (tm_blocks ex_tensor) -> a_kind (bb_data (tb_values b)) <> RustEmptyArray)
  /\ (forall b, In b (tm_blocks ex_tensor) -> among_last_two (tb_values b) "xyz")
  /\ tensor_entry ex_tensor [8; 0; 4]%Z [1]%Z [[1]%Z] [3; 1]%Z 505
  /\ tensor_entry ex_components_moved [8; 0; 4]%Z [1]%Z [] [1; 3; 1]%Z 505
  /\ tensor_gradient_value ex_tensor [1; 0; 4]%Z "positions" [2]%Z [6]%Z [[2]; [1]]%Z [0; 1]%Z 234
  /\ tensor_gradient_value ex_components_moved [1; 0; 4]%Z "positions" [2]%Z [6]%Z [[2]]%Z [1; 0; 1]%Z 234.
Proof.
  split; [apply ex_tensor_wf|]. split; [apply ex_components_moved_ok|]. split; [apply ex_not_empty|].
  split; [apply ex_among_last_two|].
  split; [apply (show_entry _ 2 [0; 1; 2]); vm_compute; auto 20|].
  split; [apply (show_entry _ 2 [0; 5]); vm_compute; auto 20|].
  split; [apply (show_gradient _ 0 1 0 [2; 1; 1; 1]); vm_compute; auto 20|].
  apply (show_gradient _ 0 1 0 [2; 1; 4]); vm_compute; auto 20.
Qed.

(* the last but one of three components *)
Example C27_example_middle :
  wf_tensor ex_three /\ components_to_properties ex_three ["y"] = (ex_three_moved_y, Ok tt)
  /\ among_last_two (tb_values ex_three_components) "y"
  /\ tensor_entry ex_three [0]%Z [0]%Z [[1]; [0]; [1]]%Z [0]%Z 5
  /\ tensor_entry ex_three_moved_y [0]%Z [0]%Z [[1]; [1]]%Z [0; 0]%Z 5.
Proof.
  split; [apply ex_three_wf|]. split; [vm_compute; reflexivity|].
  split; [exists 1; split; [vm_compute; reflexivity|vm_compute; auto]|].
  split; [apply (show_entry _ 0 [0; 1; 0; 1; 0]); vm_compute; auto 20|].
  apply (show_entry _ 0 [0; 1; 1; 0]); vm_compute; auto 20.
Qed.

(* C28: for arrays which react to all calls, and without name shared between
   the moved component and the properties, the call succeeds or returns an error
   and changes nothing.
   Missing from the property: arrays which fail and shared names, for which it
   is false, see the two following theorems *)
Theorem C28_components_all_or_nothing_partial :
  forall t variables,
    wf_tensor t -> Forall responsive_block (tm_blocks t) ->
    (forall b n, In b (tm_blocks t) -> In n variables -> ~ In n (labels_names (bb_properties (tb_values b)))) ->
    (exists t', components_to_properties t variables = (t', Ok tt))
    \/ exists m, components_to_properties t variables = (t, Err (InvalidParameter m)).
Proof. exact components_all_or_nothing. Qed.
Print Assumptions C28_components_all_or_nothing_partial.

(* C28: when the call succeeds *)
Theorem C28_components_found_succeeds_partial :
  forall t variables,
    wf_tensor t -> Forall responsive_block (tm_blocks t) ->
    (forall b, In b (tm_blocks t) -> In variables (map labels_names (bb_components (tb_values b)))) ->
    (forall b n, In b (tm_blocks t) -> In n variables -> ~ In n (labels_names (bb_properties (tb_values b)))) ->
    exists t', components_to_properties t variables = (t', Ok tt).
Proof. exact components_succeeds. Qed.
Print Assumptions C28_components_found_succeeds_partial.

(* C28: unknown components are refused, whatever the arrays do *)
Theorem C28_unknown_component_changes_nothing :
  forall t variables,
    wf_tensor t -> variables <> [] -> tm_blocks t <> [] ->
    (forall b, In b (tm_blocks t) -> ~ In variables (map labels_names (bb_components (tb_values b)))) ->
    exists m, components_to_properties t variables = (t, Err (InvalidParameter m)).
Proof. exact components_missing. Qed.
Print Assumptions C28_unknown_component_changes_nothing.

(* C28 is false when a property has the name of the moved component: the call
   panics, after the component was removed *)
Theorem C28_shared_name_refuted :
  exists t variables t' m,
    wf_tensor t /\ Forall responsive_block (tm_blocks t)
    /\ components_to_properties t variables = (t', Panic m) /\ t' <> t /\ ~ wf_tensor t'.
Proof. exact ex_component_panic. Qed.
Print Assumptions C28_shared_name_refuted.

(* C28 is false when the array refuses to be reshaped: the call returns an error,
   after the component was removed *)
Theorem C28_failing_array_refuted :
  exists t variables t' e,
    wf_tensor t /\ components_to_properties t variables = (t', Err e) /\ t' <> t /\ ~ wf_tensor t'.
Proof. exact ex_component_error. Qed.
Print Assumptions C28_failing_array_refuted.

Example C28_example :
  wf_tensor ex_tensor /\ Forall responsive_block (tm_blocks ex_tensor)
  /\ components_to_properties ex_tensor ["xyz"] = (ex_components_moved, Ok tt)
  /\ (exists m, components_to_properties ex_tensor ["cell"] = (ex_tensor, Err (InvalidParameter m))).
Proof.
  split; [apply ex_tensor_wf|]. split; [apply ex_responsive|]. split; [apply ex_components_moved_ok|].
  exists "unable to find [cell] in the components ". vm_compute. reflexivity.
Qed.

(* C29: after a success the shapes agree with the labels and the gradients have
   the properties of the values, whichever component was moved *)
Theorem C29_components_keep_invariant :
  forall t variables t',
    wf_tensor t -> components_to_properties t variables = (t', Ok tt) ->
    wf_tensor t' /\ (forall b' q g', In b' (tm_blocks t') -> In (q, g') (tb_gradients b') ->
                       bb_properties g' = bb_properties (tb_values b')).
Proof. exact components_wf. Qed.
Print Assumptions C29_components_keep_invariant.

Example C29_example :
  wf_tensor ex_tensor /\ components_to_properties ex_tensor ["xyz"] = (ex_components_moved, Ok tt)
  /\ map (fun b => length (rows (bb_properties (tb_values b)))) (tm_blocks ex_components_moved) = [6; 6; 6].
Proof. split; [apply ex_tensor_wf|]. split; [apply ex_components_moved_ok|]. vm_compute. reflexivity. Qed.
