(* Property C27, for components at any position: where the elements are found *)
From Verif Require Import Base Labels Block Tensor Spec SpecTensor Array Examples ExamplesComponents SpecComponents ComponentsExactFacts ExamplesComponentsExact.
Local Open Scope string_scope.
Local Open Scope list_scope.
Local Open Scope nat_scope.

(* C27 as it is: the entries of the components after the moved one are exchanged *)
Theorem C27_where_values_are : forall t name t',
  wf_tensor t -> components_to_properties t [name] = (t', Ok tt) ->
  (forall b, In b (tm_blocks t) -> a_kind (bb_data (tb_values b)) <> RustEmptyArray) ->
  forall key s cs' pr' v,
    tensor_entry t' key s cs' pr' v <->
    exists b cs1 xv cs2 found pr, block_of t key b /\ component_at (tb_values b) name (length cs1)
      /\ found_as (components_after (tb_values b) (length cs1)) cs2 found
      /\ cs' = cs1 ++ found /\ pr' = xv ++ pr /\ entry (tb_values b) s (cs1 ++ xv :: cs2) pr v.
Proof. exact exact_values. Qed.
Print Assumptions C27_where_values_are.

Theorem C27_where_gradients_are : forall t name t',
  wf_tensor t -> components_to_properties t [name] = (t', Ok tt) ->
  (forall b, In b (tm_blocks t) -> a_kind (bb_data (tb_values b)) <> RustEmptyArray) ->
  forall key q s rest cs' pr' v,
    tensor_gradient_value t' key q s rest cs' pr' v <->
    exists b i g cs1 xv cs2 found pr, block_of t key b /\ In (q, g) (tb_gradients b)
      /\ nth_error (rows (bb_samples (tb_values b))) i = Some s
      /\ component_at g name (length cs1) /\ found_as (components_after g (length cs1)) cs2 found
      /\ cs' = cs1 ++ found /\ pr' = xv ++ pr /\ entry g (Z.of_nat i :: rest) (cs1 ++ xv :: cs2) pr v.
Proof. exact exact_gradients. Qed.
Print Assumptions C27_where_gradients_are.

(* the labels are right when the last component has one entry, or when those between the
   moved one and the last one have (the moved component is one of the last two, or they
   all have one entry). Missing from the property: the other cases *)
Theorem C27_right_labels_partial : forall t name t',
  wf_tensor t -> components_to_properties t [name] = (t', Ok tt) ->
  (forall b, In b (tm_blocks t) -> a_kind (bb_data (tb_values b)) <> RustEmptyArray) ->
  (forall b i, In b (tm_blocks t) -> component_at (tb_values b) name i -> nothing_exchanged (components_after (tb_values b) i)) ->
  forall key s cs' pr' v,
    tensor_entry t' key s cs' pr' v <->
    exists b cs1 xv cs2 pr, block_of t key b /\ component_at (tb_values b) name (length cs1)
      /\ cs' = cs1 ++ cs2 /\ pr' = xv ++ pr /\ entry (tb_values b) s (cs1 ++ xv :: cs2) pr v.
Proof. exact right_labels. Qed.
Print Assumptions C27_right_labels_partial.

(* in all the other cases, something is under wrong labels *)
Theorem C27_wrong_labels : forall t name t' key b i,
  wf_tensor t -> components_to_properties t [name] = (t', Ok tt) ->
  (forall b, In b (tm_blocks t) -> a_kind (bb_data (tb_values b)) <> RustEmptyArray) ->
  block_of t key b -> Forall (fun l => rows l <> []) (axes (tb_values b)) ->
  component_at (tb_values b) name i -> ~ nothing_exchanged (components_after (tb_values b) i) ->
  exists s cs1 xv cs2 found pr v, length cs1 = i /\ entry (tb_values b) s (cs1 ++ xv :: cs2) pr v
    /\ tensor_entry t' key s (cs1 ++ found) (xv ++ pr) v /\ found <> cs2.
Proof. exact wrong_labels. Qed.
Print Assumptions C27_wrong_labels.

Example C27_example_exchanged :
  wf_tensor ex_exchanged /\ components_to_properties ex_exchanged ["x"] = (ex_exchanged_moved, Ok tt)
  /\ (forall b, In b (tm_blocks ex_exchanged) -> a_kind (bb_data (tb_values b)) <> RustEmptyArray)
  /\ (component_at (tb_values ex_exchanged_block) "x" 0 /\ components_after (tb_values ex_exchanged_block) 0 = [ex_y; ex_z])
  /\ found_as [ex_y; ex_z] [[1]; [0]]%Z [[0]; [1]]%Z /\ ~ nothing_exchanged [ex_y; ex_z]
  /\ Forall (fun l => rows l <> []) (axes (tb_values ex_exchanged_block))
  /\ tensor_entry ex_exchanged [0]%Z [0]%Z [[1]; [1]; [0]]%Z [0]%Z 9
  /\ tensor_entry ex_exchanged_moved [0]%Z [0]%Z [[0]; [1]]%Z [1; 0]%Z 9.
Proof.
  exact (conj ex_exchanged_wf (conj ex_exchanged_ok (conj ex_exchanged_kind (conj ex_exchanged_at (conj ex_found
    (conj ex_exchanged_some (conj ex_exchanged_axes (conj ex_exchanged_before ex_exchanged_after)))))))).
Qed.

Example C27_example_kept :
  wf_tensor ex_kept /\ components_to_properties ex_kept ["x"] = (ex_kept_moved, Ok tt)
  /\ (forall b i, In b (tm_blocks ex_kept) -> component_at (tb_values b) "x" i -> nothing_exchanged (components_after (tb_values b) i))
  /\ tensor_entry ex_kept [0]%Z [0]%Z [[1]; [7]; [2]]%Z [0]%Z 5
  /\ tensor_entry ex_kept_moved [0]%Z [0]%Z [[7]; [2]]%Z [1; 0]%Z 5.
Proof. exact (conj ex_kept_wf (conj ex_kept_ok (conj ex_kept_at (conj ex_kept_before ex_kept_after)))). Qed.
