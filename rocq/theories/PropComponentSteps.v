(* Property C141: moving both keys and components *)
From Verif Require Import Base Labels Array Block Tensor Spec SpecTensor ComponentStepsFacts Examples ExamplesMoved ExamplesComponents ExamplesSteps ExamplesComponentSteps.
Local Open Scope string_scope.
Local Open Scope list_scope.
Local Open Scope nat_scope.

(* C141: moving keys to the samples and a component to the properties gives the
   same keys, values and gradients in either order, if both orders are accepted.
   This is for all components, also those which end up under wrong labels (C27).
   Missing from the property: that both orders are accepted, which is false, see
   [C141_other_order_refuted] *)
Theorem C141_samples_and_components_partial :
  forall p t ta tac tc tca k name sort1 sort2,
    wf_tensor t ->
    (forall b, In b (tm_blocks t) -> a_kind (bb_data (tb_values b)) <> RustEmptyArray) ->
    keys_to_samples p t k sort1 = (ta, Ok tt) -> components_to_properties ta [name] = (tac, Ok tt) ->
    components_to_properties t [name] = (tc, Ok tt) -> keys_to_samples p tc k sort2 = (tca, Ok tt) ->
    same_labels (tm_keys tac) (tm_keys tca)
    /\ (forall e s cs pr v, tensor_entry tac e s cs pr v <-> tensor_entry tca e s cs pr v)
    /\ (forall e q s rest, tensor_gradient_sample tac e q s rest <-> tensor_gradient_sample tca e q s rest)
    /\ (p = Debug \/ agreeing_groups t (labels_names k) ->
        forall e q s rest cs pr v, tensor_gradient_value tac e q s rest cs pr v <-> tensor_gradient_value tca e q s rest cs pr v).
Proof. exact samples_and_components. Qed.
Print Assumptions C141_samples_and_components_partial.

(* C141: the labels of the blocks are the same, whatever their arrays *)
Theorem C141_labels_partial :
  forall p t ta tac tc tca k name sort1 sort2,
    wf_tensor t ->
    keys_to_samples p t k sort1 = (ta, Ok tt) -> components_to_properties ta [name] = (tac, Ok tt) ->
    components_to_properties t [name] = (tc, Ok tt) -> keys_to_samples p tc k sort2 = (tca, Ok tt) ->
    forall e b1 b2, block_of tac e b1 -> block_of tca e b2 ->
      labels_names (bb_samples (tb_values b1)) = labels_names (bb_samples (tb_values b2))
      /\ Forall2 same_labels (bb_components (tb_values b1)) (bb_components (tb_values b2))
      /\ same_labels (bb_properties (tb_values b1)) (bb_properties (tb_values b2)).
Proof. exact samples_and_components_labels. Qed.
Print Assumptions C141_labels_partial.

(* C141: when the samples can be moved first, the component can *)
Theorem C141_components_first_accepted :
  forall p t ta tac k name sort1 sort2,
    workable t -> wf_labels k -> agreeing_groups t (labels_names k) ->
    keys_to_samples p t k sort1 = (ta, Ok tt) -> components_to_properties ta [name] = (tac, Ok tt) ->
    exists tc tca, components_to_properties t [name] = (tc, Ok tt) /\ keys_to_samples p tc k sort2 = (tca, Ok tt).
Proof. exact components_first_accepted. Qed.
Print Assumptions C141_components_first_accepted.

Example C141_example :
  workable ex_tensor /\ wf_tensor ex_tensor /\ wf_labels (st_labels ["center"])
  /\ (forall b, In b (tm_blocks ex_tensor) -> a_kind (bb_data (tb_values b)) <> RustEmptyArray)
  /\ agreeing_groups ex_tensor (labels_names (st_labels ["center"]))
  /\ keys_to_samples Debug ex_tensor (st_labels ["center"]) false = (st_center, Ok tt)
  /\ components_to_properties st_center ["xyz"] = (cs_samples_first, Ok tt)
  /\ components_to_properties ex_tensor ["xyz"] = (ex_components_moved, Ok tt)
  /\ keys_to_samples Debug ex_components_moved (st_labels ["center"]) true = (cs_components_first, Ok tt)
  /\ tensor_entry cs_samples_first [0; 4]%Z [1; 8]%Z [] [1; 3; 1]%Z 505
  /\ tensor_entry cs_components_first [0; 4]%Z [1; 8]%Z [] [1; 3; 1]%Z 505
  /\ tensor_gradient_value cs_samples_first [0; 4]%Z "positions" [2; 1]%Z [6]%Z [[2]%Z] [1; 0; 1]%Z 234
  /\ tensor_gradient_value cs_components_first [0; 4]%Z "positions" [2; 1]%Z [6]%Z [[2]%Z] [1; 0; 1]%Z 234.
Proof.
  split; [apply ex_tensor_workable|]. split; [apply ex_tensor_wf|]. split; [apply ex_labels_wf|]. split; [apply ex_not_empty|]. split; [apply ex_agreeing|].
  split; [apply st_center_ok|]. split; [apply cs_samples_first_ok|]. split; [apply ex_components_moved_ok|]. split; [apply cs_components_first_ok|].
  split; [apply (show_entry _ 0 [2; 5]); vm_compute; auto 20|]. split; [apply (show_entry _ 0 [0; 5]); vm_compute; auto 20|].
  split; [apply (show_gradient _ 0 1 0 [2; 1; 4]); vm_compute; auto 20|]. apply (show_gradient _ 0 1 0 [1; 1; 4]); vm_compute; auto 20.
Qed.

(* C141: the component can be moved first, and the keys can not *)
Theorem C141_other_order_refuted :
  exists p t tc tca k name error,
    workable t /\ wf_labels k /\ agreeing_groups t (labels_names k)
    /\ components_to_properties t [name] = (tc, Ok tt) /\ keys_to_samples p tc k true = (tca, Ok tt)
    /\ keys_to_samples p t k true = (t, Err error).
Proof. exact cs_one_order. Qed.
Print Assumptions C141_other_order_refuted.
