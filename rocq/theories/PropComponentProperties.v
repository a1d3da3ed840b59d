(* Property C142: moving both keys and components to the properties *)
From Verif Require Import Base Labels Array Block Tensor Spec SpecTensor ComponentPropertiesFacts Examples ExamplesMoved ExamplesComponents ExamplesSteps ExamplesComponentProperties.
Local Open Scope string_scope.
Local Open Scope list_scope.
Local Open Scope nat_scope.

(* C142: moving keys and a component to the properties gives the same keys,
   values (also the zeros which fill the new blocks) and gradients in either
   order, if both orders are accepted; what was moved last is first in the
   properties. Missing from the property: that both orders are accepted, which
   is false, see [C142_other_order_refuted], and values requested by rows in the
   labels of the moved variables *)
Theorem C142_properties_and_components_partial :
  forall p t ta tac tc tca k name sort1 sort2,
    wf_tensor t -> wf_labels k -> rows k = [] ->
    (forall b, In b (tm_blocks t) -> a_kind (bb_data (tb_values b)) <> RustEmptyArray) ->
    keys_to_properties p t k sort1 = (ta, Ok tt) -> components_to_properties ta [name] = (tac, Ok tt) ->
    components_to_properties t [name] = (tc, Ok tt) -> keys_to_properties p tc k sort2 = (tca, Ok tt) ->
    same_labels (tm_keys tac) (tm_keys tca)
    /\ (forall e s cs c m pr v, length c = 1 -> length m = length (labels_names k) ->
          (tensor_entry tac e s cs (c ++ m ++ pr) v <-> tensor_entry tca e s cs (m ++ c ++ pr) v))
    /\ (forall e q s rest, tensor_gradient_sample tac e q s rest <-> tensor_gradient_sample tca e q s rest)
    /\ (p = Debug \/ agreeing_groups t (labels_names k) ->
        forall e q s rest cs c m pr v, length c = 1 -> length m = length (labels_names k) ->
          (tensor_gradient_value tac e q s rest cs (c ++ m ++ pr) v <-> tensor_gradient_value tca e q s rest cs (m ++ c ++ pr) v)).
Proof. exact properties_and_components. Qed.
Print Assumptions C142_properties_and_components_partial.

(* C142: the names of the new blocks, which is why the properties above can be
   split in these three parts *)
Theorem C142_names_partial :
  forall p t ta tac tc tca k name sort1 sort2,
    wf_tensor t -> wf_labels k -> rows k = [] ->
    keys_to_properties p t k sort1 = (ta, Ok tt) -> components_to_properties ta [name] = (tac, Ok tt) ->
    components_to_properties t [name] = (tc, Ok tt) -> keys_to_properties p tc k sort2 = (tca, Ok tt) ->
    forall e b1 b2, block_of tac e b1 -> block_of tca e b2 ->
      labels_names (bb_samples (tb_values b1)) = labels_names (bb_samples (tb_values b2))
      /\ Forall2 same_labels (bb_components (tb_values b1)) (bb_components (tb_values b2))
      /\ exists others, labels_names (bb_properties (tb_values b1)) = [name] ++ labels_names k ++ others
                        /\ labels_names (bb_properties (tb_values b2)) = labels_names k ++ [name] ++ others.
Proof. exact properties_and_components_names. Qed.
Print Assumptions C142_names_partial.

(* C142: when the keys can be moved first, the component can, for blocks which
   are not empty *)
Theorem C142_components_first_accepted_partial :
  forall p t ta tac k name sort1 sort2,
    workable t -> wf_labels k -> rows k = [] -> agreeing_groups t (labels_names k) ->
    (forall b l, In b (tm_blocks t) -> In l (bb_properties (tb_values b) :: bb_components (tb_values b)) -> rows l <> []) ->
    keys_to_properties p t k sort1 = (ta, Ok tt) -> components_to_properties ta [name] = (tac, Ok tt) ->
    exists tc tca, components_to_properties t [name] = (tc, Ok tt) /\ keys_to_properties p tc k sort2 = (tca, Ok tt).
Proof. exact components_before_properties. Qed.
Print Assumptions C142_components_first_accepted_partial.

Example C142_example :
  workable ex_tensor /\ wf_tensor ex_tensor /\ wf_labels (st_labels ["center"]) /\ rows (st_labels ["center"]) = []
  /\ (forall b, In b (tm_blocks ex_tensor) -> a_kind (bb_data (tb_values b)) <> RustEmptyArray)
  /\ (forall b l, In b (tm_blocks ex_tensor) -> In l (bb_properties (tb_values b) :: bb_components (tb_values b)) -> rows l <> [])
  /\ agreeing_groups ex_tensor (labels_names (st_labels ["center"]))
  /\ keys_to_properties Debug ex_tensor (st_labels ["center"]) true = (st_wide, Ok tt)
  /\ components_to_properties st_wide ["xyz"] = (cp_keys_first, Ok tt)
  /\ components_to_properties ex_tensor ["xyz"] = (ex_components_moved, Ok tt)
  /\ keys_to_properties Debug ex_components_moved (st_labels ["center"]) false = (cp_components_first, Ok tt)
  /\ tensor_entry cp_keys_first [0; 4]%Z [1]%Z [] ([1] ++ [8] ++ [3; 1])%Z 505
  /\ tensor_entry cp_components_first [0; 4]%Z [1]%Z [] ([8] ++ [1] ++ [3; 1])%Z 505
  /\ tensor_entry cp_keys_first [0; 4]%Z [1]%Z [] ([0] ++ [1] ++ [3; 1])%Z 0
  /\ tensor_entry cp_components_first [0; 4]%Z [1]%Z [] ([1] ++ [0] ++ [3; 1])%Z 0
  /\ tensor_gradient_value cp_keys_first [0; 4]%Z "positions" [2]%Z [6]%Z [[2]%Z] ([0] ++ [1] ++ [0; 1])%Z 231
  /\ tensor_gradient_value cp_components_first [0; 4]%Z "positions" [2]%Z [6]%Z [[2]%Z] ([1] ++ [0] ++ [0; 1])%Z 231.
Proof.
  split; [apply ex_tensor_workable|]. split; [apply ex_tensor_wf|]. split; [apply ex_labels_wf|]. split; [vm_compute; reflexivity|]. split; [apply ex_not_empty|].
  split; [apply ex_full|]. split; [apply ex_agreeing|]. split; [apply st_wide_ok|]. split; [apply cp_keys_first_ok|]. split; [apply ex_components_moved_ok|]. split; [apply cp_components_first_ok|].
  split; [apply (show_entry _ 0 [0; 11]); vm_compute; auto 20|]. split; [apply (show_entry _ 0 [2; 11]); vm_compute; auto 20|].
  split; [apply (show_entry _ 0 [0; 2]); vm_compute; auto 20|]. split; [apply (show_entry _ 0 [2; 2]); vm_compute; auto 20|].
  split; [apply (show_gradient _ 0 1 0 [1; 1; 1]); vm_compute; auto 20|]. apply (show_gradient _ 0 1 0 [2; 1; 1]); vm_compute; auto 20.
Qed.

(* C142: the component can be moved first, and the keys can not *)
Theorem C142_other_order_refuted :
  exists p t tc tca k name error,
    workable t /\ wf_labels k /\ rows k = [] /\ agreeing_groups t (labels_names k)
    /\ (forall b l, In b (tm_blocks t) -> In l (bb_properties (tb_values b) :: bb_components (tb_values b)) -> rows l <> [])
    /\ components_to_properties t [name] = (tc, Ok tt) /\ keys_to_properties p tc k true = (tca, Ok tt)
    /\ keys_to_properties p t k true = (t, Err error).
Proof. exact cp_one_order. Qed.
Print Assumptions C142_other_order_refuted.
