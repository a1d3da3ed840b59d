(* Property C143: moving two components to the properties *)
From Verif Require Import Base Labels Array Block Tensor Spec SpecTensor TwoComponentsFacts Examples ExamplesMoved ExamplesComponents ExamplesTwoComponents.
Local Open Scope string_scope.
Local Open Scope list_scope.
Local Open Scope nat_scope.

(* C143: moving two components to the properties gives the same keys, values
   and gradients in either order; the component moved last is first in the
   properties. Missing from the property: components which are not among the
   last two of their block, for which it is false, see [C143_order_refuted] *)
Theorem C143_two_components_partial :
  forall t ta tac tc tca a c,
    wf_tensor t ->
    (forall b, In b (tm_blocks t) -> a_kind (bb_data (tb_values b)) <> RustEmptyArray) ->
    (forall b, In b (tm_blocks t) -> among_last_two (tb_values b) a /\ among_last_two (tb_values b) c) ->
    components_to_properties t [a] = (ta, Ok tt) -> components_to_properties ta [c] = (tac, Ok tt) ->
    components_to_properties t [c] = (tc, Ok tt) -> components_to_properties tc [a] = (tca, Ok tt) ->
    tm_keys tac = tm_keys tca
    /\ (forall key s cs x y pr v, length x = 1 -> length y = 1 ->
          (tensor_entry tac key s cs (y ++ x ++ pr) v <-> tensor_entry tca key s cs (x ++ y ++ pr) v))
    /\ (forall key q s rest, tensor_gradient_sample tac key q s rest <-> tensor_gradient_sample tca key q s rest)
    /\ (forall key q s rest cs x y pr v, length x = 1 -> length y = 1 ->
          (tensor_gradient_value tac key q s rest cs (y ++ x ++ pr) v <-> tensor_gradient_value tca key q s rest cs (x ++ y ++ pr) v)).
Proof. exact two_components. Qed.
Print Assumptions C143_two_components_partial.

(* C143: the samples, components and names of the new blocks, for any two
   components *)
Theorem C143_names :
  forall t ta tac tc tca a c,
    wf_tensor t ->
    components_to_properties t [a] = (ta, Ok tt) -> components_to_properties ta [c] = (tac, Ok tt) ->
    components_to_properties t [c] = (tc, Ok tt) -> components_to_properties tc [a] = (tca, Ok tt) ->
    forall key b1 b2, block_of tac key b1 -> block_of tca key b2 ->
      bb_samples (tb_values b1) = bb_samples (tb_values b2)
      /\ bb_components (tb_values b1) = bb_components (tb_values b2)
      /\ exists others, labels_names (bb_properties (tb_values b1)) = [c] ++ [a] ++ others
                        /\ labels_names (bb_properties (tb_values b2)) = [a] ++ [c] ++ others.
Proof. exact two_components_names. Qed.
Print Assumptions C143_names.

(* C143: either order is accepted when the other is, for any two components *)
Theorem C143_accepted :
  forall t ta tac a c,
    wf_tensor t -> Forall responsive_block (tm_blocks t) ->
    components_to_properties t [a] = (ta, Ok tt) -> components_to_properties ta [c] = (tac, Ok tt) ->
    exists tc tca, components_to_properties t [c] = (tc, Ok tt) /\ components_to_properties tc [a] = (tca, Ok tt).
Proof. exact two_components_accepted. Qed.
Print Assumptions C143_accepted.

Example C143_example :
  wf_tensor tw_tensor /\ Forall responsive_block (tm_blocks tw_tensor)
  /\ (forall b, In b (tm_blocks tw_tensor) -> a_kind (bb_data (tb_values b)) <> RustEmptyArray)
  /\ (forall b, In b (tm_blocks tw_tensor) -> among_last_two (tb_values b) "y" /\ among_last_two (tb_values b) "z")
  /\ components_to_properties tw_tensor ["y"] = (tw_first_y, Ok tt)
  /\ components_to_properties tw_first_y ["z"] = (tw_y_then_z, Ok tt)
  /\ components_to_properties tw_tensor ["z"] = (tw_first_z, Ok tt)
  /\ components_to_properties tw_first_z ["y"] = (tw_z_then_y, Ok tt)
  /\ tensor_entry tw_y_then_z [0]%Z [5]%Z [] ([0] ++ [1] ++ [1])%Z 19
  /\ tensor_entry tw_z_then_y [0]%Z [5]%Z [] ([1] ++ [0] ++ [1])%Z 19
  /\ tensor_gradient_value tw_y_then_z [0]%Z "g" [5]%Z [4]%Z [[1]%Z] ([0] ++ [1] ++ [1])%Z 119
  /\ tensor_gradient_value tw_z_then_y [0]%Z "g" [5]%Z [4]%Z [[1]%Z] ([1] ++ [0] ++ [1])%Z 119.
Proof.
  split; [apply tw_tensor_wf|]. split; [apply tw_responsive|]. split; [apply tw_rust|]. split; [apply tw_last|].
  split; [apply tw_first_y_ok|]. split; [apply tw_y_then_z_ok|]. split; [apply tw_first_z_ok|]. split; [apply tw_z_then_y_ok|].
  split; [apply (show_entry _ 0 [1; 3]); vm_compute; auto 20|]. split; [apply (show_entry _ 0 [1; 7]); vm_compute; auto 20|].
  split; [apply (show_gradient _ 0 1 0 [0; 1; 3]); vm_compute; auto 20|]. apply (show_gradient _ 0 1 0 [0; 1; 7]); vm_compute; auto 20.
Qed.

(* C143: the first and the second of three components, moved in either order *)
Theorem C143_order_refuted :
  exists t ta tac tc tca a c key s cs x y pr v1 v2,
    wf_tensor t /\ Forall responsive_block (tm_blocks t)
    /\ (forall b, In b (tm_blocks t) -> a_kind (bb_data (tb_values b)) = RustNdarray)
    /\ components_to_properties t [a] = (ta, Ok tt) /\ components_to_properties ta [c] = (tac, Ok tt)
    /\ components_to_properties t [c] = (tc, Ok tt) /\ components_to_properties tc [a] = (tca, Ok tt)
    /\ length x = 1 /\ length y = 1
    /\ tensor_entry tac key s cs (y ++ x ++ pr) v1 /\ tensor_entry tca key s cs (x ++ y ++ pr) v2 /\ v1 <> v2.
Proof. exact tw_different. Qed.
Print Assumptions C143_order_refuted.
