(* Property C145: moving all components to the properties, the last one first *)
From Verif Require Import Base Labels Array Block Tensor Spec SpecTensor SpecFlat FlatFacts Examples ExamplesTwoComponents.
Local Open Scope string_scope.
Local Open Scope list_scope.
Local Open Scope nat_scope.

(* C145: when the last components of all blocks are moved to the properties one
   after the other, the last one first, the keys and samples are the same, the
   components are the other ones, the properties are all combinations of an
   entry of each moved component and a property, and the numbers are the same and
   in the same order, with the same meaning; and the same for the gradients *)
Theorem C145_same_numbers :
  forall names t t',
    wf_tensor t -> (forall b, In b (tm_blocks t) -> last_components names b) ->
    moved_in_turn t (rev names) t' ->
    wf_tensor t' /\ tm_keys t' = tm_keys t /\ Forall2 (flat_block names) (tm_blocks t) (tm_blocks t').
Proof. exact flat_tensor. Qed.
Print Assumptions C145_same_numbers.

(* C145: all these calls are accepted *)
Theorem C145_accepted :
  forall names t,
    wf_tensor t -> Forall responsive_block (tm_blocks t) ->
    (forall b, In b (tm_blocks t) -> last_components names b) ->
    (forall b n, In b (tm_blocks t) -> In n names -> ~ In n (labels_names (bb_properties (tb_values b)))) ->
    NoDup names -> exists t', moved_in_turn t (rev names) t'.
Proof. exact flat_accepted. Qed.
Print Assumptions C145_accepted.

Example C145_example :
  wf_tensor tw_tensor /\ Forall responsive_block (tm_blocks tw_tensor) /\ tm_blocks tw_tensor = [tw_block]
  /\ last_components ["y"; "z"] tw_block /\ ~ In "y" (labels_names (bb_properties (tb_values tw_block))) /\ ~ In "z" (labels_names (bb_properties (tb_values tw_block)))
  /\ NoDup ["y"; "z"] /\ moved_in_turn tw_tensor (rev ["y"; "z"]) tw_z_then_y
  /\ match tm_blocks tw_z_then_y with
     | [b] => shape_of (bb_data (tb_values b)) = [2; 12]
              /\ nd_data (a_nd (bb_data (tb_values b))) = map Z.of_nat (seq 0 24)
              /\ labels_names (bb_properties (tb_values b)) = ["y"; "z"; "p"]
              /\ rows (bb_properties (tb_values b)) = all_products [[[0]; [1]]; [[0]; [1]; [2]]; [[0]; [1]]]%Z
              /\ map (fun g => (fst g, map labels_names (bb_components (snd g)), nd_data (a_nd (bb_data (snd g))))) (tb_gradients b)
                 = [("g", [["cell"]], map Z.of_nat (seq 100 24))]
     | _ => False
     end.
Proof.
  split; [apply tw_tensor_wf|]. split; [apply tw_responsive|]. split; [apply tw_blocks|]. split; [exists []; vm_compute; reflexivity|].
  split; [vm_compute; intros [H|[]]; discriminate H|]. split; [vm_compute; intros [H|[]]; discriminate H|].
  split; [repeat constructor; cbn; intuition discriminate|].
  split; [apply (moved_next _ _ _ _ _ tw_first_z_ok), (moved_next _ _ _ _ _ tw_z_then_y_ok), moved_none|]. vm_compute. auto 10.
Qed.
