(* Concrete tensor maps of which two components are moved to the properties *)
From Verif Require Import Base Labels Array Block Tensor Spec SpecTensor BlockFacts TensorFacts ComponentsFacts Examples ExamplesMoved ExamplesComponents.
Local Open Scope string_scope.
Local Open Scope list_scope.
Local Open Scope nat_scope.

Definition tw_y := ex_labels ["y"] [[0]; [1]]%Z.
Definition tw_z := ex_labels ["z"] [[0]; [1]; [2]]%Z.
Definition tw_cell := ex_labels ["cell"] [[0]; [1]]%Z.
Definition tw_samples := ex_labels ["s"] [[0]; [5]]%Z.
Definition tw_properties := ex_labels ["p"] [[0]; [1]]%Z.
Definition tw_gradient_samples := ex_labels ["sample"; "atom"] [[1; 4]]%Z.
Definition tw_values : TensorBlock := ex_block (ex_array [2; 2; 3; 2] 0) tw_samples [tw_y; tw_z] tw_properties.
Definition tw_block : TensorBlock :=
  fst (tensor_block_add_gradient tw_values "g" (ex_array [1; 2; 2; 3; 2] 100) tw_gradient_samples [tw_cell; tw_y; tw_z]).
Definition tw_tensor : TensorMap := ex_single tw_block.

Lemma tw_values_reachable : reachable_block tw_values.
Proof.
  apply reachable_new with (data := ex_array [2; 2; 3; 2] 0) (samples := tw_samples) (components := [tw_y; tw_z]) (properties := tw_properties);
    [apply ex_array_wf|apply ex_labels_wf|repeat constructor; apply ex_labels_wf|apply ex_labels_wf|].
  vm_compute. reflexivity.
Qed.

Lemma tw_block_reachable : reachable_block tw_block.
Proof.
  apply reachable_add with (b := tw_values) (parameter := "g") (data := ex_array [1; 2; 2; 3; 2] 100)
    (samples := tw_gradient_samples) (components := [tw_cell; tw_y; tw_z]) (result := Ok tt);
    [apply tw_values_reachable|apply ex_array_wf|apply ex_labels_wf|repeat constructor; apply ex_labels_wf| |discriminate].
  vm_compute. reflexivity.
Qed.

Lemma tw_tensor_wf : wf_tensor tw_tensor.
Proof. apply ex_single_wf, tw_block_reachable. Qed.

Lemma tw_blocks : tm_blocks tw_tensor = [tw_block].
Proof. vm_compute. reflexivity. Qed.

Lemma tw_rust : forall b, In b (tm_blocks tw_tensor) -> a_kind (bb_data (tb_values b)) <> RustEmptyArray.
Proof. intros b Hb. rewrite tw_blocks in Hb. destruct Hb as [<-|[]]. vm_compute. discriminate. Qed.

Lemma tw_responsive : Forall responsive_block (tm_blocks tw_tensor).
Proof. rewrite tw_blocks. constructor; [|constructor]. apply check_rust_sound. vm_compute. reflexivity. Qed.

Lemma tw_last : forall b, In b (tm_blocks tw_tensor) -> among_last_two (tb_values b) "y" /\ among_last_two (tb_values b) "z".
Proof.
  intros b Hb. rewrite tw_blocks in Hb. destruct Hb as [<-|[]]. split; [exists 0|exists 1]; (split; [vm_compute; reflexivity|vm_compute; auto]).
Qed.

Definition tw_first_y : TensorMap := fst (components_to_properties tw_tensor ["y"]).
Definition tw_first_z : TensorMap := fst (components_to_properties tw_tensor ["z"]).
Definition tw_y_then_z : TensorMap := fst (components_to_properties tw_first_y ["z"]).
Definition tw_z_then_y : TensorMap := fst (components_to_properties tw_first_z ["y"]).

Lemma tw_first_y_ok : components_to_properties tw_tensor ["y"] = (tw_first_y, Ok tt).
Proof. vm_compute. reflexivity. Qed.
Lemma tw_first_z_ok : components_to_properties tw_tensor ["z"] = (tw_first_z, Ok tt).
Proof. vm_compute. reflexivity. Qed.
Lemma tw_y_then_z_ok : components_to_properties tw_first_y ["z"] = (tw_y_then_z, Ok tt).
Proof. vm_compute. reflexivity. Qed.
Lemma tw_z_then_y_ok : components_to_properties tw_first_z ["y"] = (tw_z_then_y, Ok tt).
Proof. vm_compute. reflexivity. Qed.

(* the first of three components is moved before or after the second *)
Definition tw_x_then_y : TensorMap := fst (components_to_properties ex_three_moved ["y"]).
Definition tw_y_then_x : TensorMap := fst (components_to_properties ex_three_moved_y ["x"]).

Lemma tw_different :
  exists t ta tac tc tca a c key s cs x y pr v1 v2,
    wf_tensor t /\ Forall responsive_block (tm_blocks t)
    /\ (forall b, In b (tm_blocks t) -> a_kind (bb_data (tb_values b)) = RustNdarray)
    /\ components_to_properties t [a] = (ta, Ok tt) /\ components_to_properties ta [c] = (tac, Ok tt)
    /\ components_to_properties t [c] = (tc, Ok tt) /\ components_to_properties tc [a] = (tca, Ok tt)
    /\ length x = 1 /\ length y = 1
    /\ tensor_entry tac key s cs (y ++ x ++ pr) v1 /\ tensor_entry tca key s cs (x ++ y ++ pr) v2 /\ v1 <> v2.
Proof.
  exists ex_three, ex_three_moved, tw_x_then_y, ex_three_moved_y, tw_y_then_x, "x", "y", [0]%Z, [0]%Z, [[1]%Z], [1]%Z, [0]%Z, [0]%Z, 6%Z, 5%Z.
  assert (E : tm_blocks ex_three = [ex_three_components]) by (vm_compute; reflexivity).
  assert (C : check_rust ex_three_components = true) by (vm_compute; reflexivity). apply check_rust_sound in C as [C1 C2].
  split; [apply ex_three_wf|]. split; [rewrite E; exact (Forall_cons _ C2 (Forall_nil _))|].
  split; [intros b Hb; rewrite E in Hb; destruct Hb as [<-|[]]; exact C1|].
  split; [vm_compute; reflexivity|]. split; [vm_compute; reflexivity|]. split; [vm_compute; reflexivity|]. split; [vm_compute; reflexivity|].
  split; [reflexivity|]. split; [reflexivity|].
  split; [apply (show_entry _ 0 [0; 1; 1]); vm_compute; auto 20|]. split; [apply (show_entry _ 0 [0; 1; 2]); vm_compute; auto 20|]. discriminate.
Qed.
