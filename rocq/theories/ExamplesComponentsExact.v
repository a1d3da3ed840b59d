(* Blocks with three components of different sizes, the first of which is moved *)
From Verif Require Import Base BaseFacts Labels Array Block Tensor Spec SpecTensor LabelsFacts ArrayFacts BlockFacts TensorFacts
  Examples ExamplesMoved ExamplesComponents SpecComponents.
Local Open Scope string_scope.
Local Open Scope list_scope.
Local Open Scope nat_scope.

Definition ex_x := ex_labels ["x"] [[0]; [1]]%Z.
Definition ex_y := ex_labels ["y"] [[0]; [1]]%Z.
Definition ex_z := ex_labels ["z"] [[0]; [1]; [2]]%Z.
Definition ex_one := ex_labels ["y"] [[7]]%Z.
Definition ex_exchanged_block : TensorBlock :=
  ex_block (ex_array [1; 2; 2; 3; 1] 0) (ex_labels ["s"] [[0]]%Z) [ex_x; ex_y; ex_z] (ex_labels ["p"] [[0]]%Z).
Definition ex_kept_block : TensorBlock :=
  ex_block (ex_array [1; 2; 1; 3; 1] 0) (ex_labels ["s"] [[0]]%Z) [ex_x; ex_one; ex_z] (ex_labels ["p"] [[0]]%Z).

Lemma ex_exchanged_reachable : reachable_block ex_exchanged_block.
Proof.
  apply reachable_new with (data := ex_array [1; 2; 2; 3; 1] 0) (samples := ex_labels ["s"] [[0]]%Z)
    (components := [ex_x; ex_y; ex_z]) (properties := ex_labels ["p"] [[0]]%Z);
    [apply ex_array_wf|apply ex_labels_wf|repeat constructor; apply ex_labels_wf|apply ex_labels_wf|].
  vm_compute. reflexivity.
Qed.

Lemma ex_kept_reachable : reachable_block ex_kept_block.
Proof.
  apply reachable_new with (data := ex_array [1; 2; 1; 3; 1] 0) (samples := ex_labels ["s"] [[0]]%Z)
    (components := [ex_x; ex_one; ex_z]) (properties := ex_labels ["p"] [[0]]%Z);
    [apply ex_array_wf|apply ex_labels_wf|repeat constructor; apply ex_labels_wf|apply ex_labels_wf|].
  vm_compute. reflexivity.
Qed.

Definition ex_exchanged : TensorMap := ex_single ex_exchanged_block.
Definition ex_exchanged_moved : TensorMap := fst (components_to_properties ex_exchanged ["x"]).
Definition ex_kept : TensorMap := ex_single ex_kept_block.
Definition ex_kept_moved : TensorMap := fst (components_to_properties ex_kept ["x"]).

Lemma ex_exchanged_wf : wf_tensor ex_exchanged.
Proof. apply ex_single_wf, ex_exchanged_reachable. Qed.

Lemma ex_kept_wf : wf_tensor ex_kept.
Proof. apply ex_single_wf, ex_kept_reachable. Qed.

Lemma ex_exchanged_ok : components_to_properties ex_exchanged ["x"] = (ex_exchanged_moved, Ok tt).
Proof. vm_compute. reflexivity. Qed.

Lemma ex_kept_ok : components_to_properties ex_kept ["x"] = (ex_kept_moved, Ok tt).
Proof. vm_compute. reflexivity. Qed.

Lemma ex_exchanged_blocks : tm_blocks ex_exchanged = [ex_exchanged_block].
Proof. vm_compute. reflexivity. Qed.

Lemma ex_kept_blocks : tm_blocks ex_kept = [ex_kept_block].
Proof. vm_compute. reflexivity. Qed.

Lemma ex_exchanged_kind b : In b (tm_blocks ex_exchanged) -> a_kind (bb_data (tb_values b)) <> RustEmptyArray.
Proof. rewrite ex_exchanged_blocks. intros [<-|[]]. discriminate. Qed.

Lemma ex_kept_kind b : In b (tm_blocks ex_kept) -> a_kind (bb_data (tb_values b)) <> RustEmptyArray.
Proof. rewrite ex_kept_blocks. intros [<-|[]]. discriminate. Qed.

Lemma ex_exchanged_axes : Forall (fun l => rows l <> []) (axes (tb_values ex_exchanged_block)).
Proof. repeat (constructor; [discriminate|]). constructor. Qed.

Lemma ex_exchanged_at : component_at (tb_values ex_exchanged_block) "x" 0
  /\ components_after (tb_values ex_exchanged_block) 0 = [ex_y; ex_z].
Proof. split; reflexivity. Qed.

Lemma ex_exchanged_some : ~ nothing_exchanged [ex_y; ex_z].
Proof. change (~ (3 <= 1 \/ 2 <= 1)). lia. Qed.

Lemma ex_kept_at b i : In b (tm_blocks ex_kept) -> component_at (tb_values b) "x" i -> nothing_exchanged (components_after (tb_values b) i).
Proof.
  rewrite ex_kept_blocks. intros [<-|[]] H. destruct i as [|[|[|i]]]; try discriminate H.
  - right. apply (le_n 1).
  - destruct i; discriminate H.
Qed.

Lemma ex_found : found_as [ex_y; ex_z] [[1]; [0]]%Z [[0]; [1]]%Z.
Proof. exists 1, [[1]]%Z, [0]%Z. repeat split. Qed.

Lemma ex_exchanged_before : tensor_entry ex_exchanged [0]%Z [0]%Z [[1]; [1]; [0]]%Z [0]%Z 9.
Proof. apply (show_entry _ 0 [0; 1; 1; 0; 0]); vm_compute; auto 20. Qed.

Lemma ex_exchanged_after : tensor_entry ex_exchanged_moved [0]%Z [0]%Z [[0]; [1]]%Z [1; 0]%Z 9.
Proof. apply (show_entry _ 0 [0; 0; 1; 1]); vm_compute; auto 20. Qed.

Lemma ex_kept_before : tensor_entry ex_kept [0]%Z [0]%Z [[1]; [7]; [2]]%Z [0]%Z 5.
Proof. apply (show_entry _ 0 [0; 1; 0; 2; 0]); vm_compute; auto 20. Qed.

Lemma ex_kept_after : tensor_entry ex_kept_moved [0]%Z [0]%Z [[7]; [2]]%Z [1; 0]%Z 5.
Proof. apply (show_entry _ 0 [0; 0; 2; 1]); vm_compute; auto 20. Qed.
