(* Concrete labels, blocks and tensor maps, used to show that the hypotheses of
   the property theorems can be met *)
From Coq Require Import Permutation.
From Verif Require Import Base BaseFacts Labels Array Block Tensor Spec SpecTensor LabelsFacts ArrayFacts BlockFacts TensorFacts.
Local Open Scope string_scope.
Local Open Scope list_scope.
Local Open Scope nat_scope.

Definition ex_labels (names : list string) (rs : list (list Z)) : Labels :=
  match labels_build names rs with Ok l => l | _ => mk_labels [] [] [] end.

Definition ex_block (data : eqs_array) (samples : Labels) (components : list Labels) (properties : Labels)
  : TensorBlock :=
  match tensor_block_new data samples components properties with
  | Ok b => b
  | _ => mk_block (mk_basic data samples components properties) [] []
  end.

Definition ex_array (shape : list nat) (first : Z) : eqs_array :=
  rust_ndarray (mk_nd shape (map (fun i => (first + Z.of_nat i)%Z) (seq 0 (prod shape)))).

Definition ex_xyz := ex_labels ["xyz"] [[0]; [1]]%Z.
Definition ex_properties := ex_labels ["n"; "l"] [[0; 0]; [0; 1]; [3; 1]]%Z.

Definition ex_samples_1 := ex_labels ["structure"] [[4]; [2]]%Z.
Definition ex_values_1 := ex_block (ex_array [2; 2; 3] 100) ex_samples_1 [ex_xyz] ex_properties.
Definition ex_gradient_samples_1 := ex_labels ["sample"; "atom"] [[1; 5]; [0; 5]; [1; 6]]%Z.
Definition ex_cell := ex_labels ["cell"] [[1]; [2]]%Z.
Definition ex_gradient_array_1 := ex_array [3; 2; 2; 3] 200.
Definition ex_block_1 : TensorBlock :=
  fst (tensor_block_add_gradient ex_values_1 "positions" ex_gradient_array_1 ex_gradient_samples_1
         [ex_cell; ex_xyz]).

Definition ex_samples_2 := ex_labels ["structure"] [[2]; [7]; [9]]%Z.
Definition ex_values_2 := ex_block (ex_array [3; 2; 3] 300) ex_samples_2 [ex_xyz] ex_properties.
Definition ex_gradient_samples_2 := ex_labels ["sample"; "atom"] [[2; 5]]%Z.
Definition ex_gradient_array_2 := ex_array [1; 2; 2; 3] 400.
Definition ex_block_2 : TensorBlock :=
  fst (tensor_block_add_gradient ex_values_2 "positions" ex_gradient_array_2 ex_gradient_samples_2
         [ex_cell; ex_xyz]).

Definition ex_samples_3 := ex_labels ["structure"] [[1]]%Z.
Definition ex_values_3 := ex_block (ex_array [1; 2; 3] 500) ex_samples_3 [ex_xyz] ex_properties.
Definition ex_gradient_samples_3 := ex_labels ["sample"; "atom"] []%Z.
Definition ex_gradient_array_3 := ex_array [0; 2; 2; 3] 600.
Definition ex_block_3 : TensorBlock :=
  fst (tensor_block_add_gradient ex_values_3 "positions" ex_gradient_array_3 ex_gradient_samples_3
         [ex_cell; ex_xyz]).

Definition ex_keys := ex_labels ["center"; "spin"; "kind"] [[1; 0; 4]; [1; 1; 4]; [8; 0; 4]]%Z.
Definition ex_tensor : TensorMap :=
  match tensor_map_new ex_keys [ex_block_1; ex_block_2; ex_block_3] with
  | Ok t => t
  | _ => mk_tensor (ex_labels [] []) []
  end.

Lemma ex_labels_wf names rs : wf_labels (ex_labels names rs).
Proof.
  unfold ex_labels. destruct (labels_build names rs) as [l|e|m|r] eqn:E.
  1: eapply labels_build_wf; eauto.
  all: apply (labels_build_wf [] []); reflexivity.
Qed.

Ltac wf_example := apply ex_labels_wf.

Lemma ex_xyz_wf : wf_labels ex_xyz. Proof. wf_example. Qed.
Lemma ex_cell_wf : wf_labels ex_cell. Proof. wf_example. Qed.
Lemma ex_properties_wf : wf_labels ex_properties. Proof. wf_example. Qed.
Lemma ex_samples_1_wf : wf_labels ex_samples_1. Proof. wf_example. Qed.
Lemma ex_samples_2_wf : wf_labels ex_samples_2. Proof. wf_example. Qed.
Lemma ex_samples_3_wf : wf_labels ex_samples_3. Proof. wf_example. Qed.
Lemma ex_gradient_samples_1_wf : wf_labels ex_gradient_samples_1. Proof. wf_example. Qed.
Lemma ex_gradient_samples_2_wf : wf_labels ex_gradient_samples_2. Proof. wf_example. Qed.
Lemma ex_gradient_samples_3_wf : wf_labels ex_gradient_samples_3. Proof. wf_example. Qed.
Lemma ex_keys_wf : wf_labels ex_keys. Proof. wf_example. Qed.

Lemma ex_array_wf shape first : wf_array (ex_array shape first).
Proof.
  apply rust_ndarray_wf. unfold wf_nd. simpl. rewrite map_length, seq_length. reflexivity.
Qed.

Lemma rust_answers a op : a_kind a = RustNdarray -> answers a op.
Proof. intros H o Ho. congruence. Qed.

Lemma ex_values_1_reachable : reachable_block ex_values_1.
Proof.
  eapply reachable_new with (data := ex_array [2; 2; 3] 100) (samples := ex_samples_1)
    (components := [ex_xyz]) (properties := ex_properties);
    auto using ex_array_wf, ex_samples_1_wf, ex_xyz_wf, ex_properties_wf.
Qed.

Lemma ex_block_1_reachable : reachable_block ex_block_1.
Proof.
  eapply reachable_add with (b := ex_values_1) (parameter := "positions") (data := ex_gradient_array_1)
    (samples := ex_gradient_samples_1) (components := [ex_cell; ex_xyz]) (result := Ok tt);
    auto using ex_values_1_reachable, ex_gradient_samples_1_wf, ex_xyz_wf, ex_cell_wf.
  - apply ex_array_wf.
  - discriminate.
Qed.

Lemma ex_values_2_reachable : reachable_block ex_values_2.
Proof.
  eapply reachable_new with (data := ex_array [3; 2; 3] 300) (samples := ex_samples_2)
    (components := [ex_xyz]) (properties := ex_properties);
    auto using ex_array_wf, ex_samples_2_wf, ex_xyz_wf, ex_properties_wf.
Qed.

Lemma ex_block_2_reachable : reachable_block ex_block_2.
Proof.
  eapply reachable_add with (b := ex_values_2) (parameter := "positions") (data := ex_gradient_array_2)
    (samples := ex_gradient_samples_2) (components := [ex_cell; ex_xyz]) (result := Ok tt);
    auto using ex_values_2_reachable, ex_gradient_samples_2_wf, ex_xyz_wf, ex_cell_wf.
  - apply ex_array_wf.
  - discriminate.
Qed.

Lemma ex_values_3_reachable : reachable_block ex_values_3.
Proof.
  eapply reachable_new with (data := ex_array [1; 2; 3] 500) (samples := ex_samples_3)
    (components := [ex_xyz]) (properties := ex_properties);
    auto using ex_array_wf, ex_samples_3_wf, ex_xyz_wf, ex_properties_wf.
Qed.

Lemma ex_block_3_reachable : reachable_block ex_block_3.
Proof.
  eapply reachable_add with (b := ex_values_3) (parameter := "positions") (data := ex_gradient_array_3)
    (samples := ex_gradient_samples_3) (components := [ex_cell; ex_xyz]) (result := Ok tt);
    auto using ex_values_3_reachable, ex_gradient_samples_3_wf, ex_xyz_wf, ex_cell_wf.
  - apply ex_array_wf.
  - discriminate.
Qed.

Lemma ex_tensor_new : tensor_map_new ex_keys [ex_block_1; ex_block_2; ex_block_3] = Ok ex_tensor.
Proof. vm_compute. reflexivity. Qed.

Lemma ex_blocks_wf : Forall wf_block [ex_block_1; ex_block_2; ex_block_3].
Proof.
  constructor; [apply (reachable_wf _ ex_block_1_reachable)|].
  constructor; [apply (reachable_wf _ ex_block_2_reachable)|].
  constructor; [apply (reachable_wf _ ex_block_3_reachable)|constructor].
Qed.

Lemma ex_keys_axis : axis_labels ex_keys.
Proof. split; [apply ex_keys_wf|vm_compute; discriminate]. Qed.

Lemma ex_tensor_wf : wf_tensor ex_tensor.
Proof.
  destruct (proj1 (tensor_map_new_ok _ _ _ ex_keys_axis ex_blocks_wf) ex_tensor_new) as [Hhom Heq].
  rewrite Heq. split; [apply ex_keys_axis|]. split; [apply ex_blocks_wf|exact Hhom].
Qed.
