(* Concrete tensor maps of which both keys and components are moved *)
From Verif Require Import Base Labels Array Block Tensor Spec SpecTensor BlockFacts TensorFacts Examples ExamplesMoved ExamplesComponents ExamplesSteps.
Local Open Scope string_scope.
Local Open Scope list_scope.
Local Open Scope nat_scope.

Definition cs_samples_first : TensorMap := fst (components_to_properties st_center ["xyz"]).
Definition cs_components_first : TensorMap := fst (keys_to_samples Debug ex_components_moved (st_labels ["center"]) true).

Lemma cs_samples_first_ok : components_to_properties st_center ["xyz"] = (cs_samples_first, Ok tt).
Proof. vm_compute. reflexivity. Qed.
Lemma cs_components_first_ok : keys_to_samples Debug ex_components_moved (st_labels ["center"]) true = (cs_components_first, Ok tt).
Proof. vm_compute. reflexivity. Qed.

(* two blocks without properties, with different entries in a component *)
Definition cs_block (n : nat) : TensorBlock :=
  ex_block (ex_array [1; n; 0] 0) (ex_labels ["s"] [[0]]%Z) [ex_labels ["x"] (map (fun i => [Z.of_nat i]) (seq 0 n))] (ex_labels ["p"] []).

Lemma cs_block_reachable n : match tensor_block_new (ex_array [1; n; 0] 0) (ex_labels ["s"] [[0]]%Z) [ex_labels ["x"] (map (fun i => [Z.of_nat i]) (seq 0 n))] (ex_labels ["p"] []) with Ok _ => True | _ => False end ->
  reachable_block (cs_block n).
Proof.
  intros H. apply reachable_new with (data := ex_array [1; n; 0] 0) (samples := ex_labels ["s"] [[0]]%Z)
    (components := [ex_labels ["x"] (map (fun i => [Z.of_nat i]) (seq 0 n))]) (properties := ex_labels ["p"] []);
    [apply ex_array_wf|apply ex_labels_wf|repeat constructor; apply ex_labels_wf|apply ex_labels_wf|].
  unfold cs_block, ex_block. destruct (tensor_block_new _ _ _ _); [reflexivity|contradiction H..].
Qed.

Definition cs_keys : Labels := ex_labels ["key"] [[0]; [1]]%Z.
Definition cs_tensor : TensorMap := match tensor_map_new cs_keys [cs_block 1; cs_block 2] with Ok t => t | _ => ex_tensor end.

Lemma cs_tensor_wf : wf_tensor cs_tensor.
Proof.
  unfold cs_tensor. destruct (tensor_map_new cs_keys [cs_block 1; cs_block 2]) as [t|e|m|r] eqn:E; try apply ex_tensor_wf.
  assert (Hk : axis_labels cs_keys) by (split; [apply ex_labels_wf|vm_compute; discriminate]).
  assert (Hf : Forall wf_block [cs_block 1; cs_block 2]).
  { constructor; [apply reachable_wf, cs_block_reachable; vm_compute; exact I|]. constructor; [apply reachable_wf, cs_block_reachable; vm_compute; exact I|constructor]. }
  apply (tensor_map_new_ok _ _ _ Hk Hf) in E as [Hh ->]. split; [assumption|]. split; assumption.
Qed.

Definition cs_moved : TensorMap := fst (components_to_properties cs_tensor ["x"]).
Definition cs_merged : TensorMap := fst (keys_to_samples Debug cs_moved (st_labels ["key"]) true).

Lemma cs_moved_ok : components_to_properties cs_tensor ["x"] = (cs_moved, Ok tt).
Proof. vm_compute. reflexivity. Qed.
Lemma cs_merged_ok : keys_to_samples Debug cs_moved (st_labels ["key"]) true = (cs_merged, Ok tt).
Proof. vm_compute. reflexivity. Qed.
Lemma cs_refused : exists error, keys_to_samples Debug cs_tensor (st_labels ["key"]) true = (cs_tensor, Err error).
Proof.
  assert (E : match snd (keys_to_samples Debug cs_tensor (st_labels ["key"]) true) with Err _ => True | _ => False end) by (vm_compute; exact I).
  unfold keys_to_samples in *. destruct (keys_to_samples_compute _ _ _ _) as [[nk bs]|e|m|r]; cbn [snd] in E; try contradiction E. eauto.
Qed.

Lemma cs_tensor_rust : forall b, In b (tm_blocks cs_tensor) -> check_in_range b = true /\ check_rust b = true /\ tb_gradients b = [].
Proof. intros b Hb. vm_compute in Hb. destruct Hb as [<-|[<-|[]]]; vm_compute; auto. Qed.

Lemma cs_tensor_workable : workable cs_tensor.
Proof.
  split; [apply cs_tensor_wf|]. split; [vm_compute; discriminate|].
  split; [exists RustNdarray; split; [discriminate|]; intros b H; exact (proj1 (check_rust_sound b (proj1 (proj2 (cs_tensor_rust b H)))))|].
  split; [|vm_compute; reflexivity].
  intros b H. destruct (cs_tensor_rust b H) as (H1 & H2 & H3). split; [exact (proj2 (check_rust_sound b H2))|].
  split; [apply check_in_range_sound; exact H1|]. intros q g Hg. rewrite H3 in Hg. destruct Hg.
Qed.

Lemma cs_agreeing variables : agreeing_groups cs_tensor variables.
Proof.
  intros key1 b1 key2 b2 (i & _ & H1) _ _ q g1 g2 G1 _. apply nth_error_In in H1.
  rewrite (proj2 (proj2 (cs_tensor_rust _ H1))) in G1. destruct G1.
Qed.

Lemma cs_one_order :
  exists p t tc tca k name error,
    workable t /\ wf_labels k /\ agreeing_groups t (labels_names k)
    /\ components_to_properties t [name] = (tc, Ok tt) /\ keys_to_samples p tc k true = (tca, Ok tt)
    /\ keys_to_samples p t k true = (t, Err error).
Proof.
  destruct cs_refused as [e He]. exists Debug, cs_tensor, cs_moved, cs_merged, (st_labels ["key"]), "x", e.
  split; [apply cs_tensor_workable|]. split; [apply ex_labels_wf|]. split; [apply cs_agreeing|].
  split; [apply cs_moved_ok|]. split; [apply cs_merged_ok|exact He].
Qed.
