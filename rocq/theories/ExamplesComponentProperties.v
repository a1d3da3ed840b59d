(* Concrete tensor maps of which both keys and components are moved to the properties *)
From Verif Require Import Base Labels Array Block Tensor Spec SpecTensor BlockFacts TensorFacts Examples ExamplesMoved ExamplesComponents ExamplesSteps ExamplesComponentSteps.
Local Open Scope string_scope.
Local Open Scope list_scope.
Local Open Scope nat_scope.

Definition cp_keys_first : TensorMap := fst (components_to_properties st_wide ["xyz"]).
Definition cp_components_first : TensorMap := fst (keys_to_properties Debug ex_components_moved (st_labels ["center"]) false).

Lemma cp_keys_first_ok : components_to_properties st_wide ["xyz"] = (cp_keys_first, Ok tt).
Proof. vm_compute. reflexivity. Qed.
Lemma cp_components_first_ok : keys_to_properties Debug ex_components_moved (st_labels ["center"]) false = (cp_components_first, Ok tt).
Proof. vm_compute. reflexivity. Qed.

Lemma ex_full : forall b l, In b (tm_blocks ex_tensor) -> In l (bb_properties (tb_values b) :: bb_components (tb_values b)) -> rows l <> [].
Proof.
  assert (E : forallb (fun b => forallb (fun l => negb (length (rows l) =? 0)) (bb_properties (tb_values b) :: bb_components (tb_values b))) (tm_blocks ex_tensor) = true) by (vm_compute; reflexivity).
  intros b l Hb Hl H. rewrite forallb_forall in E. specialize (E b Hb). rewrite forallb_forall in E. specialize (E l Hl). rewrite H in E. discriminate E.
Qed.

(* two blocks with different entries in a component *)
Definition cp_example_block (n : nat) : TensorBlock :=
  ex_block (ex_array [1; n; 1] 0) (ex_labels ["s"] [[0]]%Z) [ex_labels ["x"] (map (fun i => [Z.of_nat i]) (seq 0 n))] (ex_labels ["p"] [[0]]%Z).

Lemma cp_block_reachable n : match tensor_block_new (ex_array [1; n; 1] 0) (ex_labels ["s"] [[0]]%Z) [ex_labels ["x"] (map (fun i => [Z.of_nat i]) (seq 0 n))] (ex_labels ["p"] [[0]]%Z) with Ok _ => True | _ => False end ->
  reachable_block (cp_example_block n).
Proof.
  intros H. apply reachable_new with (data := ex_array [1; n; 1] 0) (samples := ex_labels ["s"] [[0]]%Z)
    (components := [ex_labels ["x"] (map (fun i => [Z.of_nat i]) (seq 0 n))]) (properties := ex_labels ["p"] [[0]]%Z);
    [apply ex_array_wf|apply ex_labels_wf|repeat constructor; apply ex_labels_wf|apply ex_labels_wf|].
  unfold cp_example_block, ex_block. destruct (tensor_block_new _ _ _ _); [reflexivity|contradiction H..].
Qed.

Definition cp_tensor : TensorMap := match tensor_map_new cs_keys [cp_example_block 1; cp_example_block 2] with Ok t => t | _ => ex_tensor end.

Lemma cp_tensor_wf : wf_tensor cp_tensor.
Proof.
  unfold cp_tensor. destruct (tensor_map_new cs_keys [cp_example_block 1; cp_example_block 2]) as [t|e|m|r] eqn:E; try apply ex_tensor_wf.
  assert (Hk : axis_labels cs_keys) by (split; [apply ex_labels_wf|vm_compute; discriminate]).
  assert (Hf : Forall wf_block [cp_example_block 1; cp_example_block 2]).
  { constructor; [apply reachable_wf, cp_block_reachable; vm_compute; exact I|]. constructor; [apply reachable_wf, cp_block_reachable; vm_compute; exact I|constructor]. }
  apply (tensor_map_new_ok _ _ _ Hk Hf) in E as [Hh ->]. split; [assumption|]. split; assumption.
Qed.

Definition cp_moved : TensorMap := fst (components_to_properties cp_tensor ["x"]).
Definition cp_merged : TensorMap := fst (keys_to_properties Debug cp_moved (st_labels ["key"]) true).

Lemma cp_moved_ok : components_to_properties cp_tensor ["x"] = (cp_moved, Ok tt).
Proof. vm_compute. reflexivity. Qed.
Lemma cp_merged_ok : keys_to_properties Debug cp_moved (st_labels ["key"]) true = (cp_merged, Ok tt).
Proof. vm_compute. reflexivity. Qed.
Lemma cp_refused : exists error, keys_to_properties Debug cp_tensor (st_labels ["key"]) true = (cp_tensor, Err error).
Proof.
  assert (E : match snd (keys_to_properties Debug cp_tensor (st_labels ["key"]) true) with Err _ => True | _ => False end) by (vm_compute; exact I).
  unfold keys_to_properties in *. destruct (keys_to_properties_compute _ _ _ _) as [[nk bs]|e|m|r]; cbn [snd] in E; try contradiction E. eauto.
Qed.

Lemma cp_tensor_rust : forall b, In b (tm_blocks cp_tensor) -> check_in_range b = true /\ check_rust b = true /\ tb_gradients b = []
  /\ forallb (fun l => negb (length (rows l) =? 0)) (bb_properties (tb_values b) :: bb_components (tb_values b)) = true.
Proof. intros b Hb. vm_compute in Hb. destruct Hb as [<-|[<-|[]]]; vm_compute; auto. Qed.

Lemma cp_tensor_workable : workable cp_tensor.
Proof.
  split; [apply cp_tensor_wf|]. split; [vm_compute; discriminate|].
  split; [exists RustNdarray; split; [discriminate|]; intros b H; exact (proj1 (check_rust_sound b (proj1 (proj2 (cp_tensor_rust b H)))))|].
  split; [|vm_compute; reflexivity].
  intros b H. destruct (cp_tensor_rust b H) as (H1 & H2 & H3 & _). split; [exact (proj2 (check_rust_sound b H2))|].
  split; [apply check_in_range_sound; exact H1|]. intros q g Hg. rewrite H3 in Hg. destruct Hg.
Qed.

Lemma cp_agreeing variables : agreeing_groups cp_tensor variables.
Proof.
  intros key1 b1 key2 b2 (i & _ & H1) _ _ q g1 g2 G1 _. apply nth_error_In in H1.
  destruct (cp_tensor_rust _ H1) as (_ & _ & E & _). rewrite E in G1. destruct G1.
Qed.

Lemma cp_one_order :
  exists p t tc tca k name error,
    workable t /\ wf_labels k /\ rows k = [] /\ agreeing_groups t (labels_names k)
    /\ (forall b l, In b (tm_blocks t) -> In l (bb_properties (tb_values b) :: bb_components (tb_values b)) -> rows l <> [])
    /\ components_to_properties t [name] = (tc, Ok tt) /\ keys_to_properties p tc k true = (tca, Ok tt)
    /\ keys_to_properties p t k true = (t, Err error).
Proof.
  destruct cp_refused as [e He]. exists Debug, cp_tensor, cp_moved, cp_merged, (st_labels ["key"]), "x", e.
  split; [apply cp_tensor_workable|]. split; [apply ex_labels_wf|]. split; [vm_compute; reflexivity|]. split; [apply cp_agreeing|]. split.
  - intros b l Hb Hl H. destruct (cp_tensor_rust _ Hb) as (_ & _ & _ & E). rewrite forallb_forall in E. specialize (E l Hl). rewrite H in E. discriminate E.
  - split; [apply cp_moved_ok|]. split; [apply cp_merged_ok|exact He].
Qed.
