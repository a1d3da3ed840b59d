(* Concrete arrays and tensor maps for the memory layout *)
From Verif Require Import Base BaseFacts Labels Array Strided Block Tensor Npy Io Spec SpecTensor SpecIo LabelsFacts ArrayFacts BlockFacts TensorFacts NpyFacts StridedFacts Examples ExamplesMoved ExamplesComponents ExamplesIo.
Local Open Scope string_scope.
Local Open Scope list_scope.
Local Open Scope nat_scope.

(* a transposed array: the elements of the first column, then of the second one *)
Definition ex_transposed : strided := mk_strided [3; 2] [1; 3] [10; 11; 12; 20; 21; 22]%Z.

Lemma ex_transposed_no_gap : no_gap ex_transposed.
Proof.
  split; [reflexivity|]. vm_compute.
  apply Permutation.NoDup_Permutation.
  - repeat constructor; cbn; intuition discriminate.
  - repeat constructor; cbn; intuition discriminate.
  - intros x. cbn. intuition.
Qed.

(* read the transposed array (which fails), reshape it (which copies it), read it
   again, swap its axes, move a row to a new array, and read the new array *)
Definition ex_client : client :=
  Call (GetData 0) (fun _ =>
  Call (Reshape 0 [2; 3]) (fun _ =>
  Call (GetData 0) (fun _ =>
  Call (SwapAxes 0 0 1) (fun _ =>
  Call (GetShape 0) (fun _ =>
  Call (Create 0 [2; 2]) (fun _ =>
  Call (MoveSamples 1 0 [mk_mapping 2 0] 0 2) (fun _ =>
  Call (GetData 1) (fun _ =>
  Call (Reshape 0 [4]) (fun _ =>
  Call (GetShape 0) (fun _ => Stop)))))))))).

Definition ex_responses : list response :=
  [Failed; Done; Data [10; 20; 11; 21; 12; 22]%Z; Done; Shape [3; 2]; Done; Done; Data [11; 22; 0; 0]%Z; Failed; Shape [0]].

(* two components, and a single property *)
Definition ex_exchanged_block : TensorBlock :=
  ex_block (ex_array [3; 2; 2; 1] 0) (ex_labels ["s"] [[0]; [1]; [2]]%Z)
    [ex_labels ["x"] [[0]; [1]]%Z; ex_labels ["y"] [[0]; [1]]%Z] (ex_labels ["p"] [[0]]%Z).
Definition ex_exchanged : TensorMap := ex_single ex_exchanged_block.
Definition ex_exchanged_moved : TensorMap := fst (components_to_properties ex_exchanged ["x"]).

Lemma ex_exchanged_reachable : reachable_block ex_exchanged_block.
Proof.
  apply reachable_new with (data := ex_array [3; 2; 2; 1] 0) (samples := ex_labels ["s"] [[0]; [1]; [2]]%Z)
    (components := [ex_labels ["x"] [[0]; [1]]%Z; ex_labels ["y"] [[0]; [1]]%Z]) (properties := ex_labels ["p"] [[0]]%Z);
    [apply ex_array_wf|apply ex_labels_wf|repeat constructor; apply ex_labels_wf|apply ex_labels_wf|].
  vm_compute. reflexivity.
Qed.

Lemma ex_exchanged_wf : wf_tensor ex_exchanged.
Proof. apply ex_single_wf, ex_exchanged_reachable. Qed.

Lemma ex_exchanged_blocks : tm_blocks ex_exchanged = [ex_exchanged_block].
Proof. vm_compute. reflexivity. Qed.

Lemma ex_exchanged_data b part : In b (tm_blocks ex_exchanged) -> In part (parts_of_block b) ->
  bb_data part = ex_array [3; 2; 2; 1] 0.
Proof.
  rewrite ex_exchanged_blocks. intros [<-|[]]. assert (E : parts_of_block ex_exchanged_block = [tb_values ex_exchanged_block]) by (vm_compute; reflexivity).
  rewrite E. intros [<-|[]]. vm_compute. reflexivity.
Qed.

Lemma ex_exchanged_readable : readable_tensor ex_exchanged.
Proof. intros b part Hb Hp. rewrite (ex_exchanged_data b part Hb Hp). apply rust_readable. Qed.

Lemma ex_exchanged_ndarrays : in_ndarrays ex_exchanged.
Proof. intros b part Hb Hp. rewrite (ex_exchanged_data b part Hb Hp). reflexivity. Qed.

Lemma ex_exchanged_last_two name b : In name ["x"; "y"] -> In b (tm_blocks ex_exchanged) -> among_last_two (tb_values b) name.
Proof.
  rewrite ex_exchanged_blocks. intros Hn [<-|[]]. destruct Hn as [<-|[<-|[]]].
  - exists 0. vm_compute. split; [reflexivity|]. repeat constructor.
  - exists 1. vm_compute. split; [reflexivity|]. repeat constructor.
Qed.

Lemma ex_exchanged_moved_ok : components_to_properties ex_exchanged ["x"] = (ex_exchanged_moved, Ok tt).
Proof. vm_compute. reflexivity. Qed.

Lemma ex_exchanged_left : left_exchanged (tb_values ex_exchanged_block) "x".
Proof.
  exists [], (ex_labels ["x"] [[0]; [1]]%Z), (ex_labels ["y"] [[0]; [1]]%Z). vm_compute.
  repeat split; try reflexivity; try discriminate; try (repeat constructor; fail).
Qed.

Lemma ex_exchanged_moved_unreadable : ~ readable_tensor ex_exchanged_moved.
Proof.
  intros H. destruct (tm_blocks ex_exchanged_moved) as [|b bs] eqn:E; [vm_compute in E; discriminate E|].
  specialize (H b (tb_values b)). rewrite E in H. specialize (H (or_introl eq_refl) (or_introl eq_refl)).
  destruct H as [numbers H]. vm_compute in E. injection E as <- _. vm_compute in H. discriminate H.
Qed.

Lemma ex_exchanged_moved_ndarrays : in_ndarrays ex_exchanged_moved.
Proof.
  assert (F : Forall (eq RustNdarray) (map (fun part => a_kind (bb_data part)) (flat_map parts_of_block (tm_blocks ex_exchanged_moved)))).
  { vm_compute. repeat constructor. }
  rewrite Forall_map, Forall_forall in F. intros b part Hb Hp. symmetry. apply F. apply in_flat_map. exists b. split; assumption.
Qed.

Lemma ex_exchanged_unreadable :
  exists t name t' e,
    wf_tensor t /\ in_ndarrays t /\ readable_tensor t
    /\ (forall b, In b (tm_blocks t) -> among_last_two (tb_values b) name)
    /\ (exists archive, save LittleEndian t = Ok archive)
    /\ components_to_properties t [name] = (t', Ok tt)
    /\ ~ readable_tensor t' /\ save LittleEndian t' = Err e.
Proof.
  exists ex_exchanged, "x", ex_exchanged_moved, (External 255 "calling eqs_array_t.data failed").
  split; [exact ex_exchanged_wf|]. split; [exact ex_exchanged_ndarrays|]. split; [exact ex_exchanged_readable|].
  split; [intros b Hb; apply ex_exchanged_last_two; [left; reflexivity|exact Hb]|].
  split; [destruct (save LittleEndian ex_exchanged) as [a|e|m|u] eqn:E; [exists a; reflexivity| | |]; vm_compute in E; discriminate E|].
  split; [exact ex_exchanged_moved_ok|]. split; [exact ex_exchanged_moved_unreadable|vm_compute; reflexivity].
Qed.
