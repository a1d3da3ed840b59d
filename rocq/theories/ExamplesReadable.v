(* Tensor maps with three components, for the layout after moving the first one *)
From Verif Require Import Base Labels Array Block Tensor Npy Io Spec SpecTensor SpecIo SpecExact BlockFacts TensorFacts NpyFacts Examples ExamplesMoved ExamplesComponents ExamplesIo.
Local Open Scope string_scope.
Local Open Scope list_scope.
Local Open Scope nat_scope.

Definition ex_entries (n : nat) : list (list Z) := map (fun i => [Z.of_nat i]) (seq 0 n).

(* m has a single entry, x and y have two and [n] *)
Definition ex_far_block (n : nat) : TensorBlock :=
  ex_block (ex_array [2; 1; 2; n; 3] 0) (ex_labels ["s"] (ex_entries 2))
    [ex_labels ["m"] (ex_entries 1); ex_labels ["x"] (ex_entries 2); ex_labels ["y"] (ex_entries n)]
    (ex_labels ["p"] (ex_entries 3)).
Definition ex_far (n : nat) : TensorMap := ex_single (ex_far_block n).
Definition ex_far_moved (n : nat) : TensorMap := fst (components_to_properties (ex_far n) ["m"]).

Lemma ex_far_reachable n : n = 2 \/ n = 3 -> reachable_block (ex_far_block n).
Proof.
  intros Hn. apply reachable_new with (data := ex_array [2; 1; 2; n; 3] 0) (samples := ex_labels ["s"] (ex_entries 2))
    (components := [ex_labels ["m"] (ex_entries 1); ex_labels ["x"] (ex_entries 2); ex_labels ["y"] (ex_entries n)])
    (properties := ex_labels ["p"] (ex_entries 3));
    [apply ex_array_wf|apply ex_labels_wf|repeat constructor; apply ex_labels_wf|apply ex_labels_wf|].
  destruct Hn as [-> | ->]; vm_compute; reflexivity.
Qed.

Lemma ex_far_wf n : n = 2 \/ n = 3 -> wf_tensor (ex_far n).
Proof. intros Hn. apply ex_single_wf, ex_far_reachable. exact Hn. Qed.

Lemma ex_far_blocks n : n = 2 \/ n = 3 -> tm_blocks (ex_far n) = [ex_far_block n].
Proof. intros [-> | ->]; vm_compute; reflexivity. Qed.

Lemma ex_far_data n b part : n = 2 \/ n = 3 -> In b (tm_blocks (ex_far n)) -> In part (parts_of_block b) ->
  part = tb_values (ex_far_block n) /\ bb_data part = ex_array [2; 1; 2; n; 3] 0.
Proof.
  intros Hn. rewrite (ex_far_blocks n Hn). intros [<-|[]].
  assert (E : parts_of_block (ex_far_block n) = [tb_values (ex_far_block n)]) by (destruct Hn as [-> | ->]; vm_compute; reflexivity).
  rewrite E. intros [<-|[]]. split; [reflexivity|]. destruct Hn as [-> | ->]; vm_compute; reflexivity.
Qed.

Lemma ex_far_readable n : n = 2 \/ n = 3 -> in_ndarrays (ex_far n) /\ readable_tensor (ex_far n).
Proof.
  intros Hn. split; intros b part Hb Hp; rewrite (proj2 (ex_far_data n b part Hn Hb Hp)); [reflexivity|apply rust_readable].
Qed.

Lemma ex_far_moved_ok n : n = 2 \/ n = 3 -> components_to_properties (ex_far n) ["m"] = (ex_far_moved n, Ok tt).
Proof. intros [-> | ->]; vm_compute; reflexivity. Qed.

Lemma ex_far_exchanged : exchanged_in_memory (tb_values (ex_far_block 2)) "m".
Proof.
  exists [], (ex_labels ["m"] (ex_entries 1)), [ex_labels ["x"] (ex_entries 2)], (ex_labels ["y"] (ex_entries 2)).
  split; [vm_compute; reflexivity|]. split; [vm_compute; reflexivity|]. split; [left; vm_compute; reflexivity|].
  split; [exists [ex_labels ["x"] (ex_entries 2)], [ex_labels ["y"] (ex_entries 2)]; split; vm_compute; reflexivity|].
  split; [right; right; split; vm_compute; repeat constructor|].
  split; [vm_compute; discriminate|]. split; [vm_compute; repeat constructor; discriminate|vm_compute; discriminate].
Qed.
