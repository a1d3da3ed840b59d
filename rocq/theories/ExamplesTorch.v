(* Concrete tensors of torch *)
From Verif Require Import Base Labels Array Block Tensor Strided Npy Io Numpy Torch Spec SpecTensor SpecIo SpecNumpy LabelsFacts BlockFacts TensorFacts
  NumpyFacts TorchFacts Examples ExamplesComponents ExamplesIo ExamplesNumpy.
Local Open Scope string_scope.
Local Open Scope list_scope.
Local Open Scope nat_scope.

(* the last four elements, on the CPU; they are read in reverse order on a GPU *)
Definition ex_cpu : torch_tensor := mk_torch (mk_np 0 8 [2; 2] [2; 1]%Z Float64) "cpu" false.
Definition ex_gpu : torch_tensor := mk_torch (mk_np 0 11 [2; 2] [-2; -1]%Z Float64) "cuda" false.

Lemma ex_cpu_in_memory : in_memory [ex_buffer] (tt_array ex_cpu).
Proof. eapply in_memory_check; reflexivity. Qed.

Lemma ex_gpu_in_memory : in_memory [ex_buffer] (tt_array ex_gpu).
Proof. eapply in_memory_check; reflexivity. Qed.

Lemma ex_cpu_in_order : one_after_the_other (tt_array ex_cpu).
Proof.
  destruct (proj1 (NumpyFacts.readable _ _ ex_cpu_in_memory [18; 19; 20; 21]%Z)) as (_ & H & _); [vm_compute; reflexivity|exact H].
Qed.

Definition ex_torch_block : TensorBlock :=
  ex_block (eqs_array_of 5 [ex_buffer] (TorchTensor ex_cpu)) (ex_labels ["s"] [[0]; [1]]%Z) [] (ex_labels ["p"] [[0]; [1]]%Z).
Definition ex_torch : TensorMap := ex_single ex_torch_block.

Lemma ex_torch_wf : wf_tensor ex_torch.
Proof.
  apply ex_single_wf.
  apply reachable_new with (data := eqs_array_of 5 [ex_buffer] (TorchTensor ex_cpu)) (samples := ex_labels ["s"] [[0]; [1]]%Z) (components := [])
    (properties := ex_labels ["p"] [[0]; [1]]%Z); [split; [intros _; vm_compute; reflexivity|discriminate]|apply ex_labels_wf|constructor|apply ex_labels_wf|vm_compute; reflexivity].
Qed.

Lemma ex_torch_described : tensor_in_memory ex_torch /\ describable ex_torch.
Proof. apply check_tensor_sound. vm_compute. reflexivity. Qed.

Lemma ex_not_read : exists m t,
  in_memory m (tt_array t) /\ tt_device t = "cpu" /\ tt_requires_grad t = false /\ np_dtype (tt_array t) = Float64
  /\ one_after_the_other (tt_array t) /\ wrapper_data m (TorchTensor t) = None.
Proof.
  exists [ex_buffer], ex_cpu. split; [exact ex_cpu_in_memory|]. repeat (split; [reflexivity|]). split; [exact ex_cpu_in_order|reflexivity].
Qed.
