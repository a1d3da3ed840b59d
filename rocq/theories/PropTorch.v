(* Property C114: saving tensors of torch *)
From Verif Require Import Base Labels Array Block Tensor Strided Npy Io Numpy Torch Spec SpecTensor SpecIo SpecNumpy NumpyFacts TorchFacts
  Examples ExamplesIo ExamplesNumpy ExamplesTorch.
Local Open Scope string_scope.
Local Open Scope list_scope.
Local Open Scope nat_scope.

(* C114. The full statement: the library can read the data of arrays of floating point
   numbers which are one after the other, in numpy arrays or in tensors of torch on
   the CPU without gradients. This is proved here for numpy. *)
Theorem C114_library_reads_data_partial :
  forall origin m a,
    in_memory m a -> np_dtype a = Float64 -> one_after_the_other a ->
    array_data (eqs_array_of origin m (NumpyArray a)) = Ok (np_elements m a).
Proof. exact numpy_array_gives. Qed.
Print Assumptions C114_library_reads_data_partial.

(* C114: all the tensors of torch can be saved by numpy, but the ones with gradients *)
Theorem C114_numpy_reads_torch_tensors :
  forall m t,
    in_memory m (tt_array t) ->
    (tt_requires_grad t = false ->
       exists m' a, array_to_numpy m (TorchTensor t) = Some (m', a) /\ (exists new, m' = m ++ new)
         /\ np_shape a = np_shape (tt_array t) /\ np_dtype a = np_dtype (tt_array t) /\ np_elements m' a = np_elements m (tt_array t))
    /\ (tt_requires_grad t = true -> array_to_numpy m (TorchTensor t) = None).
Proof. exact torch_with_numpy. Qed.
Print Assumptions C114_numpy_reads_torch_tensors.

(* C114: the library never saves a tensor map with a tensor of torch in it *)
Theorem C114_library_never_saves_torch_tensors :
  forall e t b part origin m x archive,
    wf_tensor t -> tensor_in_memory t -> describable t ->
    In b (tm_blocks t) -> In part (parts_of_block b) -> bb_data part = eqs_array_of origin m (TorchTensor x) ->
    save e t <> Ok archive.
Proof. exact torch_never_saved. Qed.
Print Assumptions C114_library_never_saves_torch_tensors.

Example C114_example :
  in_memory [ex_buffer] (tt_array ex_cpu) /\ np_dtype (tt_array ex_cpu) = Float64 /\ one_after_the_other (tt_array ex_cpu)
  /\ np_elements [ex_buffer] (tt_array ex_cpu) = [18; 19; 20; 21]%Z
  /\ in_memory [ex_buffer] (tt_array ex_gpu) /\ tt_requires_grad ex_gpu = false
  /\ np_elements [ex_buffer] (tt_array ex_gpu) = [21; 20; 19; 18]%Z
  /\ array_to_numpy [ex_buffer] (TorchTensor ex_gpu)
     = Some ([ex_buffer; [21; 20; 19; 18]%Z], mk_np 1 0 [2; 2] [2; 1]%Z Float64)
  /\ wf_tensor ex_torch /\ tensor_in_memory ex_torch /\ describable ex_torch
  /\ map bb_data (flat_map parts_of_block (tm_blocks ex_torch)) = [eqs_array_of 5 [ex_buffer] (TorchTensor ex_cpu)].
Proof.
  split; [exact ex_cpu_in_memory|]. split; [reflexivity|]. split; [exact ex_cpu_in_order|]. split; [vm_compute; reflexivity|].
  split; [exact ex_gpu_in_memory|]. split; [reflexivity|]. split; [vm_compute; reflexivity|]. split; [vm_compute; reflexivity|].
  split; [exact ex_torch_wf|]. split; [exact (proj1 ex_torch_described)|]. split; [exact (proj2 ex_torch_described)|]. vm_compute. reflexivity.
Qed.

(* C114: tensors of torch on the CPU are refused *)
Theorem C114_library_reads_data_refuted :
  exists m t,
    in_memory m (tt_array t) /\ tt_device t = "cpu" /\ tt_requires_grad t = false /\ np_dtype (tt_array t) = Float64
    /\ one_after_the_other (tt_array t) /\ wrapper_data m (TorchTensor t) = None.
Proof. exact ex_not_read. Qed.
Print Assumptions C114_library_reads_data_refuted.
