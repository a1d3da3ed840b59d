(* Property C71: when the data can be read after moving any component *)
From Verif Require Import Base Labels Array Block Tensor Npy Io Spec SpecTensor SpecIo SpecExact ReadableAnyFacts Examples ExamplesReadable.
Local Open Scope string_scope.
Local Open Scope list_scope.
Local Open Scope nat_scope.

(* C71: the data of the arrays can not be read any more exactly when the new shape can be
   described with the exchanged axes, and these axes are not in the order of the new shape *)
Theorem C71_readable_iff :
  forall t name t',
    wf_tensor t -> in_ndarrays t -> readable_tensor t ->
    components_to_properties t [name] = (t', Ok tt) ->
    (readable_tensor t' <->
     forall b part, In b (tm_blocks t) -> In part (parts_of_block b) -> ~ exchanged_in_memory part name).
Proof. exact components_readable_any. Qed.
Print Assumptions C71_readable_iff.

(* the component with one entry is before two others: with two entries for both, the data
   can not be read, and the tensor map can not be saved; with two and three entries the
   elements are copied *)
Example C71_any_example :
  (forall n, n = 2 \/ n = 3 ->
     wf_tensor (ex_far n) /\ in_ndarrays (ex_far n) /\ readable_tensor (ex_far n)
     /\ components_to_properties (ex_far n) ["m"] = (ex_far_moved n, Ok tt))
  /\ exchanged_in_memory (tb_values (ex_far_block 2)) "m"
  /\ map (fun b => array_data (bb_data (tb_values b))) (tm_blocks (ex_far_moved 2))
     = [Err (External 255 "calling eqs_array_t.data failed")]
  /\ save LittleEndian (ex_far_moved 2) = Err (External 255 "calling eqs_array_t.data failed")
  /\ map (fun b => nd_shape (a_nd (bb_data (tb_values b)))) (tm_blocks (ex_far_moved 3)) = [[2; 2; 3; 3]]
  /\ (exists numbers, map (fun b => array_data (bb_data (tb_values b))) (tm_blocks (ex_far_moved 3)) = [Ok numbers]).
Proof.
  split.
  { intros n Hn. split; [exact (ex_far_wf n Hn)|]. destruct (ex_far_readable n Hn) as [H1 H2].
    split; [exact H1|]. split; [exact H2|]. exact (ex_far_moved_ok n Hn). }
  split; [exact ex_far_exchanged|]. split; [vm_compute; reflexivity|]. split; [vm_compute; reflexivity|].
  split; [vm_compute; reflexivity|]. eexists. vm_compute. reflexivity.
Qed.
