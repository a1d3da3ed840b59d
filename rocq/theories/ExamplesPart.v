(* Concrete tensor maps for which only a part of the variables can be moved *)
From Verif Require Import Base Labels Array Block Tensor Spec SpecTensor TensorFacts MovedFacts Examples ExamplesMoved ExamplesSteps.
Local Open Scope string_scope.
Local Open Scope list_scope.
Local Open Scope nat_scope.

(* two blocks with different properties, and keys which differ in both variables *)
Definition pa_tensor : TensorMap := mk_tensor (ex_labels ["spin"; "kind"] [[0; 4]; [1; 5]]%Z) (tm_blocks st_wide).

Lemma pa_tensor_wf : wf_tensor pa_tensor.
Proof.
  assert (H : wf_tensor st_wide).
  { refine (proj1 (keys_to_properties_wf _ _ _ _ _ ex_tensor_wf (ex_labels_wf _ _) (or_introl _) st_wide_ok)). vm_compute. reflexivity. }
  destruct H as (_ & Hb & Hl & Hh). split; [split; [apply ex_labels_wf|vm_compute; discriminate]|]. split; [exact Hb|]. split; [|exact Hh].
  vm_compute. reflexivity.
Qed.

Lemma pa_union : exists p t k1 k2 k t1 t2 error,
  wf_tensor t /\ tensor_map_new (tm_keys t) (tm_blocks t) = Ok t
  /\ labels_names k = labels_names k1 ++ labels_names k2
  /\ keys_to_samples p t k1 true = (t1, Ok tt) /\ keys_to_samples p t k2 true = (t2, Ok tt)
  /\ keys_to_samples p t k true = (t, Err error).
Proof.
  exists Debug, pa_tensor, (st_labels ["spin"]), (st_labels ["kind"]), (st_labels ["spin"; "kind"]),
    (fst (keys_to_samples Debug pa_tensor (st_labels ["spin"]) true)), (fst (keys_to_samples Debug pa_tensor (st_labels ["kind"]) true)).
  eexists. split; [exact pa_tensor_wf|]. split; [vm_compute; reflexivity|]. split; [vm_compute; reflexivity|].
  split; [vm_compute; reflexivity|]. split; [vm_compute; reflexivity|]. vm_compute. reflexivity.
Qed.
