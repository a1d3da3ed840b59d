(* Property C51: the order of the gradients *)
From Coq Require Import Permutation.
From Verif Require Import Base Labels Array Block Tensor Spec SpecTensor TensorFacts OrderFacts Examples ExamplesMoved.
Local Open Scope string_scope.
Local Open Scope list_scope.
Local Open Scope nat_scope.

(* C51: two tensor maps which only differ by the order of their gradients give
   the same result, up to the order of the gradients; or both calls fail, and
   nothing is changed *)
Theorem C51_keys_to_samples_order :
  forall p t t' keys sort,
    wf_tensor t -> reordered t t' ->
    (exists r r', keys_to_samples p t keys sort = (r, Ok tt) /\ keys_to_samples p t' keys sort = (r', Ok tt)
                  /\ reordered r r')
    \/ (fst (keys_to_samples p t keys sort) = t /\ fst (keys_to_samples p t' keys sort) = t'
        /\ snd (keys_to_samples p t keys sort) <> Ok tt /\ snd (keys_to_samples p t' keys sort) <> Ok tt).
Proof. exact keys_to_samples_order. Qed.
Print Assumptions C51_keys_to_samples_order.

Theorem C51_keys_to_properties_order :
  forall p t t' keys sort,
    wf_tensor t -> reordered t t' ->
    (exists r r', keys_to_properties p t keys sort = (r, Ok tt) /\ keys_to_properties p t' keys sort = (r', Ok tt)
                  /\ reordered r r')
    \/ (fst (keys_to_properties p t keys sort) = t /\ fst (keys_to_properties p t' keys sort) = t'
        /\ snd (keys_to_properties p t keys sort) <> Ok tt /\ snd (keys_to_properties p t' keys sort) <> Ok tt).
Proof. exact keys_to_properties_order. Qed.
Print Assumptions C51_keys_to_properties_order.

(* a failure of components_to_properties can leave some of the gradients changed
   (C28), which ones depends on the order *)
Theorem C51_components_to_properties_order :
  forall t t' variables r,
    reordered t t' -> components_to_properties t variables = (r, Ok tt) ->
    exists r', components_to_properties t' variables = (r', Ok tt) /\ reordered r r'.
Proof. exact components_to_properties_order. Qed.
Print Assumptions C51_components_to_properties_order.

Example C51_example :
  wf_tensor ex_two /\ reordered ex_two ex_two_reordered
  /\ map (fun b => tb_gradient_parameters b) (tm_blocks ex_two) = [["positions"; "strain"]; ["positions"; "strain"]]
  /\ map (fun b => tb_gradient_parameters b) (tm_blocks ex_two_reordered) = [["strain"; "positions"]; ["positions"; "strain"]]
  /\ (let moved := keys_to_samples Debug ex_two_reordered (ex_labels ["spin"] []) true in
      snd moved = Ok tt /\ map (fun b => tb_gradient_parameters b) (tm_blocks (fst moved)) = [["strain"; "positions"]])
  /\ snd (keys_to_properties Debug ex_two (ex_labels ["spin"] [[1]; [4]]%Z) true) = Ok tt
  /\ snd (components_to_properties ex_two ["xyz"]) = Ok tt.
Proof.
  split; [exact ex_two_wf|]. split; [exact ex_two_is_reordered|].
  repeat (split; [vm_compute; auto; reflexivity|]). vm_compute. reflexivity.
Qed.
