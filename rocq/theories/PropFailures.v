(* Properties C11, C28 and C49: what is left by calls which fail *)
From Verif Require Import Base Labels Array Block Tensor Spec SpecTensor FailureFacts Examples ExamplesComponents.
Local Open Scope string_scope.
Local Open Scope list_scope.
Local Open Scope nat_scope.

(* C11: with a NUL byte in the parameter, add_gradient never succeeds. If it changes the
   block, it panics, and the only change is the new gradient, which is not listed *)
Theorem C11_nul_parameter :
  forall b parameter data samples components b' result,
    has_nul parameter = true ->
    tensor_block_add_gradient b parameter data samples components = (b', result) ->
    result <> Ok tt
    /\ (b' <> b ->
        result = Panic "invalid C string"
        /\ tensor_block_gradient b parameter = None
        /\ tb_values b' = tb_values b
        /\ tensor_block_gradient_parameters b' = tensor_block_gradient_parameters b
        /\ tensor_block_gradient b' parameter = Some (mk_basic data samples components (bb_properties (tb_values b)))
        /\ forall other, other <> parameter -> tensor_block_gradient b' other = tensor_block_gradient b other).
Proof. exact add_gradient_nul. Qed.
Print Assumptions C11_nul_parameter.

(* C11: after this panic, adding the gradient again is an error *)
Theorem C11_after_the_panic :
  forall b parameter data samples components data2 samples2 components2 b',
    tensor_block_add_gradient b parameter data samples components = (b', Panic "invalid C string") -> b' <> b ->
    exists m, tensor_block_add_gradient b' parameter data2 samples2 components2 = (b', Err (InvalidParameter m)).
Proof. exact add_gradient_again. Qed.
Print Assumptions C11_after_the_panic.

Example C11_nul_example :
  let '(b', result) := tensor_block_add_gradient ex_values_1 (String nul "") ex_gradient_array_1 ex_gradient_samples_1 [ex_cell; ex_xyz] in
  has_nul (String nul "") = true /\ result = Panic "invalid C string" /\ b' <> ex_values_1.
Proof.
  split; [reflexivity|]. split; [vm_compute; reflexivity|]. intros H. apply (f_equal (fun b => length (tb_gradients b))) in H. vm_compute in H. discriminate.
Qed.

(* C49: after a failed reshape, an array of Rust always has shape [0], without any
   element *)
Theorem C49_after_failure :
  forall a shape a' e,
    a_kind a = RustNdarray -> array_reshape a shape = (a', Err e) -> shape_of a' = [0] /\ (forall idx v, ~ element a' idx v) /\ wf_array a'.
Proof. exact reshape_failed. Qed.
Print Assumptions C49_after_failure.

Example C49_after_failure_example :
  a_kind (ex_array [2; 3] 10) = RustNdarray /\ exists a' e, array_reshape (ex_array [2; 3] 10) [7] = (a', Err e).
Proof. split; [reflexivity|]. do 2 eexists. vm_compute. reflexivity. Qed.

(* C28: whenever the name of the moved component is also the one of a property, the call
   panics. The first block lost its component but not the axis of its array; the gradients
   of this block and all the other blocks are unchanged *)
Theorem C28_shared_name :
  forall t b0 rest variables n,
    wf_tensor t -> tm_blocks t = b0 :: rest ->
    In variables (map labels_names (bb_components (tb_values b0))) -> In n variables -> In n (labels_names (bb_properties (tb_values b0))) ->
    exists before component after,
      bb_components (tb_values b0) = before ++ component :: after /\ labels_names component = variables
      /\ components_to_properties t variables
         = (mk_tensor (tm_keys t)
              (mk_block (mk_basic (bb_data (tb_values b0)) (bb_samples (tb_values b0)) (before ++ after) (bb_properties (tb_values b0)))
                 (tb_gradients b0) (tb_gradient_parameters b0) :: rest),
            Panic "invalid labels: the same name is used multiple times").
Proof. exact components_shared. Qed.
Print Assumptions C28_shared_name.

(* C28: after any failure, the keys are unchanged; the component was moved in all the
   blocks before one of them, and the blocks after it are unchanged *)
Theorem C28_after_failure :
  forall t variables t' r,
    components_to_properties t variables = (t', r) -> r <> Ok tt ->
    tm_keys t' = tm_keys t
    /\ exists before b after before' b', tm_blocks t = before ++ b :: after /\ tm_blocks t' = before' ++ b' :: after
         /\ Forall2 (fun x x' => tensor_block_components_to_properties x variables = (x', Ok tt)) before before'
         /\ tensor_block_components_to_properties b variables = (b', r).
Proof. exact components_failed. Qed.
Print Assumptions C28_after_failure.

Example C28_shared_example :
  wf_tensor ex_colliding
  /\ exists b0 t', tm_blocks ex_colliding = [b0] /\ In ["n"] (map labels_names (bb_components (tb_values b0)))
       /\ In "n" (labels_names (bb_properties (tb_values b0)))
       /\ components_to_properties ex_colliding ["n"] = (t', Panic "invalid labels: the same name is used multiple times").
Proof.
  split; [apply ex_colliding_wf|]. do 2 eexists. split; [reflexivity|]. split; [vm_compute; tauto|]. split; [vm_compute; tauto|].
  vm_compute. reflexivity.
Qed.
