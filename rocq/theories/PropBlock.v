(* Properties C09-C12: blocks and gradients *)
From Coq Require Import Permutation.
From Verif Require Import Base Labels Array Block Spec SpecTensor LabelsFacts BlockFacts Examples.
Local Open Scope string_scope.
Local Open Scope list_scope.
Local Open Scope nat_scope.

(* C09: a block is accepted exactly when the array and the labels agree, and it
   then exposes exactly what it was given *)
Theorem C09_block_accepted_iff_shapes_agree :
  forall data samples components properties b,
    wf_labels samples -> Forall wf_labels components -> wf_labels properties -> answers data OpShape ->
    (tensor_block_new data samples components properties = Ok b <->
     shapes_agree data samples components properties
     /\ b = mk_block (mk_basic data samples components properties) [] []).
Proof. exact tensor_block_new_ok. Qed.
Print Assumptions C09_block_accepted_iff_shapes_agree.

(* C09: all other calls are refused with an error (no panic), as long as all
   labels have at least one variable *)
Theorem C09_refused_block_is_an_error :
  forall data samples components properties,
    wf_labels samples -> Forall wf_labels components -> wf_labels properties -> answers data OpShape ->
    labels_names samples <> [] -> labels_names properties <> [] ->
    Forall (fun c => labels_names c <> []) components ->
    (exists b, tensor_block_new data samples components properties = Ok b)
    \/ (exists m, tensor_block_new data samples components properties = Err (InvalidParameter m)).
Proof. exact tensor_block_new_error. Qed.
Print Assumptions C09_refused_block_is_an_error.

Example C09_example :
  wf_labels ex_samples_1 /\ Forall wf_labels [ex_xyz] /\ wf_labels ex_properties
  /\ answers (ex_array [2; 2; 3] 100) OpShape
  /\ (exists b, tensor_block_new (ex_array [2; 2; 3] 100) ex_samples_1 [ex_xyz] ex_properties = Ok b)
  /\ (exists m, tensor_block_new (ex_array [2; 3; 3] 100) ex_samples_1 [ex_xyz] ex_properties
                = Err (InvalidParameter m)).
Proof.
  split; [apply ex_samples_1_wf|]. split; [repeat constructor; apply ex_xyz_wf|].
  split; [apply ex_properties_wf|]. split; [apply rust_answers; reflexivity|].
  split; eexists; vm_compute; reflexivity.
Qed.

(* C10: a gradient is accepted exactly when it is new, not called 'values', and
   compatible with the values *)
Theorem C10_gradient_accepted_iff_compatible :
  forall b parameter data samples components b',
    wf_basic (tb_values b) ->
    wf_labels samples -> Forall wf_labels components -> has_nul parameter = false ->
    answers data OpShape -> answers data OpOrigin -> answers (bb_data (tb_values b)) OpOrigin ->
    (tensor_block_add_gradient b parameter data samples components = (b', Ok tt) <->
     acceptable_gradient b parameter data samples components
     /\ b' = mk_block (tb_values b)
               (tb_gradients b ++ [(parameter, mk_basic data samples components (bb_properties (tb_values b)))])
               (tb_gradient_parameters b ++ [parameter])).
Proof. exact add_gradient_ok. Qed.
Print Assumptions C10_gradient_accepted_iff_compatible.

Example C10_example :
  wf_basic (tb_values ex_values_1)
  /\ wf_labels ex_gradient_samples_1 /\ Forall wf_labels [ex_cell; ex_xyz]
  /\ acceptable_gradient ex_values_1 "positions" ex_gradient_array_1 ex_gradient_samples_1 [ex_cell; ex_xyz].
Proof.
  assert (Hwf : wf_basic (tb_values ex_values_1)) by (apply (reachable_wf _ ex_values_1_reachable)).
  assert (Hc : Forall wf_labels [ex_cell; ex_xyz])
    by (repeat constructor; [apply ex_cell_wf | apply ex_xyz_wf]).
  split; [exact Hwf|]. split; [apply ex_gradient_samples_1_wf|]. split; [exact Hc|].
  eapply (add_gradient_ok ex_values_1 "positions" ex_gradient_array_1 ex_gradient_samples_1
           [ex_cell; ex_xyz] ex_block_1); auto using ex_gradient_samples_1_wf.
  - apply rust_answers; reflexivity.
  - apply rust_answers; reflexivity.
  - apply rust_answers; reflexivity.
Qed.

(* C11: a refused gradient leaves the block untouched, an accepted one only adds
   itself, listed last *)
Theorem C11_add_gradient_frame :
  forall b parameter data samples components b' result,
    has_nul parameter = false ->
    tensor_block_add_gradient b parameter data samples components = (b', result) ->
    (result <> Ok tt -> b' = b)
    /\ (result = Ok tt ->
        tb_values b' = tb_values b
        /\ tensor_block_gradient_parameters b' = tensor_block_gradient_parameters b ++ [parameter]
        /\ tensor_block_gradient b' parameter
           = Some (mk_basic data samples components (bb_properties (tb_values b)))
        /\ forall other, other <> parameter ->
             tensor_block_gradient b' other = tensor_block_gradient b other).
Proof. exact add_gradient_frame. Qed.
Print Assumptions C11_add_gradient_frame.

Example C11_example :
  (* refused: already present *)
  (exists m, tensor_block_add_gradient ex_block_1 "positions" ex_gradient_array_1 ex_gradient_samples_1
               [ex_cell; ex_xyz] = (ex_block_1, Err (InvalidParameter m)))
  (* accepted *)
  /\ (exists b', tensor_block_add_gradient ex_block_1 "cell" ex_gradient_array_1 ex_gradient_samples_1
                   [ex_cell; ex_xyz] = (b', Ok tt)).
Proof. split; eexists; vm_compute; reflexivity. Qed.

(* C11, a corner: with a NUL byte in the parameter name add_gradient panics
   after having inserted the gradient, which is then not listed *)
Theorem C11_nul_parameter_refuted :
  exists parameter b' m,
    tensor_block_add_gradient ex_values_1 parameter ex_gradient_array_1 ex_gradient_samples_1
      [ex_cell; ex_xyz] = (b', Panic m)
    /\ tensor_block_gradient ex_values_1 parameter = None
    /\ tensor_block_gradient b' parameter <> None
    /\ ~ In parameter (tensor_block_gradient_parameters b').
Proof.
  exists (String nul ""). eexists. eexists. split; [vm_compute; reflexivity|].
  split; [vm_compute; reflexivity|]. split; [vm_compute; discriminate|]. vm_compute. tauto.
Qed.
Print Assumptions C11_nul_parameter_refuted.

(* C12: every reachable block satisfies the shape invariant *)
Theorem C12_block_invariant : forall b, reachable_block b -> wf_block b.
Proof. exact reachable_wf. Qed.
Print Assumptions C12_block_invariant.

Example C12_example : reachable_block ex_block_1 /\ tb_gradient_parameters ex_block_1 = ["positions"].
Proof. split; [apply ex_block_1_reachable|reflexivity]. Qed.
