(* Properties C30, C52 and C53: when moving keys succeeds *)
From Coq Require Import Permutation.
From Verif Require Import Base Labels Array Block Tensor Spec SpecTensor LabelsFacts TensorFacts MovedFacts CompleteFacts Examples ExamplesMoved.
Local Open Scope string_scope.
Local Open Scope list_scope.
Local Open Scope nat_scope.

(* C52: moving keys to samples succeeds exactly when it can; when it can not, the
   parameters are refused and the tensor map is left alone *)
Theorem C52_keys_to_samples_succeeds_when_possible :
  forall p t keys sort,
    workable t -> wf_labels keys -> labels_names keys <> [] -> agreeing_groups t (labels_names keys) ->
    (forall b name, In b (tm_blocks t) -> In name (labels_names keys) ->
       ~ In name (labels_names (bb_samples (tb_values b)))) ->
    let possible := rows keys = []
      /\ (forall v, In v (labels_names keys) -> In v (labels_names (tm_keys t)))
      /\ same_components_groups t (labels_names keys) /\ same_properties_groups t (labels_names keys) in
    (possible /\ exists t', keys_to_samples p t keys sort = (t', Ok tt))
    \/ (~ possible /\ exists m, keys_to_samples p t keys sort = (t, Err (InvalidParameter m))).
Proof. exact keys_to_samples_complete. Qed.
Print Assumptions C52_keys_to_samples_succeeds_when_possible.

Example C52_example :
  let keys := ex_labels ["center"] [] in
  let missing := ex_labels ["species"] [] in
  workable ex_tensor /\ wf_labels keys /\ wf_labels missing
  /\ agreeing_groups ex_tensor ["center"] /\ agreeing_groups ex_tensor ["species"]
  /\ (forall b name, In b (tm_blocks ex_tensor) -> In name ["center"; "species"] ->
        ~ In name (labels_names (bb_samples (tb_values b))))
  /\ snd (keys_to_samples Debug ex_tensor keys true) = Ok tt
  /\ snd (keys_to_samples Debug ex_tensor missing true)
     = Err (InvalidParameter "'species' is not part of the keys for this tensor map").
Proof.
  cbv zeta.
  split; [exact ex_tensor_workable|]. split; [apply ex_labels_wf|]. split; [apply ex_labels_wf|].
  split; [apply ex_agreeing|]. split; [apply ex_agreeing|].
  split; [apply ex_tensor_names; vm_compute; reflexivity|].
  split; vm_compute; reflexivity.
Qed.

(* C53: moving keys to properties succeeds exactly when it can *)
Theorem C53_keys_to_properties_succeeds_when_possible :
  forall p t keys sort,
    workable t -> wf_labels keys -> labels_names keys <> [] -> agreeing_groups t (labels_names keys) ->
    (forall b, In b (tm_blocks t) -> rows (bb_properties (tb_values b)) <> []) ->
    (forall b name, In b (tm_blocks t) -> In name (labels_names keys) ->
       ~ In name (labels_names (bb_properties (tb_values b)))) ->
    let possible := (forall v, In v (labels_names keys) -> In v (labels_names (tm_keys t)))
      /\ same_components_groups t (labels_names keys)
      /\ (rows keys <> [] -> same_properties_groups t (labels_names keys)) in
    (possible /\ exists t', keys_to_properties p t keys sort = (t', Ok tt))
    \/ (~ possible /\ exists m, keys_to_properties p t keys sort = (t, Err (InvalidParameter m))).
Proof. exact keys_to_properties_complete. Qed.
Print Assumptions C53_keys_to_properties_succeeds_when_possible.

Example C53_example :
  let keys := ex_labels ["center"] [[7]; [8]]%Z in
  let missing := ex_labels ["species"] [] in
  workable ex_tensor /\ wf_labels keys /\ wf_labels missing
  /\ agreeing_groups ex_tensor ["center"] /\ agreeing_groups ex_tensor ["species"]
  /\ (forall b, In b (tm_blocks ex_tensor) -> rows (bb_properties (tb_values b)) <> [])
  /\ (forall b name, In b (tm_blocks ex_tensor) -> In name ["center"; "species"] ->
        ~ In name (labels_names (bb_properties (tb_values b))))
  /\ snd (keys_to_properties Release ex_tensor keys true) = Ok tt
  /\ snd (keys_to_properties Release ex_tensor missing true)
     = Err (InvalidParameter "'species' is not part of the keys for this tensor map").
Proof.
  cbv zeta.
  split; [exact ex_tensor_workable|]. split; [apply ex_labels_wf|]. split; [apply ex_labels_wf|].
  split; [apply ex_agreeing|]. split; [apply ex_agreeing|]. split; [exact ex_tensor_some_properties|].
  split; [apply ex_tensor_property_names; vm_compute; reflexivity|].
  split; vm_compute; reflexivity.
Qed.

(* C30, as far as it is true: for tensor maps with data which can be moved, both
   functions succeed or refuse their parameters. Each hypothesis which is not
   given by TensorMap::new is needed, see the counter-examples of PropLimits.v. *)
Theorem C30_moving_keys_does_not_panic_partial :
  forall p t keys sort,
    workable t -> wf_labels keys -> labels_names keys <> [] -> agreeing_groups t (labels_names keys) ->
    (forall b, In b (tm_blocks t) -> rows (bb_properties (tb_values b)) <> []) ->
    (forall b name, In b (tm_blocks t) -> In name (labels_names keys) ->
       ~ In name (labels_names (bb_samples (tb_values b)))
       /\ ~ In name (labels_names (bb_properties (tb_values b)))) ->
    (forall m, snd (keys_to_samples p t keys sort) <> Panic m)
    /\ (forall m, snd (keys_to_properties p t keys sort) <> Panic m).
Proof. exact moving_keys_no_panic. Qed.
Print Assumptions C30_moving_keys_does_not_panic_partial.

Example C30_partial_example :
  workable ex_tensor /\ wf_labels (ex_labels ["center"] [])
  /\ (forall b, In b (tm_blocks ex_tensor) -> rows (bb_properties (tb_values b)) <> [])
  /\ (forall b name, In b (tm_blocks ex_tensor) -> In name ["center"] ->
       ~ In name (labels_names (bb_samples (tb_values b)))
       /\ ~ In name (labels_names (bb_properties (tb_values b))))
  /\ snd (keys_to_properties Debug ex_tensor (ex_labels ["center"] []) false) = Ok tt.
Proof.
  split; [exact ex_tensor_workable|]. split; [apply ex_labels_wf|]. split; [exact ex_tensor_some_properties|].
  split; [|vm_compute; reflexivity]. intros b name Hb Hn. split.
  - revert b name Hb Hn. apply ex_tensor_names. vm_compute. reflexivity.
  - revert b name Hb Hn. apply ex_tensor_property_names. vm_compute. reflexivity.
Qed.
