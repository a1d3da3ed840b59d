(* Properties C13-C17 and C24: tensor maps, selection, keys *)
From Coq Require Import Permutation Sorted.
From Verif Require Import Base Labels Array Block Tensor Spec SpecTensor LabelsFacts BlockFacts TensorFacts KeysFacts Examples.
Local Open Scope string_scope.
Local Open Scope list_scope.
Local Open Scope nat_scope.

(* C13: a tensor map is accepted exactly when the blocks are homogeneous, and it
   then holds exactly the given keys and blocks *)
Theorem C13_tensor_map_accepted_iff_homogeneous :
  forall keys blocks t,
    axis_labels keys -> Forall wf_block blocks ->
    (tensor_map_new keys blocks = Ok t <-> homogeneous keys blocks /\ t = mk_tensor keys blocks).
Proof. exact tensor_map_new_ok. Qed.
Print Assumptions C13_tensor_map_accepted_iff_homogeneous.

(* C13: everything else is refused with an error, never a panic *)
Theorem C13_refused_tensor_map_is_an_error :
  forall keys blocks,
    axis_labels keys ->
    (exists t, tensor_map_new keys blocks = Ok t)
    \/ (exists m, tensor_map_new keys blocks = Err (InvalidParameter m)).
Proof. exact tensor_map_new_error. Qed.
Print Assumptions C13_refused_tensor_map_is_an_error.

Example C13_example :
  axis_labels ex_keys /\ Forall wf_block [ex_block_1; ex_block_2; ex_block_3]
  /\ tensor_map_new ex_keys [ex_block_1; ex_block_2; ex_block_3] = Ok ex_tensor
  /\ (* a block without gradient does not fit *)
     (exists m, tensor_map_new ex_keys [ex_block_1; ex_values_2; ex_block_3] = Err (InvalidParameter m)).
Proof.
  split; [apply ex_keys_axis|]. split; [apply ex_blocks_wf|]. split; [apply ex_tensor_new|].
  eexists. vm_compute. reflexivity.
Qed.

(* C14: blocks_matching returns exactly the matching blocks, in increasing order
   and once each; unusable selections are errors *)
Theorem C14_blocks_matching_exact :
  forall t selection,
    wf_tensor t -> wf_labels selection ->
    (valid_selection t selection ->
       exists l, blocks_matching t selection = Ok l /\ StronglySorted lt l
         /\ forall i, In i l <-> selected t selection i)
    /\ (~ valid_selection t selection -> exists m, blocks_matching t selection = Err (InvalidParameter m)).
Proof. exact blocks_matching_spec. Qed.
Print Assumptions C14_blocks_matching_exact.

Example C14_example :
  wf_tensor ex_tensor
  /\ (let selection := ex_labels ["kind"; "spin"] [[4; 0]]%Z in
      wf_labels selection /\ valid_selection ex_tensor selection
      /\ blocks_matching ex_tensor selection = Ok [0; 2])
  /\ (let selection := ex_labels ["kind"; "other"] [[4; 0]]%Z in
      wf_labels selection /\ exists m, blocks_matching ex_tensor selection = Err (InvalidParameter m)).
Proof.
  split; [apply ex_tensor_wf|]. split.
  - split; [apply ex_labels_wf|]. split.
    + right. split; [reflexivity|]. intros name. vm_compute. intuition.
    + vm_compute. reflexivity.
  - split; [apply ex_labels_wf|]. eexists. vm_compute. reflexivity.
Qed.

(* C15: block_matching returns i exactly when i is the only match *)
Theorem C15_block_matching_unambiguous :
  forall t selection,
    wf_tensor t -> wf_labels selection ->
    (forall i, block_matching t selection = Ok i <->
       valid_selection t selection /\ selected t selection i
       /\ forall j, selected t selection j -> j = i)
    /\ ((forall i, block_matching t selection <> Ok i) ->
        exists m, block_matching t selection = Err (InvalidParameter m)).
Proof. exact block_matching_spec. Qed.
Print Assumptions C15_block_matching_unambiguous.

(* C15: the full key of a block always selects this block *)
Theorem C15_full_key_selects_its_block :
  forall t i key selection,
    wf_tensor t -> nth_error (rows (tm_keys t)) i = Some key ->
    labels_build (labels_names (tm_keys t)) [key] = Ok selection ->
    block_matching t selection = Ok i.
Proof. exact block_matching_full_key. Qed.
Print Assumptions C15_full_key_selects_its_block.

Example C15_example :
  wf_tensor ex_tensor
  /\ block_matching ex_tensor (ex_labels ["center"] [[8]]%Z) = Ok 2
  /\ (exists m, block_matching ex_tensor (ex_labels ["center"] [[1]]%Z) = Err (InvalidParameter m))
  /\ labels_build (labels_names (tm_keys ex_tensor)) [[1; 1; 4]%Z]
     = Ok (ex_labels ["center"; "spin"; "kind"] [[1; 1; 4]%Z]).
Proof.
  split; [apply ex_tensor_wf|]. split; [vm_compute; reflexivity|].
  split; [eexists; vm_compute; reflexivity|vm_compute; reflexivity].
Qed.

(* C16: iteration yields each key with its own block, in order *)
Theorem C16_iteration_pairs_keys_and_blocks :
  forall t, wf_tensor t ->
    exists l, tensor_map_iter t = Ok l /\ length l = length (tm_blocks t)
      /\ length l = length (rows (tm_keys t))
      /\ forall i k b, nth_error l i = Some (k, b) <->
           nth_error (rows (tm_keys t)) i = Some k /\ nth_error (tm_blocks t) i = Some b.
Proof. exact tensor_map_iter_spec. Qed.
Print Assumptions C16_iteration_pairs_keys_and_blocks.

Example C16_example :
  wf_tensor ex_tensor
  /\ tensor_map_iter ex_tensor
     = Ok [([1; 0; 4]%Z, ex_block_1); ([1; 1; 4]%Z, ex_block_2); ([8; 0; 4]%Z, ex_block_3)].
Proof. split; [apply ex_tensor_wf|vm_compute; reflexivity]. Qed.

(* C17: the new keys are the distinct remaining parts of the old keys, in order
   of first appearance ([new_key] is the placeholder 0 when nothing remains) *)
Theorem C17_keys_to_samples_new_keys :
  forall p t keys sort t',
    wf_tensor t -> keys_to_samples p t keys sort = (t', Ok tt) ->
    labels_names (tm_keys t') = new_key_names (labels_names keys) (labels_names (tm_keys t))
    /\ first_appearance (map (new_key (labels_names keys) (labels_names (tm_keys t))) (rows (tm_keys t)))
         (rows (tm_keys t')).
Proof. exact keys_to_samples_keys. Qed.
Print Assumptions C17_keys_to_samples_new_keys.

Theorem C17_keys_to_properties_new_keys :
  forall p t keys sort t',
    wf_tensor t -> keys_to_properties p t keys sort = (t', Ok tt) ->
    labels_names (tm_keys t') = new_key_names (labels_names keys) (labels_names (tm_keys t))
    /\ first_appearance (map (new_key (labels_names keys) (labels_names (tm_keys t))) (rows (tm_keys t)))
         (rows (tm_keys t')).
Proof. exact keys_to_properties_keys. Qed.
Print Assumptions C17_keys_to_properties_new_keys.

Example C17_example :
  wf_tensor ex_tensor
  /\ (exists t', keys_to_samples Debug ex_tensor (ex_labels ["center"] []) true = (t', Ok tt)
      /\ labels_names (tm_keys t') = ["spin"; "kind"] /\ rows (tm_keys t') = [[0; 4]; [1; 4]]%Z)
  /\ (exists t', keys_to_properties Release ex_tensor (ex_labels ["center"; "spin"; "kind"] []) false = (t', Ok tt)
      /\ labels_names (tm_keys t') = ["_"] /\ rows (tm_keys t') = [[0]]%Z).
Proof.
  split; [apply ex_tensor_wf|].
  split; eexists; split; try (vm_compute; reflexivity); split; vm_compute; reflexivity.
Qed.

(* C24: failures change nothing *)
Theorem C24_failed_keys_to_samples_changes_nothing :
  forall p t keys sort t' result,
    keys_to_samples p t keys sort = (t', result) -> result <> Ok tt -> t' = t.
Proof. exact keys_to_samples_frame. Qed.
Print Assumptions C24_failed_keys_to_samples_changes_nothing.

Theorem C24_failed_keys_to_properties_changes_nothing :
  forall p t keys sort t' result,
    keys_to_properties p t keys sort = (t', result) -> result <> Ok tt -> t' = t.
Proof. exact keys_to_properties_frame. Qed.
Print Assumptions C24_failed_keys_to_properties_changes_nothing.

Example C24_example :
  (exists m, keys_to_samples Debug ex_tensor (ex_labels ["center"; "other"] []) true
             = (ex_tensor, Err (InvalidParameter m)))
  /\ (exists m, keys_to_properties Debug ex_tensor (ex_labels ["center"; "n"] []) true
             = (ex_tensor, Err (InvalidParameter m))).
Proof. split; eexists; vm_compute; reflexivity. Qed.
