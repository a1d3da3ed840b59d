(* Properties C18-C23, C25 and C26: values and gradients of moved blocks *)
From Coq Require Import Permutation Sorted.
From Verif Require Import Base Labels Array Block Tensor Spec SpecTensor LabelsFacts BlockFacts TensorFacts KeysFacts MovedFacts Examples ExamplesMoved.
Local Open Scope string_scope.
Local Open Scope list_scope.
Local Open Scope nat_scope.

(* C18: every value of the old blocks is found in the new block, under its
   labels, and nothing else is there *)
Theorem C18_keys_to_samples_keeps_values :
  forall p t keys sort t',
    wf_tensor t -> keys_to_samples p t keys sort = (t', Ok tt) ->
    forall e s' cs pr v,
      tensor_entry t' e s' cs pr v <->
      exists key s, tensor_entry t key s cs pr v
        /\ e = new_key (labels_names keys) (labels_names (tm_keys t)) key
        /\ s' = s ++ moved_part (labels_names keys) (labels_names (tm_keys t)) key.
Proof. exact keys_to_samples_values. Qed.
Print Assumptions C18_keys_to_samples_keeps_values.

(* C18: every new entry comes from exactly one old entry *)
Theorem C18_keys_to_samples_single_origin :
  forall p t keys sort t',
    wf_tensor t -> keys_to_samples p t keys sort = (t', Ok tt) ->
    forall e s' cs pr v, tensor_entry t' e s' cs pr v ->
      exists! ks : list Z * list Z, tensor_entry t (fst ks) (snd ks) cs pr v
        /\ e = new_key (labels_names keys) (labels_names (tm_keys t)) (fst ks)
        /\ s' = snd ks ++ moved_part (labels_names keys) (labels_names (tm_keys t)) (fst ks).
Proof. exact keys_to_samples_origin. Qed.
Print Assumptions C18_keys_to_samples_single_origin.

(* C18: there is a single value under given labels (so [tensor_entry] above is
   not satisfied by several values at once) *)
Theorem C18_one_value_per_labels :
  forall t key s cs pr v1 v2,
    wf_tensor t -> tensor_entry t key s cs pr v1 -> tensor_entry t key s cs pr v2 -> v1 = v2.
Proof. exact tensor_entry_function. Qed.
Print Assumptions C18_one_value_per_labels.

(* C18: the names of the axes: the moved variables come after the samples *)
Theorem C18_keys_to_samples_names :
  forall p t keys sort t',
    wf_tensor t -> keys_to_samples p t keys sort = (t', Ok tt) ->
    forall e b' key b, block_of t' e b' -> block_of t key b ->
      labels_names (bb_samples (tb_values b')) = labels_names (bb_samples (tb_values b)) ++ labels_names keys
      /\ map labels_names (bb_components (tb_values b')) = map labels_names (bb_components (tb_values b))
      /\ labels_names (bb_properties (tb_values b')) = labels_names (bb_properties (tb_values b)).
Proof. exact keys_to_samples_names. Qed.
Print Assumptions C18_keys_to_samples_names.

Example C18_example :
  wf_tensor ex_tensor
  /\ keys_to_samples Debug ex_tensor (ex_labels ["center"] []) true = (ex_to_samples, Ok tt)
  /\ tensor_entry ex_tensor [8; 0; 4]%Z [1]%Z [[1]%Z] [3; 1]%Z 505
  /\ tensor_entry ex_to_samples [0; 4]%Z [1; 8]%Z [[1]%Z] [3; 1]%Z 505.
Proof.
  split; [apply ex_tensor_wf|]. split; [apply ex_to_samples_ok|].
  split; [apply (show_entry _ 2 [0; 1; 2])|apply (show_entry _ 0 [0; 1; 2])]; vm_compute; auto 20.
Qed.

(* C19: every gradient value of the old blocks is found in the new block, under
   its labels, and nothing else is there. [tensor_gradient_value] refers to the
   sample by its labels, so the indices in the gradient samples are updated *)
Theorem C19_keys_to_samples_keeps_gradients :
  forall p t keys sort t',
    wf_tensor t -> keys_to_samples p t keys sort = (t', Ok tt) ->
    (p = Debug \/ agreeing_groups t (labels_names keys)) ->
    forall e q s' rest cs pr v,
      tensor_gradient_value t' e q s' rest cs pr v <->
      exists key s, tensor_gradient_value t key q s rest cs pr v
        /\ e = new_key (labels_names keys) (labels_names (tm_keys t)) key
        /\ s' = s ++ moved_part (labels_names keys) (labels_names (tm_keys t)) key.
Proof. exact keys_to_samples_gradients. Qed.
Print Assumptions C19_keys_to_samples_keeps_gradients.

Theorem C19_keys_to_samples_gradient_single_origin :
  forall p t keys sort t',
    wf_tensor t -> keys_to_samples p t keys sort = (t', Ok tt) ->
    (p = Debug \/ agreeing_groups t (labels_names keys)) ->
    forall e q s' rest cs pr v, tensor_gradient_value t' e q s' rest cs pr v ->
      exists! ks : list Z * list Z, tensor_gradient_value t (fst ks) q (snd ks) rest cs pr v
        /\ e = new_key (labels_names keys) (labels_names (tm_keys t)) (fst ks)
        /\ s' = snd ks ++ moved_part (labels_names keys) (labels_names (tm_keys t)) (fst ks).
Proof. exact keys_to_samples_gradient_origin. Qed.
Print Assumptions C19_keys_to_samples_gradient_single_origin.

Theorem C19_one_gradient_value_per_labels :
  forall t key q s rest cs pr v1 v2,
    wf_tensor t -> tensor_gradient_value t key q s rest cs pr v1 ->
    tensor_gradient_value t key q s rest cs pr v2 -> v1 = v2.
Proof. exact tensor_gradient_function. Qed.
Print Assumptions C19_one_gradient_value_per_labels.

(* C19: the rows of the gradients, whether or not their components agree *)
Theorem C19_keys_to_samples_gradient_samples :
  forall p t keys sort t',
    wf_tensor t -> keys_to_samples p t keys sort = (t', Ok tt) ->
    forall e q s' rest,
      tensor_gradient_sample t' e q s' rest <->
      exists key s, tensor_gradient_sample t key q s rest
        /\ e = new_key (labels_names keys) (labels_names (tm_keys t)) key
        /\ s' = s ++ moved_part (labels_names keys) (labels_names (tm_keys t)) key.
Proof. exact keys_to_samples_gradient_samples. Qed.
Print Assumptions C19_keys_to_samples_gradient_samples.

(* C19: there are no other rows: all of them refer to an existing sample *)
Theorem C19_keys_to_samples_gradient_indices :
  forall p t keys sort t',
    wf_tensor t -> keys_to_samples p t keys sort = (t', Ok tt) ->
    Forall gradient_samples_in_range (tm_blocks t) /\ Forall gradient_samples_in_range (tm_blocks t').
Proof. exact keys_to_samples_in_range. Qed.
Print Assumptions C19_keys_to_samples_gradient_indices.

Example C19_example :
  wf_tensor ex_tensor
  /\ keys_to_samples Debug ex_tensor (ex_labels ["center"] []) true = (ex_to_samples, Ok tt)
  /\ tensor_gradient_value ex_tensor [1; 0; 4]%Z "positions" [2]%Z [6]%Z [[2]%Z; [0]%Z] [0; 1]%Z 231
  /\ tensor_gradient_value ex_to_samples [0; 4]%Z "positions" [2; 1]%Z [6]%Z [[2]%Z; [0]%Z] [0; 1]%Z 231.
Proof.
  split; [apply ex_tensor_wf|]. split; [apply ex_to_samples_ok|].
  split; [apply (show_gradient _ 0 1 0 [2; 1; 0; 1])|apply (show_gradient _ 0 1 0 [1; 1; 0; 1])]; vm_compute; auto 20.
Qed.

(* C20: the samples of the new blocks *)
Theorem C20_keys_to_samples_order :
  forall p t keys sort t',
    wf_tensor t -> keys_to_samples p t keys sort = (t', Ok tt) ->
    forall e b', block_of t' e b' ->
      let all := flat_map (fun kb => map (fun s => s ++ moved_part (labels_names keys) (labels_names (tm_keys t)) (fst kb))
                                         (rows (bb_samples (tb_values (snd kb)))))
                          (merged_together t (labels_names keys) e) in
      let merged := rows (bb_samples (tb_values b')) in
      (forall s, In s merged <-> In s all)
      /\ (sort = true -> StronglySorted lex_lt merged) /\ (sort = false -> first_appearance all merged)
      /\ forall q g, In (q, g) (tb_gradients b') -> StronglySorted lex_lt (rows (bb_samples g)).
Proof. exact keys_to_samples_order. Qed.
Print Assumptions C20_keys_to_samples_order.

Theorem C20_keys_to_properties_order :
  forall p t keys sort t',
    wf_tensor t -> wf_labels keys ->
    (rows keys = [] \/ forall b, In b (tm_blocks t) -> a_kind (bb_data (tb_values b)) <> RustEmptyArray) ->
    keys_to_properties p t keys sort = (t', Ok tt) ->
    forall e b', block_of t' e b' ->
      let all := flat_map (fun kb => rows (bb_samples (tb_values (snd kb)))) (merged_together t (labels_names keys) e) in
      let merged := rows (bb_samples (tb_values b')) in
      (forall s, In s merged <-> In s all)
      /\ (sort = true -> StronglySorted lex_lt merged) /\ (sort = false -> first_appearance all merged)
      /\ forall q g, In (q, g) (tb_gradients b') -> StronglySorted lex_lt (rows (bb_samples g)).
Proof. exact keys_to_properties_order. Qed.
Print Assumptions C20_keys_to_properties_order.

Example C20_example :
  (let b := nth 0 (tm_blocks ex_to_samples) ex_block_1 in
   block_of ex_to_samples [0; 4]%Z b
   /\ rows (bb_samples (tb_values b)) = [[1; 8]; [2; 1]; [4; 1]]%Z
   /\ map (fun g => rows (bb_samples (snd g))) (tb_gradients b) = [[[1; 5]; [1; 6]; [2; 5]]]%Z)
  /\ (let b := nth 0 (tm_blocks (fst (keys_to_samples Debug ex_tensor (ex_labels ["center"] []) false))) ex_block_1 in
      rows (bb_samples (tb_values b)) = [[4; 1]; [2; 1]; [1; 8]]%Z).
Proof. split; [split; [exists 0; vm_compute; auto|]|]; vm_compute; auto. Qed.

(* C21: every value of the old blocks is found in the new block, under its
   labels, and all other entries are zero *)
Theorem C21_keys_to_properties_keeps_values :
  forall p t keys sort t',
    wf_tensor t -> wf_labels keys -> rows keys = [] ->
    keys_to_properties p t keys sort = (t', Ok tt) ->
    forall e s cs pr' v,
      tensor_entry t' e s cs pr' v <->
      (exists key pr, tensor_entry t key s cs pr v
         /\ e = new_key (labels_names keys) (labels_names (tm_keys t)) key
         /\ pr' = moved_part (labels_names keys) (labels_names (tm_keys t)) key ++ pr)
      \/ (v = 0%Z
          /\ (exists b', block_of t' e b' /\ In s (rows (bb_samples (tb_values b')))
              /\ (exists js, located (bb_components (tb_values b')) js cs)
              /\ In pr' (rows (bb_properties (tb_values b'))))
          /\ forall key b pr, block_of t key b ->
               e = new_key (labels_names keys) (labels_names (tm_keys t)) key ->
               pr' = moved_part (labels_names keys) (labels_names (tm_keys t)) key ++ pr ->
               In s (rows (bb_samples (tb_values b))) -> ~ In pr (rows (bb_properties (tb_values b)))).
Proof. exact keys_to_properties_values_names. Qed.
Print Assumptions C21_keys_to_properties_keeps_values.

(* C21: the names of the axes, and the rows of the properties *)
Theorem C21_keys_to_properties_names :
  forall p t keys sort t',
    wf_tensor t -> wf_labels keys ->
    (rows keys = [] \/ forall b, In b (tm_blocks t) -> a_kind (bb_data (tb_values b)) <> RustEmptyArray) ->
    keys_to_properties p t keys sort = (t', Ok tt) ->
    forall e b' key b, block_of t' e b' -> block_of t key b ->
      labels_names (bb_samples (tb_values b')) = labels_names (bb_samples (tb_values b))
      /\ map labels_names (bb_components (tb_values b')) = map labels_names (bb_components (tb_values b))
      /\ labels_names (bb_properties (tb_values b')) = labels_names keys ++ labels_names (bb_properties (tb_values b)).
Proof. exact keys_to_properties_names. Qed.
Print Assumptions C21_keys_to_properties_names.

(* C21, C22: without rows, the new properties are the properties of the blocks,
   one block after the other; with rows, they are the product of the rows and of
   the properties of any of the merged blocks *)
Theorem C22_keys_to_properties_properties :
  forall p t keys sort t',
    wf_tensor t -> wf_labels keys ->
    (rows keys = [] \/ forall b, In b (tm_blocks t) -> a_kind (bb_data (tb_values b)) <> RustEmptyArray) ->
    keys_to_properties p t keys sort = (t', Ok tt) ->
    forall e b', block_of t' e b' ->
      (rows keys = [] -> rows (bb_properties (tb_values b')) =
         flat_map (fun kb => map (app (moved_part (labels_names keys) (labels_names (tm_keys t)) (fst kb)))
                                 (rows (bb_properties (tb_values (snd kb)))))
                  (merged_together t (labels_names keys) e))
      /\ (rows keys <> [] -> forall key b, block_of t key b -> e = new_key (labels_names keys) (labels_names (tm_keys t)) key ->
            rows (bb_properties (tb_values b')) =
            flat_map (fun entry => map (app entry) (rows (bb_properties (tb_values b)))) (rows keys)).
Proof. exact keys_to_properties_properties. Qed.
Print Assumptions C22_keys_to_properties_properties.

Example C21_example :
  wf_tensor ex_tensor /\ wf_labels (ex_labels ["center"] [])
  /\ keys_to_properties Release ex_tensor (ex_labels ["center"] []) true = (ex_to_properties, Ok tt)
  /\ tensor_entry ex_tensor [8; 0; 4]%Z [1]%Z [[1]%Z] [3; 1]%Z 505
  /\ tensor_entry ex_to_properties [0; 4]%Z [1]%Z [[1]%Z] [8; 3; 1]%Z 505
  /\ (* block [1; 0; 4] has no sample [1] *)
     tensor_entry ex_to_properties [0; 4]%Z [1]%Z [[1]%Z] [1; 3; 1]%Z 0.
Proof.
  split; [apply ex_tensor_wf|]. split; [apply ex_labels_wf|]. split; [apply ex_to_properties_ok|].
  split; [apply (show_entry _ 2 [0; 1; 2]); vm_compute; auto 20|].
  split; [apply (show_entry _ 0 [0; 1; 5])|apply (show_entry _ 0 [0; 1; 2])]; vm_compute; auto 20.
Qed.

(* C22: with explicit rows, only the blocks listed there are kept *)
Theorem C22_keys_to_properties_keeps_listed_values :
  forall p t keys sort t',
    wf_tensor t -> wf_labels keys -> rows keys <> [] ->
    (forall b, In b (tm_blocks t) -> a_kind (bb_data (tb_values b)) <> RustEmptyArray) ->
    keys_to_properties p t keys sort = (t', Ok tt) ->
    forall e s cs pr' v,
      tensor_entry t' e s cs pr' v <->
      (exists key pr, tensor_entry t key s cs pr v
         /\ In (moved_part (labels_names keys) (labels_names (tm_keys t)) key) (rows keys)
         /\ e = new_key (labels_names keys) (labels_names (tm_keys t)) key
         /\ pr' = moved_part (labels_names keys) (labels_names (tm_keys t)) key ++ pr)
      \/ (v = 0%Z
          /\ (exists b', block_of t' e b' /\ In s (rows (bb_samples (tb_values b')))
              /\ (exists js, located (bb_components (tb_values b')) js cs)
              /\ In pr' (rows (bb_properties (tb_values b'))))
          /\ forall key b pr, block_of t key b ->
               e = new_key (labels_names keys) (labels_names (tm_keys t)) key ->
               pr' = moved_part (labels_names keys) (labels_names (tm_keys t)) key ++ pr ->
               In s (rows (bb_samples (tb_values b))) -> ~ In pr (rows (bb_properties (tb_values b)))).
Proof. exact keys_to_properties_values_entries. Qed.
Print Assumptions C22_keys_to_properties_keeps_listed_values.

Example C22_example :
  wf_tensor ex_tensor /\ wf_labels (ex_labels ["center"] [[7]; [8]]%Z)
  /\ (forall b, In b (tm_blocks ex_tensor) -> a_kind (bb_data (tb_values b)) <> RustEmptyArray)
  /\ keys_to_properties Release ex_tensor (ex_labels ["center"] [[7]; [8]]%Z) true = (ex_to_listed, Ok tt)
  /\ tensor_entry ex_to_listed [0; 4]%Z [1]%Z [[1]%Z] [8; 3; 1]%Z 505
  /\ (* no block has center = 7 *)
     tensor_entry ex_to_listed [0; 4]%Z [1]%Z [[1]%Z] [7; 3; 1]%Z 0
  /\ map (fun b => rows (bb_properties (tb_values b))) (tm_blocks ex_to_listed)
     = repeat [[7; 0; 0]; [7; 0; 1]; [7; 3; 1]; [8; 0; 0]; [8; 0; 1]; [8; 3; 1]]%Z 2.
Proof.
  split; [apply ex_tensor_wf|]. split; [apply ex_labels_wf|].
  split; [apply ex_not_empty|]. split; [apply ex_to_listed_ok|].
  split; [apply (show_entry _ 0 [0; 1; 5]); vm_compute; auto 20|].
  split; [apply (show_entry _ 0 [0; 1; 2]); vm_compute; auto 20|]. vm_compute; reflexivity.
Qed.

(* C23: every gradient value of the old blocks is found in the new block, and
   all other entries are zero *)
Theorem C23_keys_to_properties_keeps_gradients :
  forall p t keys sort t',
    wf_tensor t -> wf_labels keys ->
    (rows keys = [] \/ forall b, In b (tm_blocks t) -> a_kind (bb_data (tb_values b)) <> RustEmptyArray) ->
    keys_to_properties p t keys sort = (t', Ok tt) ->
    ((p = Debug /\ rows keys = []) \/ agreeing_groups t (labels_names keys)) ->
    forall e q s rest cs pr' v,
      tensor_gradient_value t' e q s rest cs pr' v <->
      (exists key pr, tensor_gradient_value t key q s rest cs pr v
         /\ requested_key keys (labels_names (tm_keys t)) key
         /\ e = new_key (labels_names keys) (labels_names (tm_keys t)) key
         /\ pr' = moved_part (labels_names keys) (labels_names (tm_keys t)) key ++ pr)
      \/ (v = 0%Z
          /\ tensor_gradient_sample t' e q s rest
          /\ (exists b' g js, block_of t' e b' /\ In (q, g) (tb_gradients b') /\ located (bb_components g) js cs
              /\ In pr' (rows (bb_properties (tb_values b'))))
          /\ forall key b pr, block_of t key b -> requested_key keys (labels_names (tm_keys t)) key ->
               e = new_key (labels_names keys) (labels_names (tm_keys t)) key ->
               pr' = moved_part (labels_names keys) (labels_names (tm_keys t)) key ++ pr ->
               gradient_sample b q s rest -> ~ In pr (rows (bb_properties (tb_values b)))).
Proof. exact keys_to_properties_gradients. Qed.
Print Assumptions C23_keys_to_properties_keeps_gradients.

Theorem C23_keys_to_properties_gradient_samples :
  forall p t keys sort t',
    wf_tensor t -> wf_labels keys ->
    (rows keys = [] \/ forall b, In b (tm_blocks t) -> a_kind (bb_data (tb_values b)) <> RustEmptyArray) ->
    keys_to_properties p t keys sort = (t', Ok tt) ->
    forall e q s rest,
      tensor_gradient_sample t' e q s rest <->
      exists key, tensor_gradient_sample t key q s rest
        /\ e = new_key (labels_names keys) (labels_names (tm_keys t)) key.
Proof. exact keys_to_properties_gradient_samples. Qed.
Print Assumptions C23_keys_to_properties_gradient_samples.

Theorem C23_keys_to_properties_gradient_indices :
  forall p t keys sort t',
    wf_tensor t -> wf_labels keys ->
    (rows keys = [] \/ forall b, In b (tm_blocks t) -> a_kind (bb_data (tb_values b)) <> RustEmptyArray) ->
    keys_to_properties p t keys sort = (t', Ok tt) ->
    Forall gradient_samples_in_range (tm_blocks t) /\ Forall gradient_samples_in_range (tm_blocks t').
Proof. exact keys_to_properties_in_range. Qed.
Print Assumptions C23_keys_to_properties_gradient_indices.

Example C23_example :
  wf_tensor ex_tensor /\ wf_labels (ex_labels ["center"] [])
  /\ keys_to_properties Release ex_tensor (ex_labels ["center"] []) true = (ex_to_properties, Ok tt)
  /\ agreeing_groups ex_tensor ["center"]
  /\ tensor_gradient_value ex_tensor [1; 0; 4]%Z "positions" [2]%Z [6]%Z [[2]%Z; [0]%Z] [0; 1]%Z 231
  /\ tensor_gradient_value ex_to_properties [0; 4]%Z "positions" [2]%Z [6]%Z [[2]%Z; [0]%Z] [1; 0; 1]%Z 231
  /\ tensor_gradient_value ex_to_properties [0; 4]%Z "positions" [2]%Z [6]%Z [[2]%Z; [0]%Z] [8; 0; 1]%Z 0.
Proof.
  split; [apply ex_tensor_wf|]. split; [apply ex_labels_wf|]. split; [apply ex_to_properties_ok|].
  split; [apply ex_agreeing|].
  split; [apply (show_gradient _ 0 1 0 [2; 1; 0; 1]); vm_compute; auto 20|].
  split; [apply (show_gradient _ 0 1 0 [1; 1; 0; 1])|apply (show_gradient _ 0 1 0 [1; 1; 0; 4])]; vm_compute; auto 20.
Qed.

(* C25: the result could have been made with TensorBlock::new, add_gradient and
   TensorMap::new *)
Theorem C25_keys_to_samples_well_formed :
  forall p t keys sort t',
    wf_tensor t -> keys_to_samples p t keys sort = (t', Ok tt) ->
    wf_tensor t' /\ Forall reachable_block (tm_blocks t') /\ tensor_map_new (tm_keys t') (tm_blocks t') = Ok t'.
Proof. exact keys_to_samples_wf. Qed.
Print Assumptions C25_keys_to_samples_well_formed.

Theorem C25_keys_to_properties_well_formed :
  forall p t keys sort t',
    wf_tensor t -> wf_labels keys ->
    (rows keys = [] \/ forall b, In b (tm_blocks t) -> a_kind (bb_data (tb_values b)) <> RustEmptyArray) ->
    keys_to_properties p t keys sort = (t', Ok tt) ->
    wf_tensor t' /\ Forall reachable_block (tm_blocks t') /\ tensor_map_new (tm_keys t') (tm_blocks t') = Ok t'.
Proof. exact keys_to_properties_wf. Qed.
Print Assumptions C25_keys_to_properties_well_formed.

Example C25_example :
  wf_tensor ex_tensor
  /\ keys_to_samples Debug ex_tensor (ex_labels ["center"] []) true = (ex_to_samples, Ok tt)
  /\ keys_to_properties Release ex_tensor (ex_labels ["center"] []) true = (ex_to_properties, Ok tt)
  /\ tensor_map_new (tm_keys ex_to_samples) (tm_blocks ex_to_samples) = Ok ex_to_samples
  /\ tensor_map_new (tm_keys ex_to_properties) (tm_blocks ex_to_properties) = Ok ex_to_properties.
Proof.
  split; [apply ex_tensor_wf|]. split; [apply ex_to_samples_ok|]. split; [apply ex_to_properties_ok|].
  split; vm_compute; reflexivity.
Qed.

(* C26: when the variables are requested in the order of the keys, the new
   samples, read with their names, are the old samples followed by the moved
   variables with the values they had in the key *)
Theorem C26_moved_names_in_samples_partial :
  forall p t keys sort t',
    wf_tensor t -> keys_to_samples p t keys sort = (t', Ok tt) ->
    in_key_order (labels_names keys) (labels_names (tm_keys t)) ->
    forall e b' key b s, block_of t' e b' -> block_of t key b -> In s (rows (bb_samples (tb_values b))) ->
      named (labels_names (bb_samples (tb_values b')))
            (s ++ moved_part (labels_names keys) (labels_names (tm_keys t)) key)
      = named (labels_names (bb_samples (tb_values b))) s
        ++ filter (fun nv => is_moved (labels_names keys) (fst nv)) (named (labels_names (tm_keys t)) key).
Proof. exact keys_to_samples_named. Qed.
Print Assumptions C26_moved_names_in_samples_partial.

Theorem C26_moved_names_in_properties_partial :
  forall p t keys sort t',
    wf_tensor t -> wf_labels keys ->
    (rows keys = [] \/ forall b, In b (tm_blocks t) -> a_kind (bb_data (tb_values b)) <> RustEmptyArray) ->
    keys_to_properties p t keys sort = (t', Ok tt) ->
    in_key_order (labels_names keys) (labels_names (tm_keys t)) ->
    forall e b' key b pr, block_of t' e b' -> block_of t key b -> In pr (rows (bb_properties (tb_values b))) ->
      named (labels_names (bb_properties (tb_values b')))
            (moved_part (labels_names keys) (labels_names (tm_keys t)) key ++ pr)
      = filter (fun nv => is_moved (labels_names keys) (fst nv)) (named (labels_names (tm_keys t)) key)
        ++ named (labels_names (bb_properties (tb_values b))) pr.
Proof. exact keys_to_properties_named. Qed.
Print Assumptions C26_moved_names_in_properties_partial.

(* C26 is false when the variables are requested in another order: the new
   samples and properties then give to a variable values it never had *)
Theorem C26_moved_names_in_samples_refuted :
  exists p t keys sort t' e b' s name v,
    wf_tensor t /\ wf_labels keys /\ keys_to_samples p t keys sort = (t', Ok tt)
    /\ block_of t' e b' /\ In s (rows (bb_samples (tb_values b')))
    /\ In name (labels_names keys)
    /\ In (name, v) (named (labels_names (bb_samples (tb_values b'))) s)
    /\ forall key, In key (rows (tm_keys t)) -> ~ In (name, v) (named (labels_names (tm_keys t)) key).
Proof. exact ex_samples_misnamed. Qed.
Print Assumptions C26_moved_names_in_samples_refuted.

Theorem C26_moved_names_in_properties_refuted :
  exists p t keys sort t' e b' pr name v,
    wf_tensor t /\ wf_labels keys /\ keys_to_properties p t keys sort = (t', Ok tt)
    /\ block_of t' e b' /\ In pr (rows (bb_properties (tb_values b')))
    /\ In name (labels_names keys)
    /\ In (name, v) (named (labels_names (bb_properties (tb_values b'))) pr)
    /\ forall key, In key (rows (tm_keys t)) -> ~ In (name, v) (named (labels_names (tm_keys t)) key).
Proof. exact ex_properties_misnamed. Qed.
Print Assumptions C26_moved_names_in_properties_refuted.

Example C26_example :
  in_key_order ["center"; "kind"] (labels_names (tm_keys ex_tensor))
  /\ (exists t', keys_to_samples Debug ex_tensor (ex_labels ["center"; "kind"] []) true = (t', Ok tt)
      /\ map (fun b => map (named (labels_names (bb_samples (tb_values b)))) (rows (bb_samples (tb_values b)))) (tm_blocks t')
         = [[[("structure", 1); ("center", 8); ("kind", 4)]; [("structure", 2); ("center", 1); ("kind", 4)];
             [("structure", 4); ("center", 1); ("kind", 4)]];
            [[("structure", 2); ("center", 1); ("kind", 4)]; [("structure", 7); ("center", 1); ("kind", 4)];
             [("structure", 9); ("center", 1); ("kind", 4)]]]%Z).
Proof.
  split; [vm_compute; reflexivity|].
  exists (fst (keys_to_samples Debug ex_tensor (ex_labels ["center"; "kind"] []) true)). split; vm_compute; reflexivity.
Qed.
