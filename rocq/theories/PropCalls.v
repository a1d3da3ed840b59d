(* Properties C60-C66: what each function of the C API does, in any state which a
   program can reach. *)
From Verif Require Import Base Labels Array Block Tensor Origin CApi Spec SpecTensor SpecApi CallFacts Examples ExamplesApi.
Local Open Scope string_scope.
Local Open Scope list_scope.
Local Open Scope nat_scope.

(* C60 *)
Theorem C60_blocks_are_created :
  forall p files calls i thread data cs cc cp s' v r,
    never_crashed p (world_start files) calls ->
    let s := state_at p (world_start files) calls i in
    given_labels cs -> Forall given_labels cc -> given_labels cp -> answers data OpShape ->
    run_call p thread s (BlockCreate data cs cc cp) = (s', v, r) ->
    (r = Returned 0 <-> exists samples components properties,
       describes cs samples /\ Forall2 describes cc components /\ describes cp properties
       /\ shapes_agree data samples components properties)
    /\ exists array, unused_arrays s [array] /\ w_tensors s' = w_tensors s
    /\ (r = Returned 0 -> exists handle samples components properties,
          describes cs samples /\ Forall2 describes cc components /\ describes cp properties
          /\ v = VBlock (BlockAt handle) /\ w_destroyed s' = w_destroyed s
          /\ w_blocks s' = (handle, mk_owned_block (mk_block (mk_basic data samples components properties) [] []) [array]) :: w_blocks s)
    /\ (r <> Returned 0 -> v = VBlock BlockNull /\ w_blocks s' = w_blocks s /\ w_destroyed s' = w_destroyed s ++ [array]).
Proof. exact block_create_call. Qed.
Print Assumptions C60_blocks_are_created.

(* the hypotheses of C60 hold for the calls 4 (a success) and 8 (a failure) of
   this program *)
Example C60_example :
  never_crashed Debug ex_start ex_calls
  /\ given_labels (ex_c ["structure"] [[2]; [7]; [9]]%Z) /\ Forall given_labels [ex_c_xyz] /\ given_labels ex_c_properties
  /\ answers (ex_array [3; 2; 3] 300) OpShape
  /\ (let '(s', v, r) := run_call Debug 1 (ex_state 4) (BlockCreate (ex_array [3; 2; 3] 300) (ex_c ["structure"] [[2]; [7]; [9]]%Z) [ex_c_xyz] ex_c_properties) in
      v = VBlock (BlockAt 1) /\ r = Returned 0 /\ map fst (w_blocks s') = [1; 0] /\ w_destroyed s' = [])
  /\ (let '(s', v, r) := run_call Debug 1 (ex_state 8) (BlockCreate (ex_array [2; 2; 2] 0) (ex_c ["structure"] [[4]; [2]]%Z) [ex_c_xyz] ex_c_properties) in
      v = VBlock BlockNull /\ r = Returned 1 /\ map fst (w_blocks s') = [2; 1; 0] /\ w_destroyed s' = [6]).
Proof.
  split; [exact ex_never_crashed|].
  split; [split; [apply check_readable_sound; vm_compute; reflexivity|cbn; auto]|].
  split; [constructor; [split; [apply check_readable_sound; vm_compute; reflexivity|cbn; auto]|constructor]|].
  split; [split; [apply check_readable_sound; vm_compute; reflexivity|cbn; auto]|].
  split; [intros o H; discriminate H|]. split; vm_compute; repeat split.
Qed.

(* C61 *)
Theorem C61_gradients_are_added :
  forall p files calls i thread h b parameter data cs cc s' v r,
    never_crashed p (world_start files) calls -> ordinary p (world_start files) calls ->
    let s := state_at p (world_start files) calls i in
    block_at s h b -> utf8_text parameter -> given_labels cs -> Forall given_labels cc ->
    answers data OpShape -> answers data OpOrigin -> answers (bb_data (tb_values (ob_block b))) OpOrigin ->
    run_call p thread s (BlockAddGradient (BlockAt h) (Some parameter) data cs cc) = (s', v, r) ->
    (r = Returned 0 <-> exists samples components, describes cs samples /\ Forall2 describes cc components
       /\ acceptable_gradient (ob_block b) (c_str parameter) data samples components)
    /\ exists array, unused_arrays s [array] /\ w_tensors s' = w_tensors s
    /\ (r = Returned 0 -> exists samples components, describes cs samples /\ Forall2 describes cc components
          /\ w_destroyed s' = w_destroyed s
          /\ block_at s' h (mk_owned_block (mk_block (tb_values (ob_block b))
               (tb_gradients (ob_block b) ++ [(c_str parameter, mk_basic data samples components (bb_properties (tb_values (ob_block b))))])
               (tb_gradient_parameters (ob_block b) ++ [c_str parameter])) (ob_arrays b ++ [array])))
    /\ (r <> Returned 0 -> w_blocks s' = w_blocks s /\ w_destroyed s' = w_destroyed s ++ [array]).
Proof. exact add_gradient_call. Qed.
Print Assumptions C61_gradients_are_added.

(* calls 5 (a success) and 9 (a failure) *)
Example C61_example :
  never_crashed Debug ex_start ex_calls /\ ordinary Debug ex_start ex_calls
  /\ (exists b, block_at (ex_state 5) 1 b /\ answers (bb_data (tb_values (ob_block b))) OpOrigin)
  /\ utf8_text "positions" /\ given_labels (ex_c ["sample"; "atom"] [[2; 5]]%Z) /\ Forall given_labels [ex_c_cell; ex_c_xyz]
  /\ answers ex_gradient_array_2 OpShape /\ answers ex_gradient_array_2 OpOrigin
  /\ (let '(s', v, r) := run_call Debug 1 (ex_state 5) (BlockAddGradient (BlockAt 1) (Some "positions") ex_gradient_array_2
        (ex_c ["sample"; "atom"] [[2; 5]]%Z) [ex_c_cell; ex_c_xyz]) in
      r = Returned 0 /\ map (fun hb => (fst hb, ob_arrays (snd hb))) (w_blocks s') = [(1, [2; 3]); (0, [0; 1])] /\ w_destroyed s' = [])
  /\ (let '(s', v, r) := run_call Debug 0 (ex_state 9) (BlockAddGradient (BlockAt 2) (Some "positions") ex_gradient_array_3
        (ex_c ["sample"; "atom"] []) [ex_c_cell; ex_c_xyz]) in
      r = Returned 1 /\ map (fun hb => (fst hb, ob_arrays (snd hb))) (w_blocks s') = [(2, [4; 5]); (1, [2; 3]); (0, [0; 1])]
      /\ w_destroyed s' = [6; 7]).
Proof.
  split; [exact ex_never_crashed|]. split; [exact ex_ordinary|].
  split; [eexists; split; [vm_compute; left; reflexivity|intros o H; discriminate H]|].
  split; [vm_compute; reflexivity|].
  split; [split; [apply check_readable_sound; vm_compute; reflexivity|cbn; auto]|].
  split; [repeat (constructor; [split; [apply check_readable_sound; vm_compute; reflexivity|cbn; auto]|]); constructor|].
  split; [intros o H; discriminate H|]. split; [intros o H; discriminate H|]. split; vm_compute; repeat split.
Qed.

(* C62 *)
Theorem C62_blocks_are_copied :
  forall p files calls i thread block b s' v r,
    never_crashed p (world_start files) calls ->
    let s := state_at p (world_start files) calls i in
    points_to s block b ->
    run_call p thread s (BlockCopy block) = (s', v, r) ->
    (r = Returned 0 <-> answers (bb_data (tb_values (ob_block b))) OpCopy
       /\ forall q g, In (q, g) (tb_gradients (ob_block b)) -> answers (bb_data g) OpCopy)
    /\ w_tensors s' = w_tensors s
    /\ (r = Returned 0 -> exists handle arrays, v = VBlock (BlockAt handle) /\ unused_arrays s arrays
          /\ w_destroyed s' = w_destroyed s
          /\ w_blocks s' = (handle, mk_owned_block (ob_block b) arrays) :: w_blocks s)
    /\ (r <> Returned 0 -> v = VBlock BlockNull /\ w_blocks s' = w_blocks s).
Proof. exact block_copy_call. Qed.
Print Assumptions C62_blocks_are_copied.

(* a block inside a tensor map *)
Example C62_example :
  points_to (ex_state 17) (BlockIn 4 1) (mk_owned_block ex_block_2 [2; 3])
  /\ (let '(s', v, r) := run_call Debug 0 (ex_state 17) (BlockCopy (BlockIn 4 1)) in
      v = VBlock (BlockAt 5) /\ r = Returned 0
      /\ map (fun hb => (fst hb, ob_arrays (snd hb))) (w_blocks s') = [(5, [10; 11]); (3, [8; 9])]).
Proof. split; [exact ex_points_to|]. vm_compute. repeat split. Qed.

(* C63 *)
Theorem C63_gradients_are_listed :
  forall p files calls i thread block b s' v r,
    never_crashed p (world_start files) calls -> ordinary p (world_start files) calls ->
    let s := state_at p (world_start files) calls i in
    points_to s block b ->
    run_call p thread s (BlockGradientsList block out out) = (s', v, r) ->
    r = Returned 0 /\ exists names, v = VNames (match names with [] => None | _ => Some names end) (length names)
    /\ NoDup names /\ (forall q, In q names <-> exists g, In (q, g) (tb_gradients (ob_block b))).
Proof. exact gradients_list_call. Qed.
Print Assumptions C63_gradients_are_listed.

Example C63_example :
  points_to (ex_state 17) (BlockIn 4 1) (mk_owned_block ex_block_2 [2; 3])
  /\ (let '(s', v, r) := run_call Debug 0 (ex_state 17) (BlockGradientsList (BlockIn 4 1) out out) in
      v = VNames (Some ["positions"]) 1 /\ r = Returned 0).
Proof. split; [exact ex_points_to|]. vm_compute. repeat split. Qed.

(* C64 *)
Theorem C64_keys_are_read :
  forall p files calls i thread h t s' v r,
    never_crashed p (world_start files) calls -> ordinary p (world_start files) calls ->
    let s := state_at p (world_start files) calls i in
    tensor_at s h t -> run_call p thread s (TensorKeys (Some h) out) = (s', v, r) ->
    r = Returned 0 /\ exists c, v = VLabels c /\ c_names c = labels_names (tm_keys (ot_tensor t)) /\ c_rows c = rows (tm_keys (ot_tensor t)).
Proof. exact tensor_keys_call. Qed.
Print Assumptions C64_keys_are_read.

(* an index out of range is EQS_INTERNAL_ERROR, the status of Rust panics *)
Theorem C64_blocks_are_found_by_id :
  forall p files calls i thread h t index s' v r,
    never_crashed p (world_start files) calls ->
    let s := state_at p (world_start files) calls i in
    tensor_at s h t -> run_call p thread s (TensorBlockById (Some h) out index) = (s', v, r) ->
    (forall block, nth_error (tm_blocks (ot_tensor t)) index = Some block ->
       r = Returned 0 /\ exists pointer b, v = VBlock pointer /\ points_to s pointer b /\ ob_block b = block)
    /\ (length (tm_blocks (ot_tensor t)) <= index -> r = Returned 255 /\ v = VNone).
Proof. exact block_by_id_call. Qed.
Print Assumptions C64_blocks_are_found_by_id.

Example C64_example :
  tensor_at (ex_state 17) 4 ex_owned
  /\ (let '(_, v, r) := run_call Debug 0 (ex_state 17) (TensorKeys (Some 4) out) in
      r = Returned 0 /\ match v with
        | VLabels c => c_names c = ["center"; "spin"; "kind"] /\ c_rows c = [[1; 0; 4]; [1; 1; 4]; [8; 0; 4]]%Z
        | _ => False
        end)
  /\ (let '(_, v, r) := run_call Debug 0 (ex_state 17) (TensorBlockById (Some 4) out 2) in v = VBlock (BlockIn 4 2) /\ r = Returned 0)
  /\ (let '(_, v, r) := run_call Debug 0 (ex_state 17) (TensorBlockById (Some 4) out 3) in v = VNone /\ r = Returned 255).
Proof. split; [apply ex_tensor_at; cbn; auto|]. split; [vm_compute; repeat split|]. split; vm_compute; repeat split. Qed.

(* C65 *)
Theorem C65_keys_are_moved_to_samples :
  forall p files calls i thread h t c sort temporary s' v r,
    never_crashed p (world_start files) calls ->
    let s := state_at p (world_start files) calls i in
    tensor_at s h t -> given_labels c ->
    run_call p thread s (TensorKeysToSamples (Some h) c sort temporary) = (s', v, r) ->
    ((forall l, ~ describes c l) -> r <> Returned 0)
    /\ (forall l, describes c l -> exists keys, describes c keys
          /\ (r = Returned 0 <-> snd (keys_to_samples p (ot_tensor t) keys sort) = Ok tt)
          /\ (r = Returned 0 -> exists arrays, tensor_at s' h (mk_owned_tensor (fst (keys_to_samples p (ot_tensor t) keys sort)) arrays)
                /\ unused_arrays s (concat arrays) /\ (forall a, In a (concat (ot_arrays t)) -> In a (w_destroyed s')))).
Proof. exact keys_to_samples_described. Qed.
Print Assumptions C65_keys_are_moved_to_samples.

Theorem C65_keys_are_moved_to_properties :
  forall p files calls i thread h t c sort temporary s' v r,
    never_crashed p (world_start files) calls ->
    let s := state_at p (world_start files) calls i in
    tensor_at s h t -> given_labels c ->
    run_call p thread s (TensorKeysToProperties (Some h) c sort temporary) = (s', v, r) ->
    ((forall l, ~ describes c l) -> r <> Returned 0)
    /\ (forall l, describes c l -> exists keys, describes c keys
          /\ (r = Returned 0 <-> snd (keys_to_properties p (ot_tensor t) keys sort) = Ok tt)
          /\ (r = Returned 0 -> exists arrays, tensor_at s' h (mk_owned_tensor (fst (keys_to_properties p (ot_tensor t) keys sort)) arrays)
                /\ unused_arrays s (concat arrays) /\ (forall a, In a (concat (ot_arrays t)) -> In a (w_destroyed s')))).
Proof. exact keys_to_properties_described. Qed.
Print Assumptions C65_keys_are_moved_to_properties.

Theorem C65_components_are_moved_to_properties :
  forall p files calls i thread h t memory s' v r,
    never_crashed p (world_start files) calls ->
    let s := state_at p (world_start files) calls i in
    tensor_at s h t -> Forall utf8_text memory ->
    run_call p thread s (TensorComponentsToProperties (Some h) (Some (map Some memory))) = (s', v, r) ->
    (r = Returned 0 <-> snd (components_to_properties (ot_tensor t) (map c_str memory)) = Ok tt)
    /\ w_blocks s' = w_blocks s /\ w_destroyed s' = w_destroyed s
    /\ tensor_at s' h (mk_owned_tensor (fst (components_to_properties (ot_tensor t) (map c_str memory))) (ot_arrays t)).
Proof. exact components_call. Qed.
Print Assumptions C65_components_are_moved_to_properties.

(* the same keys are moved with and without sorting the samples, and to the
   properties; then a component *)
Example C65_example :
  tensor_at (ex_state 17) 4 ex_owned /\ given_labels (ex_c ["spin"] [])
  /\ Forall (fun sort => let '(s', _, r) := run_call Debug 0 (ex_state 17) (TensorKeysToSamples (Some 4) (ex_c ["spin"] []) sort 2) in
        r = Returned 0 /\ map (fun ht => (fst ht, ot_arrays (snd ht))) (w_tensors s') = [(4, [[10; 11]; [12; 13]])]
        /\ w_destroyed s' = [6; 7; 14; 15; 0; 1; 2; 3; 4; 5]) [false; true]
  /\ (let '(s', _, r) := run_call Debug 0 (ex_state 17) (TensorKeysToProperties (Some 4) (ex_c ["spin"] []) true 0) in
        r = Returned 0 /\ map (fun ht => (fst ht, ot_arrays (snd ht))) (w_tensors s') = [(4, [[10; 11]; [12; 13]])])
  /\ (let '(s', _, r) := run_call Debug 0 (ex_state 17) (TensorComponentsToProperties (Some 4) (Some [Some "xyz"])) in
        r = Returned 0 /\ map (fun ht => (fst ht, ot_arrays (snd ht))) (w_tensors s') = [(4, ex_arrays)]).
Proof.
  split; [apply ex_tensor_at; cbn; auto|].
  split; [split; [apply check_readable_sound; vm_compute; reflexivity|cbn; auto]|].
  split; [repeat (constructor; [vm_compute; repeat split|]); constructor|]. split; vm_compute; repeat split.
Qed.

(* C66 *)
Theorem C66_blocks_are_freed :
  forall p files calls i thread h b s' v r,
    never_crashed p (world_start files) calls ->
    let s := state_at p (world_start files) calls i in
    block_at s h b -> run_call p thread s (BlockFree (BlockAt h)) = (s', v, r) ->
    r = Returned 0 /\ w_tensors s' = w_tensors s /\ (forall h' b', block_at s' h' b' <-> block_at s h' b' /\ h' <> h)
    /\ w_destroyed s' = w_destroyed s ++ ob_arrays b.
Proof. exact block_free_call. Qed.
Print Assumptions C66_blocks_are_freed.

Theorem C66_tensor_maps_are_freed :
  forall p files calls i thread h t s' v r,
    never_crashed p (world_start files) calls ->
    let s := state_at p (world_start files) calls i in
    tensor_at s h t -> run_call p thread s (TensorFree (Some h)) = (s', v, r) ->
    r = Returned 0 /\ w_blocks s' = w_blocks s /\ (forall h' t', tensor_at s' h' t' <-> tensor_at s h' t' /\ h' <> h)
    /\ w_destroyed s' = w_destroyed s ++ concat (ot_arrays t).
Proof. exact tensor_free_call. Qed.
Print Assumptions C66_tensor_maps_are_freed.

Theorem C66_freeing_null :
  forall p thread s c s' v r, c = BlockFree BlockNull \/ c = TensorFree None ->
    run_call p thread s c = (s', v, r) ->
    r = Returned 0 /\ w_blocks s' = w_blocks s /\ w_tensors s' = w_tensors s /\ w_destroyed s' = w_destroyed s.
Proof. exact free_null_call. Qed.
Print Assumptions C66_freeing_null.

Example C66_example :
  tensor_at (ex_state 17) 4 ex_owned
  /\ (let '(s', _, r) := run_call Debug 0 (ex_state 17) (TensorFree (Some 4)) in
      r = Returned 0 /\ w_tensors s' = [] /\ map fst (w_blocks s') = [3] /\ w_destroyed s' = [6; 7; 0; 1; 2; 3; 4; 5])
  /\ (let '(s', _, r) := run_call Debug 0 (ex_state 17) (BlockFree (BlockAt 3)) in
      r = Returned 0 /\ map fst (w_tensors s') = [4] /\ w_blocks s' = [] /\ w_destroyed s' = [6; 7; 8; 9]).
Proof. split; [apply ex_tensor_at; cbn; auto|]. split; vm_compute; repeat split. Qed.
