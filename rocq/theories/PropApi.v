(* Properties C32-C40 and C55-C59: the C API. They are about all the programs
   made of calls of this API, by any number of threads. *)
From Coq Require Import Permutation Sorted.
From Verif Require Import Base Labels Array Block Tensor Npy Io Origin CApi Spec SpecTensor SpecIo SpecApi
  LabelsFacts ApiFacts QuietFacts ReportFacts LabelsApiFacts HandleFacts SafeFacts FileApiFacts Examples ExamplesIo ExamplesApi.
Local Open Scope string_scope.
Local Open Scope list_scope.
Local Open Scope nat_scope.

(* C32: the same identifier for the same name, different ones for different names *)
Theorem C32_identifiers_are_stable :
  forall p files calls i j name1 id1 name2 id2,
    registered p (world_start files) calls i name1 id1 -> registered p (world_start files) calls j name2 id2 ->
    (name1 = name2 <-> id1 = id2).
Proof. exact registered_start. Qed.
Print Assumptions C32_identifiers_are_stable.

(* C32: the name of an identifier *)
Theorem C32_names_are_found :
  forall p files calls j thread id buffer v result,
    called p (world_start files) calls j thread (GetDataOrigin id (Some buffer)) v result -> result = Returned 0 ->
    exists name buffer', v = VText buffer' /\ holds_text buffer' name /\ length buffer' = length buffer
    /\ (forall i n, i < j -> registered p (world_start files) calls i n id -> n = name)
    /\ ((forall i n, i < j -> ~ registered p (world_start files) calls i n id) -> name = "unregistered origin").
Proof. exact get_data_origin_success. Qed.
Print Assumptions C32_names_are_found.

Example C32_example :
  registered Debug ex_start ex_calls 0 "numpy" 1 /\ registered Debug ex_start ex_calls 11 "numpy" 1
  /\ registered Debug ex_start ex_calls 1 "torch" 2
  /\ called Debug ex_start ex_calls 20 1 (GetDataOrigin 2 (Some (ex_text 10)))
       (VText (list_ascii_of_string "torch" ++ nul :: ex_text 4)) (Returned 0).
Proof.
  split; [exists 0, "numpy"|split; [exists 0, "numpy"|split; [exists 1, "torch"|]]]; vm_compute; repeat split.
Qed.

(* C33. The full statement asks for EQS_BUFFER_SIZE_ERROR when the name does not
   fit, for buffers of any length. The status is EQS_INVALID_PARAMETER_ERROR
   (1), and the length can not be zero. *)
Theorem C33_names_fit_in_the_buffer_partial :
  forall p files calls j thread id buffer v r,
    called p (world_start files) calls j thread (GetDataOrigin id (Some buffer)) v r -> 0 < length buffer ->
    exists name,
      (forall i n, i < j -> registered p (world_start files) calls i n id -> n = name)
      /\ ((forall i n, i < j -> ~ registered p (world_start files) calls i n id) -> name = "unregistered origin")
      /\ (String.length name < length buffer ->
            r = Returned 0 /\ v = VText (list_ascii_of_string name ++ nul :: skipn (S (String.length name)) buffer))
      /\ (length buffer <= String.length name -> r = Returned 1 /\ v = VText buffer).
Proof. exact get_data_origin_copies. Qed.
Print Assumptions C33_names_fit_in_the_buffer_partial.

Example C33_example :
  called Release ex_start ex_buffers 1 0 (GetDataOrigin 1 (Some (ex_text 5))) (VText (ex_text 5)) (Returned 1)
  /\ registered Release ex_start ex_buffers 0 "numpy" 1.
Proof. split; [|exists 0, "numpy"]; vm_compute; repeat split. Qed.

(* C33 is false for small buffers: this is not EQS_BUFFER_SIZE_ERROR (254) *)
Theorem C33_buffer_size_error_refuted :
  exists p calls i thread id buffer v name,
    registered p (world_start []) calls 0 name id /\ 0 < i /\ length buffer <= String.length name
    /\ called p (world_start []) calls i thread (GetDataOrigin id (Some buffer)) v (Returned 1).
Proof. exact ex_buffer_size. Qed.
Print Assumptions C33_buffer_size_error_refuted.

(* C33 is false for a buffer of length zero: release builds write out of the
   buffer, and debug builds report an internal error *)
Theorem C33_empty_buffer_refuted :
  exists calls i thread id v reason,
    called Release (world_start []) calls i thread (GetDataOrigin id (Some [])) v (Crashed reason)
    /\ called Debug (world_start []) calls i thread (GetDataOrigin id (Some [])) v (Returned 255).
Proof. exact ex_empty_buffer. Qed.
Print Assumptions C33_empty_buffer_refuted.

(* C34: the status *)
Theorem C34_success_means_success :
  forall p files calls i thread c v result,
    called p (world_start files) calls i thread c v result ->
    (result = Returned 0 <-> snd (call_body p thread (state_at p (world_start files) calls i) c) = Ok tt).
Proof. exact status_zero. Qed.
Print Assumptions C34_success_means_success.

Theorem C34_status_is_the_error :
  forall p files calls i thread c v status e,
    called p (world_start files) calls i thread c v (Returned status) ->
    error_of (snd (call_body p thread (state_at p (world_start files) calls i) c)) e ->
    exists text, reported_as e status text.
Proof. exact status_documented. Qed.
Print Assumptions C34_status_is_the_error.

(* C34: the message of the last error of this thread *)
Theorem C34_last_error_message :
  forall p files calls i thread v result,
    called p (world_start files) calls i thread LastError v result ->
    exists text, v = VError text /\ result = Returned 0
    /\ (forall j e, j < i -> failed_with p (world_start files) calls j thread e ->
         (forall k e', j < k < i -> ~ failed_with p (world_start files) calls k thread e') ->
         exists status, reported_as e status text)
    /\ ((forall j e, j < i -> ~ failed_with p (world_start files) calls j thread e) -> text = "").
Proof. exact last_error_documented. Qed.
Print Assumptions C34_last_error_message.

(* thread 1 fails with call 10, after a failure of thread 0 and before a success *)
Example C34_example :
  called Debug ex_start ex_calls 12 0 LastError
    (VError "invalid parameter: gradient with respect to 'positions' already exists for this block") (Returned 0)
  /\ called Debug ex_start ex_calls 13 1 LastError
    (VError "invalid parameter: got the same block more than once when constructing a tensor map") (Returned 0)
  /\ failed_with Debug ex_start ex_calls 9 0
       (InvalidParameter "gradient with respect to 'positions' already exists for this block").
Proof.
  split; [vm_compute; split; reflexivity|]. split; [vm_compute; split; reflexivity|].
  eexists. exists VNone, (Returned 1). split; [split; vm_compute; reflexivity|]. left. vm_compute. reflexivity.
Qed.

(* C35. The full statement: no call ever unwinds. This is the case for all
   functions but eqs_tensormap_load, and eqs_tensormap_save when the message of
   the operating system contains NUL; any call unwinds exactly when it fails with
   a message which contains NUL. *)
Theorem C35_no_unwinding_partial :
  forall p files calls i thread c v result m,
    called p (world_start files) calls i thread c v result ->
    reportable c -> result <> Unwound m.
Proof. exact no_unwinding. Qed.
Print Assumptions C35_no_unwinding_partial.

Theorem C35_unwinds_exactly_for_nul_partial :
  forall p w calls i thread c v result,
    called p w calls i thread c v result ->
    ((exists m, result = Unwound m) <->
     exists e, error_of (snd (call_body p thread (state_at p w calls i) c)) e /\ has_nul (error_text e) = true).
Proof. exact unwinds_exactly. Qed.
Print Assumptions C35_unwinds_exactly_for_nul_partial.

(* call number 8 fails *)
Example C35_example :
  exists c, called Debug ex_start ex_calls 8 1 c (VBlock BlockNull) (Returned 1) /\ reportable c.
Proof. eexists. split; [split; vm_compute; reflexivity|exact I]. Qed.

(* C35 is false: loading a file where the name of a variable contains NUL *)
Theorem C35_load_unwinds_refuted :
  forall p, exists files calls i thread c v m,
    called p (world_start files) calls i thread c v (Unwound m).
Proof. exact ex_load_unwinds. Qed.
Print Assumptions C35_load_unwinds_refuted.

(* C36: labels go through the C API unchanged *)
Theorem C36_labels_round_trip :
  forall l, axis_labels l ->
    exists c l', labels_to_c l = Ok c /\ labels_from_c c = Ok l' /\ same_labels l' l
      /\ readable c /\ c_names c = labels_names l /\ c_rows c = rows l /\ cl_labels_ptr c = Some l.
Proof. exact labels_round_trip. Qed.
Print Assumptions C36_labels_round_trip.

(* C36: which labels are accepted *)
Theorem C36_accepted_labels :
  forall c, readable c -> 0 < cl_size c ->
    ((exists l, labels_from_c c = Ok l) <->
     cl_names c <> None /\ (cl_values c = None -> cl_count c = 0) /\ good_names (c_names c) /\ NoDup (c_rows c))
    /\ (forall l, labels_from_c c = Ok l -> is_labels l (c_names c) (c_rows c)).
Proof. exact labels_from_c_is. Qed.
Print Assumptions C36_accepted_labels.

(* C36: without variables there are no rows, even when there should be some *)
Theorem C36_labels_without_variables :
  forall c memory, cl_size c = 0 -> cl_names c = Some memory -> (cl_values c = None -> cl_count c = 0) ->
    labels_from_c c = Ok (mk_labels [] [] []).
Proof. exact labels_from_c_nothing. Qed.
Print Assumptions C36_labels_without_variables.

(* C36: finding rows in the labels given by the library *)
Theorem C36_position_of_a_row :
  forall p thread w l c memory s v r,
    axis_labels l -> labels_to_c l = Ok c -> labels_size l <= length memory ->
    run_call p thread w (LabelsPosition c (Some memory) (labels_size l)) = (s, v, r) ->
    r = Returned 0 /\ exists position, v = VPosition position
    /\ ((position = (-1)%Z /\ ~ In (firstn (labels_size l) memory) (rows l))
        \/ exists i, position = Z.of_nat i /\ nth_error (rows l) i = Some (firstn (labels_size l) memory)).
Proof. exact position_call. Qed.
Print Assumptions C36_position_of_a_row.

Example C36_example :
  axis_labels ex_properties /\ readable ex_c_properties /\ cl_size ex_c_properties = 2
  /\ labels_from_c ex_c_properties = Ok ex_properties
  /\ (exists m, labels_from_c (ex_c ["n"; "l"] [[0; 1]; [0; 1]]%Z) = Panic m)
  /\ exists c, labels_to_c ex_properties = Ok c /\ snd (run_call Debug 0 ex_start (LabelsPosition c (Some [3; 1; 7]%Z) 2)) = Returned 0.
Proof.
  split; [split; [exact ex_properties_wf|discriminate]|]. split; [apply check_readable_sound; reflexivity|].
  split; [reflexivity|]. split; [vm_compute; reflexivity|]. split; [eexists; vm_compute; reflexivity|].
  eexists. split; vm_compute; reflexivity.
Qed.

(* C37: labels and arrays of a block agree, and the calls fail for unknown
   gradients and axes *)
Theorem C37_block_labels_and_data :
  forall p files calls i thread block b name axis s1 vd rd s2 vl rl,
    never_crashed p (world_start files) calls -> ordinary p (world_start files) calls ->
    let s := state_at p (world_start files) calls i in
    points_to s block b -> utf8_text name ->
    run_call p thread s (BlockData block (Some name) out) = (s1, vd, rd) ->
    run_call p thread s (BlockLabels block (Some name) axis out) = (s2, vl, rl) ->
    (exists part, named_part (ob_block b) (c_str name) part
       /\ rd = Returned 0 /\ (exists id, vd = VArray (mk_given (bb_data part) id false) /\ In id (owned_arrays s))
       /\ (forall l, nth_error (axes part) axis = Some l ->
             rl = Returned 0 /\ exists c, vl = VLabels c /\ c_names c = labels_names l /\ c_rows c = rows l
               /\ nth_error (shape_of (bb_data part)) axis = Some (cl_count c))
       /\ (length (shape_of (bb_data part)) <= axis -> rl = Returned 1 /\ vl = VNone))
    \/ ((forall part, ~ named_part (ob_block b) (c_str name) part)
        /\ rd = Returned 1 /\ vd = VNone /\ rl = Returned 1 /\ vl = VNone).
Proof. exact block_labels_match. Qed.
Print Assumptions C37_block_labels_and_data.

Example C37_example :
  never_crashed Debug ex_start ex_calls /\ ordinary Debug ex_start ex_calls
  /\ points_to (ex_state 17) (BlockIn 4 1) (mk_owned_block ex_block_2 [2; 3])
  /\ utf8_text "positions"
  /\ (exists s v c, run_call Debug 1 (ex_state 17) (BlockLabels (BlockIn 4 1) (Some "positions") 2 out) = (s, v, Returned 0)
       /\ v = VLabels c /\ c_names c = ["xyz"] /\ cl_count c = 2)
  /\ snd (run_call Debug 1 (ex_state 17) (BlockLabels (BlockIn 4 1) (Some "positions") 4 out)) = Returned 1
  /\ snd (run_call Debug 1 (ex_state 17) (BlockLabels (BlockIn 4 1) (Some "cell") 0 out)) = Returned 1.
Proof.
  split; [exact ex_never_crashed|]. split; [exact ex_ordinary|]. split; [exact ex_points_to|].
  split; [reflexivity|]. split; [|split; vm_compute; reflexivity].
  eexists. eexists. eexists. split; [vm_compute; reflexivity|]. split; [reflexivity|]. split; reflexivity.
Qed.

(* C38. The full statement: nothing is written after the end of the buffer (also
   proved here), on success the matching blocks are in the buffer, and if the
   buffer is too small there is an error and *count does not change. In this last
   case there is an internal error (255) and *count changes. *)
Theorem C38_blocks_matching_partial :
  forall p files calls i thread handle t buffer c selection s' v r,
    never_crashed p (world_start files) calls -> ordinary p (world_start files) calls ->
    let s := state_at p (world_start files) calls i in
    tensor_at s handle t -> labels_from_c c = Ok selection ->
    run_call p thread s (TensorBlocksMatching (Some handle) (Some buffer) out c) = (s', v, r) ->
    (valid_selection (ot_tensor t) selection ->
       exists l, StronglySorted lt l /\ (forall i, In i l <-> selected (ot_tensor t) selection i)
       /\ (length l <= length buffer -> r = Returned 0 /\ v = VIndexes (l ++ skipn (length l) buffer) (length l))
       /\ (length buffer < length l -> r = Returned 255 /\ v = VIndexes (firstn (length buffer) l) (length l)))
    /\ (~ valid_selection (ot_tensor t) selection -> r = Returned 1 /\ v = VIndexes buffer (length buffer)).
Proof. exact blocks_matching_call. Qed.
Print Assumptions C38_blocks_matching_partial.

Example C38_example :
  never_crashed Debug ex_start ex_calls /\ ordinary Debug ex_start ex_calls
  /\ tensor_at (ex_state 19) 4 ex_owned
  /\ labels_from_c (ex_c ["spin"] [[0]]%Z) = Ok (ex_labels ["spin"] [[0]]%Z)
  /\ called Debug ex_start ex_calls 19 0 (TensorBlocksMatching (Some 4) (Some [0; 0; 0; 0]) out (ex_c ["spin"] [[0]]%Z))
       (VIndexes [0; 2; 0; 0] 2) (Returned 0).
Proof.
  split; [exact ex_never_crashed|]. split; [exact ex_ordinary|]. split; [apply ex_tensor_at; cbn; auto|].
  split; [vm_compute; reflexivity|]. split; vm_compute; reflexivity.
Qed.

(* C38 is false for small buffers *)
Theorem C38_small_buffer_refuted :
  exists p calls i thread handle buffer c indexes count,
    count <> length buffer
    /\ snd (fst (run_call p thread (state_at p (world_start []) calls i)
              (TensorBlocksMatching (Some handle) (Some buffer) out c))) = VIndexes indexes count
    /\ snd (run_call p thread (state_at p (world_start []) calls i)
              (TensorBlocksMatching (Some handle) (Some buffer) out c)) = Returned 255.
Proof. exact ex_small_buffer. Qed.
Print Assumptions C38_small_buffer_refuted.

(* C39: arrays are destroyed once, when nothing uses them anymore *)
Theorem C39_arrays_are_destroyed_once :
  forall p files calls i,
    never_crashed p (world_start files) calls ->
    let w := state_at p (world_start files) calls i in
    NoDup (w_destroyed w) /\ NoDup (owned_arrays w)
    /\ (forall a, In a (owned_arrays w) -> ~ In a (w_destroyed w))
    /\ (forall a, In a (owned_arrays w) \/ In a (w_destroyed w) <-> a < w_next_array w)
    /\ (w_blocks w = [] -> w_tensors w = [] -> forall a, a < w_next_array w -> In a (w_destroyed w)).
Proof. exact arrays_destroyed_once. Qed.
Print Assumptions C39_arrays_are_destroyed_once.

Example C39_example :
  never_crashed Debug ex_start ex_calls
  /\ owned_arrays (ex_state 21) = [8; 9; 0; 1; 2; 3; 4; 5] /\ w_destroyed (ex_state 21) = [6; 7]
  /\ w_next_array (ex_state 28) = 20 /\ length (w_destroyed (ex_state 28)) = 20.
Proof.
  split; [exact ex_never_crashed|]. split; [vm_compute; reflexivity|]. split; [vm_compute; reflexivity|].
  split; vm_compute; reflexivity.
Qed.

(* C40: the same block can not be used twice *)
Theorem C40_same_block_twice :
  forall p files calls i thread keys blocks s' v r,
    let s := state_at p (world_start files) calls i in
    ~ NoDup blocks -> run_call p thread s (TensorCreate keys blocks) = (s', v, r) ->
    r <> Returned 0 /\ v = VTensor None blocks /\ w_blocks s' = w_blocks s /\ w_tensors s' = w_tensors s
    /\ w_destroyed s' = w_destroyed s.
Proof. exact tensormap_same_block. Qed.
Print Assumptions C40_same_block_twice.

(* C40: the blocks belong to the tensor map, or are gone if it can not be made *)
Theorem C40_blocks_are_moved :
  forall p files calls i thread keys k blocks owned s' v r,
    never_crashed p (world_start files) calls -> ordinary p (world_start files) calls ->
    let s := state_at p (world_start files) calls i in
    labels_from_c keys = Ok k -> labels_names k <> [] -> NoDup blocks ->
    Forall2 (fun b ob => exists h, b = BlockAt h /\ block_at s h ob) blocks owned ->
    run_call p thread s (TensorCreate keys blocks) = (s', v, r) ->
    (forall h ob, block_at s' h ob <-> block_at s h ob /\ ~ In (BlockAt h) blocks)
    /\ (r = Returned 0 <-> homogeneous k (map ob_block owned))
    /\ exists tensor, v = VTensor tensor (map (fun _ => BlockNull) blocks)
    /\ (r = Returned 0 -> w_destroyed s' = w_destroyed s
        /\ exists h, tensor = Some h /\ (forall t, ~ tensor_at s h t)
          /\ w_tensors s' = (h, mk_owned_tensor (mk_tensor k (map ob_block owned)) (map ob_arrays owned)) :: w_tensors s)
    /\ (r <> Returned 0 -> tensor = None /\ w_tensors s' = w_tensors s
        /\ w_destroyed s' = w_destroyed s ++ concat (map ob_arrays owned)).
Proof. exact tensormap_takes_blocks. Qed.
Print Assumptions C40_blocks_are_moved.

Example C40_example :
  ~ NoDup [BlockAt 0; BlockAt 1; BlockAt 0]
  /\ (exists v, called Debug ex_start ex_calls 10 1 (TensorCreate ex_c_keys [BlockAt 0; BlockAt 1; BlockAt 0]) v (Returned 1))
  /\ labels_from_c ex_c_keys = Ok ex_keys
  /\ Forall2 (fun b ob => exists h, b = BlockAt h /\ block_at (ex_state 15) h ob) [BlockAt 0; BlockAt 1; BlockAt 2]
       [mk_owned_block ex_block_1 [0; 1]; mk_owned_block ex_block_2 [2; 3]; mk_owned_block ex_block_3 [4; 5]]
  /\ called Debug ex_start ex_calls 15 0 (TensorCreate ex_c_keys [BlockAt 0; BlockAt 1; BlockAt 2])
       (VTensor (Some 4) [BlockNull; BlockNull; BlockNull]) (Returned 0).
Proof.
  split; [intros H; inversion H as [|? ? H1 _]; apply H1; cbn; auto|].
  split; [eexists; split; vm_compute; reflexivity|]. split; [vm_compute; reflexivity|].
  split; [exact ex_blocks_at|]. split; vm_compute; reflexivity.
Qed.

(* C55: the blocks and tensor maps of a program are always well formed, and every
   block has its own arrays *)
Theorem C55_everything_is_well_formed :
  forall p files calls i,
    never_crashed p (world_start files) calls -> ordinary p (world_start files) calls ->
    let s := state_at p (world_start files) calls i in
    (forall block b, points_to s block b -> wf_block (ob_block b) /\ Forall (fun a => In a (owned_arrays s)) (ob_arrays b)
       /\ length (ob_arrays b) = 1 + length (tb_gradients (ob_block b)))
    /\ (forall h t, tensor_at s h t -> wf_tensor (ot_tensor t)).
Proof. exact everything_well_formed. Qed.
Print Assumptions C55_everything_is_well_formed.

Example C55_example :
  never_crashed Debug ex_start ex_calls /\ ordinary Debug ex_start ex_calls
  /\ points_to (ex_state 17) (BlockIn 4 1) (mk_owned_block ex_block_2 [2; 3])
  /\ tensor_at (ex_state 17) 4 ex_owned /\ length (tm_blocks (ot_tensor ex_owned)) = 3.
Proof.
  split; [exact ex_never_crashed|]. split; [exact ex_ordinary|]. split; [exact ex_points_to|].
  split; [apply ex_tensor_at; cbn; auto|vm_compute; reflexivity].
Qed.

(* C56: calls change nothing but the blocks and tensor maps they are given, and
   new handles were never used before *)
Theorem C56_calls_change_their_arguments_only :
  forall p files calls i thread c v r,
    never_crashed p (world_start files) calls ->
    called p (world_start files) calls i thread c v r ->
    let before := state_at p (world_start files) calls i in
    let after := state_at p (world_start files) calls (S i) in
    (forall h b, ~ changes_block c h -> block_at before h b -> block_at after h b)
    /\ (forall h b, block_at after h b -> block_at before h b \/ changes_block c h
          \/ (v = VBlock (BlockAt h) /\ forall j b', j <= i -> ~ block_at (state_at p (world_start files) calls j) h b'))
    /\ (forall h t, ~ changes_tensor c h -> tensor_at before h t -> tensor_at after h t)
    /\ (forall h t, tensor_at after h t -> tensor_at before h t \/ changes_tensor c h
          \/ ((exists l, v = VTensor (Some h) l)
              /\ forall j t', j <= i -> ~ tensor_at (state_at p (world_start files) calls j) h t')).
Proof. exact call_frame. Qed.
Print Assumptions C56_calls_change_their_arguments_only.

(* keys_to_samples, while there is a copy of one of the blocks *)
Example C56_example :
  never_crashed Debug ex_start ex_calls
  /\ called Debug ex_start ex_calls 22 0 (TensorKeysToSamples (Some 4) (ex_c ["spin"] []) true 0) VNone (Returned 0)
  /\ map fst (w_blocks (ex_state 22)) = [3] /\ w_blocks (ex_state 23) = w_blocks (ex_state 22)
  /\ map fst (w_tensors (ex_state 23)) = [4].
Proof.
  split; [exact ex_never_crashed|]. split; [split; vm_compute; reflexivity|].
  split; [vm_compute; reflexivity|]. split; vm_compute; reflexivity.
Qed.

(* C57: failed calls change nothing, but for eqs_tensormap, which takes the
   blocks (C40), and eqs_tensormap_components_to_properties (C28) *)
Theorem C57_failed_calls_change_nothing :
  forall p files calls i thread c v r,
    never_crashed p (world_start files) calls ->
    called p (world_start files) calls i thread c v r -> r <> Returned 0 -> transactional c ->
    let before := state_at p (world_start files) calls i in
    let after := state_at p (world_start files) calls (S i) in
    w_blocks after = w_blocks before /\ w_tensors after = w_tensors before.
Proof. exact failed_call_keeps. Qed.
Print Assumptions C57_failed_calls_change_nothing.

Example C57_example :
  never_crashed Debug ex_start ex_calls
  /\ (exists c, called Debug ex_start ex_calls 9 0 c VNone (Returned 1) /\ transactional c)
  /\ map fst (w_blocks (ex_state 9)) = [2; 1; 0].
Proof.
  split; [exact ex_never_crashed|]. split; [|vm_compute; reflexivity].
  eexists. split; [split; vm_compute; reflexivity|exact I].
Qed.

(* C58: nothing undefined happens in programs which respect the contract *)
Theorem C58_memory_safety :
  forall p files calls,
    respectful p (world_start files) calls -> never_crashed p (world_start files) calls.
Proof. exact respectful_safe. Qed.
Print Assumptions C58_memory_safety.

Example C58_example : respectful Debug ex_start ex_calls /\ length (snd (run Debug ex_start ex_calls)) = 28.
Proof. split; [exact ex_respectful|vm_compute; reflexivity]. Qed.

(* C59: what was saved is loaded *)
Theorem C59_save_then_load :
  forall p files calls i j t1 t2 path tensor t system remains v1 path' names temporary v2 r2,
    never_crashed p (world_start files) calls -> ordinary p (world_start files) calls ->
    called p (world_start files) calls i t1 (TensorSave (Some path) (Some tensor) system remains) v1 (Returned 0) ->
    tensor_at (state_at p (world_start files) calls i) tensor t -> tensor_in_memory (ot_tensor t) ->
    i < j ->
    (forall k thread c v r, i < k < j -> called p (world_start files) calls k thread c v r -> ~ writes_file c (c_str path)) ->
    called p (world_start files) calls j t2 (TensorLoad (Some path') names temporary) v2 r2 ->
    c_str path' = c_str path -> lists_archive (state_at p (world_start files) calls j) (c_str path) names ->
    r2 = Returned 0
    /\ exists handle loaded, v2 = VTensor (Some handle) []
       /\ tensor_at (state_at p (world_start files) calls (S j)) handle loaded
       /\ same_tensor (ot_tensor t) (ot_tensor loaded) /\ wf_tensor (ot_tensor loaded).
Proof. exact save_then_load. Qed.
Print Assumptions C59_save_then_load.

(* the tensor map changed after it was saved *)
Example C59_example :
  never_crashed Debug ex_start ex_calls /\ ordinary Debug ex_start ex_calls
  /\ called Debug ex_start ex_calls 21 0 (TensorSave (Some "tensor.npz") (Some 4) None None) VNone (Returned 0)
  /\ tensor_at (ex_state 21) 4 ex_owned /\ tensor_in_memory (ot_tensor ex_owned)
  /\ (forall k thread c v r, 21 < k < 23 -> called Debug ex_start ex_calls k thread c v r -> ~ writes_file c "tensor.npz")
  /\ called Debug ex_start ex_calls 23 1 (TensorLoad (Some "tensor.npz") (rev (map fst ex_archive)) 0)
       (VTensor (Some 5) []) (Returned 0)
  /\ lists_archive (ex_state 23) "tensor.npz" (rev (map fst ex_archive)).
Proof.
  split; [exact ex_never_crashed|]. split; [exact ex_ordinary|]. split; [split; vm_compute; reflexivity|].
  split; [apply ex_tensor_at; cbn; auto 10|]. split; [exact ex_tensor_in_memory|]. split; [exact ex_not_written|].
  split; [split; vm_compute; reflexivity|]. exact ex_lists_archive.
Qed.
