(* Model of src/tensor/keys_to_samples.rs and keys_to_properties.rs for any
   implementation of the callback move_samples_from: the definitions are the ones
   of Tensor.v, with [move] instead of the function of Array.v. *)
From Verif Require Import Base Labels Array Block Tensor.
Local Open Scope string_scope.
Local Open Scope list_scope.
Local Open Scope nat_scope.

Section With.
Context (move : eqs_array -> eqs_array -> list sample_mapping -> nat -> nat -> outcome eqs_array).

(* src/tensor/keys_to_samples.rs:175-200 and keys_to_properties.rs:254-284 --
   one iteration: move the data of the gradient of one block *)
Definition move_gradient_with (p : profile) (parameter : string) (new_components : list Labels)
    (new_gradient_samples : Labels) (block : TensorBlock) (samples_mapping : list sample_mapping)
    (start stop : nat) (new_gradient : eqs_array) : outcome eqs_array :=
  let? gradient := expect_some "missing gradient" (tensor_block_gradient block parameter) in
  let? _ := debug_assert p (labels_list_eqb (bb_components gradient) new_components)
              "assertion failed: *gradient.components == *new_components" in
  let? rows := labels_iter (bb_samples gradient) in
  let? samples_to_move := gradient_samples_to_move p 0 new_gradient_samples samples_mapping rows in
  move new_gradient (bb_data gradient) samples_to_move start stop.

(* src/tensor/keys_to_samples.rs:101-208 -- merge_blocks_along_samples *)
Definition merge_blocks_along_samples_with (p : profile) (blocks_to_merge : list KeyAndBlock)
    (extracted_names : list string) (sort_samples : bool) : outcome TensorBlock :=
  match blocks_to_merge with
  | [] => Panic "assertion failed: !blocks_to_merge.is_empty()"
  | (_, first_block) :: _ =>
      let first := tb_values first_block in
      let? _ := check_same_labels_for_samples first blocks_to_merge in
      let new_samples_names := labels_names (bb_samples first) ++ extracted_names in
      let? (merged_samples, samples_mappings) :=
        merge_samples blocks_to_merge new_samples_names sort_samples in
      let new_components := bb_components first in
      let new_properties := bb_properties first in
      let? shape := array_shape (bb_data first) in
      let? n_samples := labels_count merged_samples in
      let? new_shape := set_slice shape 0 n_samples in
      let? new_data := array_create (bb_data first) new_shape in
      let? n_properties := labels_count new_properties in
      let? new_data := foldM (fun new_data kbm =>
          let '((_, block), samples_mapping) := kbm in
          move new_data (bb_data (tb_values block)) samples_mapping 0 n_properties)
        (combine blocks_to_merge samples_mappings) new_data in
      let? new_block := expect "invalid block"
        (tensor_block_new new_data merged_samples new_components new_properties) in
      foldM (fun new_block pg =>
          let '(parameter, first_gradient) := pg in
          let? new_gradient_samples :=
            merge_gradient_samples p blocks_to_merge parameter samples_mappings in
          let? shape := array_shape (bb_data first_gradient) in
          let? n_samples := labels_count new_gradient_samples in
          let? new_shape := set_slice shape 0 n_samples in
          let? new_gradient := array_create (bb_data first) new_shape in
          let new_components := bb_components first_gradient in
          let? new_gradient := foldM (fun new_gradient kbm =>
              let '((_, block), samples_mapping) := kbm in
              move_gradient_with p parameter new_components new_gradient_samples block samples_mapping
                0 n_properties new_gradient)
            (combine blocks_to_merge samples_mappings) new_gradient in
          add_merged_gradient new_block parameter new_gradient new_gradient_samples new_components)
        (tb_gradients first_block) new_block
  end.

(* src/tensor/keys_to_samples.rs:34-90 -- everything before self is modified *)
Definition keys_to_samples_compute_with (p : profile) (t : TensorMap) (keys_to_move : Labels)
    (sort_samples : bool) : outcome (Labels * list TensorBlock) :=
  let? count := labels_count keys_to_move in
  if 0 <? count then
    Err (InvalidParameter
      "user provided values for the keys to move is not yet implemented, `keys_to_move` should not contain any entry when calling keys_to_samples")
  else
  let names_to_move := labels_names keys_to_move in
  let? (new_keys, variables_positions) := remove_variables_from_keys (tm_keys t) names_to_move in
  let? new_blocks := merged_blocks t new_keys variables_positions (fun blocks_to_merge =>
    merge_blocks_along_samples_with p blocks_to_merge names_to_move sort_samples) in
  Ok (new_keys, new_blocks).

(* src/tensor/keys_to_samples.rs:31-97 -- TensorMap::keys_to_samples; the
   assignments to self (93-94) only happen once everything else succeeded *)
Definition keys_to_samples_with (p : profile) (t : TensorMap) (keys_to_move : Labels) (sort_samples : bool)
  : TensorMap * outcome unit :=
  match keys_to_samples_compute_with p t keys_to_move sort_samples with
  | Ok (new_keys, new_blocks) => (mk_tensor new_keys new_blocks, Ok tt)
  | Err e => (t, Err e)
  | Panic m => (t, Panic m)
  | Undefined r => (t, Undefined r)
  end.

(* src/tensor/keys_to_properties.rs:114-292 -- merge_blocks_along_properties *)
Definition merge_blocks_along_properties_with (p : profile) (blocks_to_merge : list KeyAndBlock)
    (keys_to_move : option Labels) (extracted_names : list string) (sort_samples : bool)
  : outcome TensorBlock :=
  match blocks_to_merge with
  | [] => Panic "assertion failed: !blocks_to_merge.is_empty()"
  | (_, first_block) :: _ =>
      let first := tb_values first_block in
      let? _ := check_same_labels_for_properties first
                  (match keys_to_move with Some _ => true | None => false end) blocks_to_merge in
      let? (merged_samples, samples_mappings) :=
        merge_samples blocks_to_merge (labels_names (bb_samples first)) sort_samples in
      let? new_properties := merged_properties first keys_to_move blocks_to_merge in
      let? new_properties :=
        labels_build (extracted_names ++ labels_names (bb_properties first)) new_properties in
      let new_components := bb_components first in
      let? new_properties_count := labels_count new_properties in
      let? shape := array_shape (bb_data first) in
      let? n_samples := labels_count merged_samples in
      let? new_shape := set_slice shape 0 n_samples in
      let? new_shape := set_slice new_shape (length new_shape - 1) new_properties_count in
      let? new_data := array_create (bb_data first) new_shape in
      let? property_ranges := mapM (property_range new_properties) blocks_to_merge in
      let? new_data := foldM (fun new_data kbmr =>
          let '(((_, block), samples_mapping), range) := kbmr in
          match range with
          | Some (start, stop) =>
              move new_data (bb_data (tb_values block)) samples_mapping start stop
          | None => Ok new_data
          end)
        (combine (combine blocks_to_merge samples_mappings) property_ranges) new_data in
      let? new_block := expect "constructed an invalid block"
        (tensor_block_new new_data merged_samples new_components new_properties) in
      foldM (fun new_block pg =>
          let '(parameter, first_gradient) := pg in
          let? new_gradient_samples :=
            merge_gradient_samples p blocks_to_merge parameter samples_mappings in
          let? shape := array_shape (bb_data first_gradient) in
          let? n_samples := labels_count new_gradient_samples in
          let? new_shape := set_slice shape 0 n_samples in
          let? new_shape := set_slice new_shape (length new_shape - 1) new_properties_count in
          let? new_gradient := array_create (bb_data first) new_shape in
          let new_components := bb_components first_gradient in
          let? new_gradient := foldM (fun new_gradient kbmr =>
              let '(((_, block), samples_mapping), range) := kbmr in
              match range with
              | Some (start, stop) =>
                  move_gradient_with p parameter new_components new_gradient_samples block samples_mapping
                    start stop new_gradient
              | None => Ok new_gradient
              end)
            (combine (combine blocks_to_merge samples_mappings) property_ranges) new_gradient in
          add_merged_gradient new_block parameter new_gradient new_gradient_samples new_components)
        (tb_gradients first_block) new_block
  end.

(* src/tensor/keys_to_properties.rs:44-102 -- everything before self is modified *)
Definition keys_to_properties_compute_with (p : profile) (t : TensorMap) (keys_to_move : Labels)
    (sort_samples : bool) : outcome (Labels * list TensorBlock) :=
  let names_to_move := labels_names keys_to_move in
  let? (new_keys, variables_positions) := remove_variables_from_keys (tm_keys t) names_to_move in
  let? count := labels_count keys_to_move in
  let keys_to_move := if count =? 0 then None else Some keys_to_move in
  let? new_blocks := merged_blocks t new_keys variables_positions (fun blocks_to_merge =>
    merge_blocks_along_properties_with p blocks_to_merge keys_to_move names_to_move sort_samples) in
  Ok (new_keys, new_blocks).

(* src/tensor/keys_to_properties.rs:41-109 -- TensorMap::keys_to_properties *)
Definition keys_to_properties_with (p : profile) (t : TensorMap) (keys_to_move : Labels) (sort_samples : bool)
  : TensorMap * outcome unit :=
  match keys_to_properties_compute_with p t keys_to_move sort_samples with
  | Ok (new_keys, new_blocks) => (mk_tensor new_keys new_blocks, Ok tt)
  | Err e => (t, Err e)
  | Panic m => (t, Panic m)
  | Undefined r => (t, Undefined r)
  end.

End With.

(* the same definitions *)
Lemma move_gradient_same : move_gradient_with array_move_samples_from = move_gradient.
Proof. reflexivity. Qed.

Lemma merge_blocks_along_samples_same : merge_blocks_along_samples_with array_move_samples_from = merge_blocks_along_samples.
Proof. reflexivity. Qed.

Lemma keys_to_samples_compute_same : keys_to_samples_compute_with array_move_samples_from = keys_to_samples_compute.
Proof. reflexivity. Qed.

Lemma keys_to_samples_same : keys_to_samples_with array_move_samples_from = keys_to_samples.
Proof. reflexivity. Qed.

Lemma merge_blocks_along_properties_same : merge_blocks_along_properties_with array_move_samples_from = merge_blocks_along_properties.
Proof. reflexivity. Qed.

Lemma keys_to_properties_compute_same : keys_to_properties_compute_with array_move_samples_from = keys_to_properties_compute.
Proof. reflexivity. Qed.

Lemma keys_to_properties_same : keys_to_properties_with array_move_samples_from = keys_to_properties.
Proof. reflexivity. Qed.
