(* Model of src/tensor/mod.rs, src/tensor/iter.rs, src/tensor/utils.rs,
   src/tensor/keys_to_samples.rs and src/tensor/keys_to_properties.rs *)
From Verif Require Import Base Labels Array Block.
Local Open Scope string_scope.
Local Open Scope list_scope.
Local Open Scope nat_scope.

(** * src/tensor/mod.rs *)

(* src/tensor/mod.rs:26-31 -- struct TensorMap *)
Record TensorMap := mk_tensor {
  tm_keys : Labels;
  tm_blocks : list TensorBlock;
}.

(* src/tensor/mod.rs:59-68 -- comparison of the component names *)
Fixpoint check_components_names (components : list Labels) (components_names : list (list string))
    (context : string) : outcome unit :=
  match components, components_names with
  | component :: rest, names :: names_rest =>
      if negb (names_eqb (labels_names component) names) then
        Err (InvalidParameter ("all blocks must have the same component label names, got ["
          +++ join ", " (labels_names component) +++ "] and [" +++ join ", " names +++ "]" +++ context))
      else check_components_names rest names_rest context
  | _, _ => Ok tt
  end.

(* src/tensor/mod.rs:34-71 -- check_labels_names *)
Definition check_labels_names (block : BasicBlock) (sample_names : list string)
    (components_names : list (list string)) (context : string) : outcome unit :=
  if negb (names_eqb (labels_names (bb_samples block)) sample_names) then
    Err (InvalidParameter ("all blocks must have the same sample label names, got ["
      +++ join ", " (labels_names (bb_samples block)) +++ "] and ["
      +++ join ", " sample_names +++ "]" +++ context))
  else if negb (length (bb_components block) =? length components_names) then
    Err (InvalidParameter ("all blocks must contains the same set of components, the current block has "
      +++ string_of_nat (length (bb_components block)) +++ " components while the first block has "
      +++ string_of_nat (length components_names) +++ context))
  else check_components_names (bb_components block) components_names context.

(* src/tensor/mod.rs:98-105 -- gradients_data, built from the first block *)
Definition gradients_data_of (block : TensorBlock)
  : list (string * (list string * list (list string))) :=
  map (fun pg => (fst pg, (labels_names (bb_samples (snd pg)),
                           map labels_names (bb_components (snd pg)))))
      (tb_gradients block).

(* src/tensor/mod.rs:125-142 -- loop over the gradients of one block *)
Fixpoint check_gradients_names (gradients : list (string * BasicBlock))
    (gradients_data : list (string * (list string * list (list string)))) : outcome unit :=
  match gradients with
  | [] => Ok tt
  | (parameter, gradient) :: rest =>
      match hm_get String.eqb gradients_data parameter with
      | None =>
          Err (InvalidParameter ("missing gradient with respect to " +++ parameter
            +++ " in one of the blocks"))
      | Some (sample_names, components_names) =>
          let? _ := check_labels_names gradient sample_names components_names
                      (" for gradients with respect to " +++ parameter) in
          check_gradients_names rest gradients_data
      end
  end.

(* src/tensor/mod.rs:108-143 -- the checks done on each block, against the
   first one *)
Definition check_block_names (first block : TensorBlock) : outcome unit :=
  let sample_names := labels_names (bb_samples (tb_values first)) in
  let components_names := map labels_names (bb_components (tb_values first)) in
  let properties_names := labels_names (bb_properties (tb_values first)) in
  let gradients_data := gradients_data_of first in
  let? _ := check_labels_names (tb_values block) sample_names components_names "" in
  if negb (names_eqb (labels_names (bb_properties (tb_values block))) properties_names) then
    Err (InvalidParameter ("all blocks must have the same property label names, got ["
      +++ join ", " (labels_names (bb_properties (tb_values block))) +++ "] and ["
      +++ join ", " properties_names +++ "]"))
  else if negb (length (tb_gradients block) =? length gradients_data) then
    Err (InvalidParameter "all blocks must contains the same set of gradients")
  else check_gradients_names (tb_gradients block) gradients_data.

Fixpoint check_all_blocks (first : TensorBlock) (blocks : list TensorBlock) : outcome unit :=
  match blocks with
  | [] => Ok tt
  | block :: rest =>
      let? _ := check_block_names first block in
      check_all_blocks first rest
  end.

(* src/tensor/mod.rs:80-150 -- TensorMap::new *)
Definition tensor_map_new (keys : Labels) (blocks : list TensorBlock) : outcome TensorMap :=
  let? n_keys := labels_count keys in
  if negb (length blocks =? n_keys) then
    Err (InvalidParameter ("expected the same number of blocks (" +++ string_of_nat n_keys
      +++ ") as the number of entries in the keys when creating a tensor, got "
      +++ string_of_nat (length blocks)))
  else
  let? _ := match blocks with
            | [] => Ok tt
            | first :: _ => check_all_blocks first blocks
            end in
  Ok (mk_tensor keys blocks).

(* src/tensor/mod.rs:186-191 -- position of a name in the keys *)
Fixpoint name_position (requested : string) (names : list string) : option nat :=
  match names with
  | [] => None
  | name :: rest => if String.eqb requested name then Some 0 else option_map S (name_position requested rest)
  end.

(* src/tensor/mod.rs:184-197 -- the 'outer loop *)
Fixpoint selection_variables (requested : list string) (names : list string) : outcome (list nat) :=
  match requested with
  | [] => Ok []
  | r :: rest =>
      match name_position r names with
      | Some i =>
          let? others := selection_variables rest names in
          Ok (i :: others)
      | None => Err (InvalidParameter ("'" +++ r +++ "' is not part of the keys for this tensor"))
      end
  end.

(* src/tensor/mod.rs:203-209 -- does this key match the selection *)
Fixpoint key_matches (labels : list Z) (variables : list nat) (selection : list Z) : outcome bool :=
  match variables, selection with
  | requested_i :: variables', value :: selection' =>
      let? v := index_slice labels requested_i in
      if negb (v =? value)%Z then Ok false
      else key_matches labels variables' selection'
  | _, _ => Ok true
  end.

(* src/tensor/mod.rs:202-214 -- loop over the keys *)
Fixpoint matching_blocks (block_i : nat) (keys : list (list Z)) (variables : list nat)
    (selection : list Z) : outcome (list nat) :=
  match keys with
  | [] => Ok []
  | labels :: rest =>
      let? selected := key_matches labels variables selection in
      let? others := matching_blocks (block_i + 1) rest variables selection in
      Ok (if selected then block_i :: others else others)
  end.

(* src/tensor/mod.rs:172-217 -- TensorMap::blocks_matching *)
Definition blocks_matching (t : TensorMap) (selection : Labels) : outcome (list nat) :=
  if labels_size selection =? 0 then Ok (seq 0 (length (tm_blocks t)))
  else
  let? count := labels_count selection in
  if negb (count =? 1) then
    Err (InvalidParameter ("block selection labels must contain a single row, got "
      +++ string_of_nat count))
  else
  let? variables := selection_variables (labels_names selection) (labels_names (tm_keys t)) in
  let? rows := labels_iter selection in
  let? row := expect_some "empty selection" (hd_error rows) in
  let? keys := labels_iter (tm_keys t) in
  matching_blocks 0 keys variables row.

(* src/tensor/mod.rs:223-246 -- TensorMap::block_matching *)
Definition block_matching (t : TensorMap) (selection : Labels) : outcome nat :=
  let? matching := blocks_matching t selection in
  match matching with
  | [i] => Ok i
  | _ =>
      let? row := labels_index selection 0 in
      let selection_str := join ", " (map (fun nv => fst nv +++ " = " +++ string_of_Z (snd nv))
                                          (combine (labels_names selection) row)) in
      match matching with
      | [] => Err (InvalidParameter ("no blocks matched the selection (" +++ selection_str +++ ")"))
      | _ => Err (InvalidParameter (string_of_nat (length matching) +++ " blocks matched the selection ("
               +++ selection_str +++ "), expected only one"))
      end
  end.

(* src/tensor/mod.rs:252-254 -- TensorMap::block *)
Definition tensor_map_block (t : TensorMap) (selection : Labels) : outcome TensorBlock :=
  let? i := block_matching t selection in
  index_slice (tm_blocks t) i.

(* src/tensor/mod.rs:263-265 -- loop over the blocks, stopping at the first
   failure *)
Fixpoint blocks_components_to_properties (variables : list string) (blocks : list TensorBlock)
  : list TensorBlock * outcome unit :=
  match blocks with
  | [] => ([], Ok tt)
  | block :: rest =>
      match tensor_block_components_to_properties block variables with
      | (block', Ok _) =>
          let '(rest', result) := blocks_components_to_properties variables rest in
          (block' :: rest', result)
      | (block', failure) => (block' :: rest, failure)
      end
  end.

(* src/tensor/mod.rs:258-268 -- TensorMap::components_to_properties *)
Definition components_to_properties (t : TensorMap) (variables : list string)
  : TensorMap * outcome unit :=
  match variables with
  | [] => (t, Ok tt)
  | _ =>
      let '(blocks, result) := blocks_components_to_properties variables (tm_blocks t) in
      (mk_tensor (tm_keys t) blocks, result)
  end.

(** * src/tensor/iter.rs *)

(* src/tensor/iter.rs:9-21, 50-56, 72-83 -- iter() and iter_mut(): all the
   items yielded *)
Definition tensor_map_iter (t : TensorMap) : outcome (list (list Z * TensorBlock)) :=
  let? keys := labels_iter (tm_keys t) in
  Ok (combine keys (tm_blocks t)).

(** * src/tensor/utils.rs *)

(* src/tensor/utils.rs:25-32 -- all the variables must be in the keys *)
Fixpoint check_variables (variables names : list string) : outcome unit :=
  match variables with
  | [] => Ok tt
  | variable :: rest =>
      if negb (mem String.eqb variable names) then
        Err (InvalidParameter ("'" +++ variable +++ "' is not part of the keys for this tensor map"))
      else check_variables rest names
  end.

(* src/tensor/utils.rs:38-45 -- (remaining_names, remaining_i, extracted_i) *)
Fixpoint split_names (i : nat) (names variables : list string) : list string * list nat * list nat :=
  match names with
  | [] => ([], [], [])
  | name :: rest =>
      let '(remaining_names, remaining_i, extracted_i) := split_names (i + 1) rest variables in
      if mem String.eqb name variables
      then (remaining_names, remaining_i, i :: extracted_i)
      else (name :: remaining_names, i :: remaining_i, extracted_i)
  end.

(* `for &i in positions { label.push(key[i]) }`, used in
   src/tensor/utils.rs:52-55, keys_to_samples.rs:50-53 and 75-78,
   keys_to_properties.rs:59-62 and 85-88 *)
Definition project (key : list Z) (positions : list nat) : outcome (list Z) :=
  mapM (index_slice key) positions.

(* src/tensor/utils.rs:14-19 and 23-70 -- remove_variables_from_keys, returns
   (new_keys, variables_positions) *)
Definition remove_variables_from_keys (keys : Labels) (variables : list string)
  : outcome (Labels * list nat) :=
  let names := labels_names keys in
  let? _ := check_variables variables names in
  let '(remaining_names, remaining_i, extracted_i) := split_names 0 names variables in
  let? remaining_keys :=
    match remaining_i with
    | [] => labels_single
    | _ =>
        let? rows := labels_iter keys in
        let? projections := mapM (fun key => project key remaining_i) rows in
        labels_build remaining_names (is_insert_all row_eqb [] projections)
    end in
  Ok (remaining_keys, extracted_i).

(* src/tensor/utils.rs:11 -- KeyAndBlock *)
Definition KeyAndBlock : Type := (list Z * TensorBlock)%type.

(* src/tensor/utils.rs:88-93, keys_to_samples.rs:182-187 and
   keys_to_properties.rs:266-271 -- translate the first entry of a gradient
   sample from the old to the new sample position *)
Definition translate_gradient_sample (p : profile) (samples_mapping : list sample_mapping)
    (grad_sample : list Z) : outcome (list Z) :=
  let? first := index_slice grad_sample 0 in
  let? old_sample_i := label_usize p first in
  let? mapping := index_slice_Z samples_mapping old_sample_i in
  let? _ := debug_assert p (Z.of_nat (sm_input mapping) =? old_sample_i)%Z
              "assertion failed: mapping.input == old_sample_i" in
  let? output := label_from_usize (Z.of_nat (sm_output mapping)) in
  Ok (set_nth grad_sample 0 output).

(* src/tensor/utils.rs:72-105 -- merge_gradient_samples *)
Definition merge_gradient_samples (p : profile) (blocks : list KeyAndBlock) (gradient_name : string)
    (samples_mappings : list (list sample_mapping)) : outcome Labels :=
  let? state := foldM (fun (state : option (list string) * list (list Z)) kbm =>
      let '(names, set) := state in
      let '((_, block), samples_mapping) := kbm in
      let? gradient := expect_some "missing gradient" (tensor_block_gradient block gradient_name) in
      let names := match names with
                   | None => Some (labels_names (bb_samples gradient))
                   | some => some
                   end in
      let? rows := labels_iter (bb_samples gradient) in
      let? translated := mapM (translate_gradient_sample p samples_mapping) rows in
      Ok (names, fold_left btree_insert translated set))
    (combine blocks samples_mappings) (None, []) in
  let '(names, set) := state in
  let? names := expect_some "missing gradient samples names" names in
  labels_build names set.

(* src/tensor/utils.rs:118-126 and 142-146 -- a sample of a block, followed by
   the moved key when it is added to the samples *)
Definition extended_samples (add_key_to_samples : bool) (kb : KeyAndBlock) : outcome (list (list Z)) :=
  let '(key, block) := kb in
  let? rows := labels_iter (bb_samples (tb_values block)) in
  Ok (map (fun sample => if add_key_to_samples then sample ++ key else sample) rows).

(* src/tensor/utils.rs:141-154 -- mapping for one block *)
Fixpoint samples_mapping_from (sample_i : nat) (merged : Labels) (samples : list (list Z))
  : outcome (list sample_mapping) :=
  match samples with
  | [] => Ok []
  | sample :: rest =>
      let? position := labels_position merged sample in
      let? new_sample_i := expect_some "missing entry in merged samples" position in
      let? others := samples_mapping_from (sample_i + 1) merged rest in
      Ok (mk_mapping sample_i new_sample_i :: others)
  end.

(* src/tensor/utils.rs:107-158 -- merge_samples *)
Definition merge_samples (blocks : list KeyAndBlock) (new_sample_names : list string) (sort : bool)
  : outcome (Labels * list (list sample_mapping)) :=
  let? first := index_slice blocks 0 in
  let add_key_to_samples :=
    labels_size (bb_samples (tb_values (snd first))) <? length new_sample_names in
  let? samples := mapM (extended_samples add_key_to_samples) blocks in
  let merged := is_insert_all row_eqb [] (concat samples) in
  let merged := if sort then sort_rows merged else merged in
  let? merged_samples := labels_build new_sample_names merged in
  let? samples_mappings := mapM (samples_mapping_from 0 merged_samples) samples in
  Ok (merged_samples, samples_mappings).

(** * src/tensor/keys_to_samples.rs *)

Definition labels_list_eqb : list Labels -> list Labels -> bool := list_eqb labels_eqb.

(* src/tensor/keys_to_samples.rs:112-126 *)
Fixpoint check_same_labels_for_samples (first : BasicBlock) (blocks : list KeyAndBlock) : outcome unit :=
  match blocks with
  | [] => Ok tt
  | (_, block) :: rest =>
      if negb (labels_list_eqb (bb_components (tb_values block)) (bb_components first)) then
        Err (InvalidParameter
          "can not move keys to samples if the blocks have different components labels, call components_to_properties first")
      else if negb (labels_eqb (bb_properties (tb_values block)) (bb_properties first)) then
        Err (InvalidParameter "can not move keys to samples if the blocks have different property labels")
      else check_same_labels_for_samples first rest
  end.

(* src/tensor/keys_to_samples.rs:180-194 and keys_to_properties.rs:264-278 --
   samples_to_move for the gradient of one block *)
Fixpoint gradient_samples_to_move (p : profile) (sample_i : nat) (new_gradient_samples : Labels)
    (samples_mapping : list sample_mapping) (rows : list (list Z)) : outcome (list sample_mapping) :=
  match rows with
  | [] => Ok []
  | grad_sample :: rest =>
      let? translated := translate_gradient_sample p samples_mapping grad_sample in
      let? position := labels_position new_gradient_samples translated in
      let? new_sample_i := expect_some "missing entry in merged samples" position in
      let? others := gradient_samples_to_move p (sample_i + 1) new_gradient_samples samples_mapping rest in
      Ok (mk_mapping sample_i new_sample_i :: others)
  end.

(* src/tensor/keys_to_samples.rs:175-200 and keys_to_properties.rs:254-284 --
   one iteration: move the data of the gradient of one block *)
Definition move_gradient (p : profile) (parameter : string) (new_components : list Labels)
    (new_gradient_samples : Labels) (block : TensorBlock) (samples_mapping : list sample_mapping)
    (start stop : nat) (new_gradient : eqs_array) : outcome eqs_array :=
  let? gradient := expect_some "missing gradient" (tensor_block_gradient block parameter) in
  let? _ := debug_assert p (labels_list_eqb (bb_components gradient) new_components)
              "assertion failed: *gradient.components == *new_components" in
  let? rows := labels_iter (bb_samples gradient) in
  let? samples_to_move := gradient_samples_to_move p 0 new_gradient_samples samples_mapping rows in
  array_move_samples_from new_gradient (bb_data gradient) samples_to_move start stop.

(* new_block.add_gradient(..).expect("created invalid gradients") *)
Definition add_merged_gradient (new_block : TensorBlock) (parameter : string) (data : eqs_array)
    (samples : Labels) (components : list Labels) : outcome TensorBlock :=
  let '(new_block, result) := tensor_block_add_gradient new_block parameter data samples components in
  let? _ := expect "created invalid gradients" result in
  Ok new_block.

(* src/tensor/keys_to_samples.rs:101-208 -- merge_blocks_along_samples *)
Definition merge_blocks_along_samples (p : profile) (blocks_to_merge : list KeyAndBlock)
    (extracted_names : list string) (sort_samples : bool) : outcome TensorBlock :=
  match blocks_to_merge with
  | [] => Panic "assertion failed: !blocks_to_merge.is_empty()"
  | (_, first_block) :: _ =>
      let first := tb_values first_block in
      let? _ := check_same_labels_for_samples first blocks_to_merge in
      let new_samples_names := labels_names (bb_samples first) ++ extracted_names in
      let? (merged_samples, samples_mappings) :=
        merge_samples blocks_to_merge new_samples_names sort_samples in
      let new_components := bb_components first in
      let new_properties := bb_properties first in
      let? shape := array_shape (bb_data first) in
      let? n_samples := labels_count merged_samples in
      let? new_shape := set_slice shape 0 n_samples in
      let? new_data := array_create (bb_data first) new_shape in
      let? n_properties := labels_count new_properties in
      let? new_data := foldM (fun new_data kbm =>
          let '((_, block), samples_mapping) := kbm in
          array_move_samples_from new_data (bb_data (tb_values block)) samples_mapping 0 n_properties)
        (combine blocks_to_merge samples_mappings) new_data in
      let? new_block := expect "invalid block"
        (tensor_block_new new_data merged_samples new_components new_properties) in
      foldM (fun new_block pg =>
          let '(parameter, first_gradient) := pg in
          let? new_gradient_samples :=
            merge_gradient_samples p blocks_to_merge parameter samples_mappings in
          let? shape := array_shape (bb_data first_gradient) in
          let? n_samples := labels_count new_gradient_samples in
          let? new_shape := set_slice shape 0 n_samples in
          let? new_gradient := array_create (bb_data first) new_shape in
          let new_components := bb_components first_gradient in
          let? new_gradient := foldM (fun new_gradient kbm =>
              let '((_, block), samples_mapping) := kbm in
              move_gradient p parameter new_components new_gradient_samples block samples_mapping
                0 n_properties new_gradient)
            (combine blocks_to_merge samples_mappings) new_gradient in
          add_merged_gradient new_block parameter new_gradient new_gradient_samples new_components)
        (tb_gradients first_block) new_block
  end.

(* src/tensor/keys_to_samples.rs:47-57 and keys_to_properties.rs:56-66 -- all
   the blocks, with the moved part of their key *)
Definition all_blocks_to_merge (t : TensorMap) (variables_positions : list nat)
  : outcome (list KeyAndBlock) :=
  let? keys := labels_iter (tm_keys t) in
  mapM (fun kb => let? moved_key := project (fst kb) variables_positions in Ok (moved_key, snd kb))
       (combine keys (tm_blocks t)).

(* src/tensor/keys_to_samples.rs:67-82 and keys_to_properties.rs:77-92 -- the
   blocks matching one of the new keys, with the moved part of their key *)
Definition blocks_to_merge_for (t : TensorMap) (variables_positions : list nat)
    (new_keys_names : list string) (entry : list Z) : outcome (list KeyAndBlock) :=
  let? selection := labels_build new_keys_names [entry] in
  let? matching := blocks_matching t selection in
  mapM (fun i =>
      let? block := index_slice (tm_blocks t) i in
      let? key := labels_index (tm_keys t) i in
      let? moved_key := project key variables_positions in
      Ok (moved_key, block))
    matching.

(* src/tensor/keys_to_samples.rs:44-90 and keys_to_properties.rs:53-102 -- the
   new blocks *)
Definition merged_blocks (t : TensorMap) (new_keys : Labels) (variables_positions : list nat)
    (merge : list KeyAndBlock -> outcome TensorBlock) : outcome (list TensorBlock) :=
  let? n_keys := labels_count new_keys in
  if n_keys =? 1 then
    let? blocks_to_merge := all_blocks_to_merge t variables_positions in
    let? block := merge blocks_to_merge in
    Ok [block]
  else
    let? entries := labels_iter new_keys in
    mapM (fun entry =>
        let? blocks_to_merge :=
          blocks_to_merge_for t variables_positions (labels_names new_keys) entry in
        merge blocks_to_merge)
      entries.

(* src/tensor/keys_to_samples.rs:34-90 -- everything before self is modified *)
Definition keys_to_samples_compute (p : profile) (t : TensorMap) (keys_to_move : Labels)
    (sort_samples : bool) : outcome (Labels * list TensorBlock) :=
  let? count := labels_count keys_to_move in
  if 0 <? count then
    Err (InvalidParameter
      "user provided values for the keys to move is not yet implemented, `keys_to_move` should not contain any entry when calling keys_to_samples")
  else
  let names_to_move := labels_names keys_to_move in
  let? (new_keys, variables_positions) := remove_variables_from_keys (tm_keys t) names_to_move in
  let? new_blocks := merged_blocks t new_keys variables_positions (fun blocks_to_merge =>
    merge_blocks_along_samples p blocks_to_merge names_to_move sort_samples) in
  Ok (new_keys, new_blocks).

(* src/tensor/keys_to_samples.rs:31-97 -- TensorMap::keys_to_samples; the
   assignments to self (93-94) only happen once everything else succeeded *)
Definition keys_to_samples (p : profile) (t : TensorMap) (keys_to_move : Labels) (sort_samples : bool)
  : TensorMap * outcome unit :=
  match keys_to_samples_compute p t keys_to_move sort_samples with
  | Ok (new_keys, new_blocks) => (mk_tensor new_keys new_blocks, Ok tt)
  | Err e => (t, Err e)
  | Panic m => (t, Panic m)
  | Undefined r => (t, Undefined r)
  end.

(** * src/tensor/keys_to_properties.rs *)

(* src/tensor/keys_to_properties.rs:125-142 *)
Fixpoint check_same_labels_for_properties (first : BasicBlock) (has_keys_to_move : bool)
    (blocks : list KeyAndBlock) : outcome unit :=
  match blocks with
  | [] => Ok tt
  | (_, block) :: rest =>
      if negb (labels_list_eqb (bb_components (tb_values block)) (bb_components first)) then
        Err (InvalidParameter
          "can not move keys to properties if the blocks have different components labels, call components_to_properties first")
      else if has_keys_to_move
              && negb (labels_eqb (bb_properties (tb_values block)) (bb_properties first)) then
        Err (InvalidParameter
          "can not provide values for the keys to move to properties if the blocks have different property labels")
      else check_same_labels_for_properties first has_keys_to_move rest
  end.

(* the properties of all blocks, in order *)
Definition blocks_properties (blocks : list KeyAndBlock) : outcome (list (list Z * list (list Z))) :=
  mapM (fun kb => let? rows := labels_iter (bb_properties (tb_values (snd kb))) in Ok (fst kb, rows)) blocks.

(* src/tensor/keys_to_properties.rs:151-174 -- the rows of the new properties *)
Definition merged_properties (first : BasicBlock) (keys_to_move : option Labels)
    (blocks : list KeyAndBlock) : outcome (list (list Z)) :=
  match keys_to_move with
  | Some keys_to_move =>
      let? entries := labels_iter keys_to_move in
      let? properties := blocks_properties blocks in
      let new_properties := is_insert_all row_eqb []
        (flat_map (fun new_property =>
           flat_map (fun kp => map (fun old_property => new_property ++ old_property) (snd kp)) properties)
         entries) in
      let? n_first := labels_count (bb_properties first) in
      let? n_moved := labels_count keys_to_move in
      let? _ := assert_ (length new_properties =? n_first * n_moved)
        "assertion failed: new_properties.len() == first_property_labels.count() * keys_to_move.count()" in
      Ok new_properties
  | None =>
      let? properties := blocks_properties blocks in
      Ok (is_insert_all row_eqb []
            (flat_map (fun kp => map (fun old_property => fst kp ++ old_property) (snd kp)) properties))
  end.

(* src/tensor/keys_to_properties.rs:198-218 -- property_ranges *)
Definition property_range (new_properties : Labels) (kb : KeyAndBlock) : outcome (option (nat * nat)) :=
  let '(new_property, block) := kb in
  let properties := bb_properties (tb_values block) in
  let? size := labels_count properties in
  let? first_property := labels_index properties 0 in
  let? start := labels_position new_properties (new_property ++ first_property) in
  Ok (match start with
      | Some start => Some (start, start + size)
      | None => None
      end).

(* src/tensor/keys_to_properties.rs:114-292 -- merge_blocks_along_properties *)
Definition merge_blocks_along_properties (p : profile) (blocks_to_merge : list KeyAndBlock)
    (keys_to_move : option Labels) (extracted_names : list string) (sort_samples : bool)
  : outcome TensorBlock :=
  match blocks_to_merge with
  | [] => Panic "assertion failed: !blocks_to_merge.is_empty()"
  | (_, first_block) :: _ =>
      let first := tb_values first_block in
      let? _ := check_same_labels_for_properties first
                  (match keys_to_move with Some _ => true | None => false end) blocks_to_merge in
      let? (merged_samples, samples_mappings) :=
        merge_samples blocks_to_merge (labels_names (bb_samples first)) sort_samples in
      let? new_properties := merged_properties first keys_to_move blocks_to_merge in
      let? new_properties :=
        labels_build (extracted_names ++ labels_names (bb_properties first)) new_properties in
      let new_components := bb_components first in
      let? new_properties_count := labels_count new_properties in
      let? shape := array_shape (bb_data first) in
      let? n_samples := labels_count merged_samples in
      let? new_shape := set_slice shape 0 n_samples in
      let? new_shape := set_slice new_shape (length new_shape - 1) new_properties_count in
      let? new_data := array_create (bb_data first) new_shape in
      let? property_ranges := mapM (property_range new_properties) blocks_to_merge in
      let? new_data := foldM (fun new_data kbmr =>
          let '(((_, block), samples_mapping), range) := kbmr in
          match range with
          | Some (start, stop) =>
              array_move_samples_from new_data (bb_data (tb_values block)) samples_mapping start stop
          | None => Ok new_data
          end)
        (combine (combine blocks_to_merge samples_mappings) property_ranges) new_data in
      let? new_block := expect "constructed an invalid block"
        (tensor_block_new new_data merged_samples new_components new_properties) in
      foldM (fun new_block pg =>
          let '(parameter, first_gradient) := pg in
          let? new_gradient_samples :=
            merge_gradient_samples p blocks_to_merge parameter samples_mappings in
          let? shape := array_shape (bb_data first_gradient) in
          let? n_samples := labels_count new_gradient_samples in
          let? new_shape := set_slice shape 0 n_samples in
          let? new_shape := set_slice new_shape (length new_shape - 1) new_properties_count in
          let? new_gradient := array_create (bb_data first) new_shape in
          let new_components := bb_components first_gradient in
          let? new_gradient := foldM (fun new_gradient kbmr =>
              let '(((_, block), samples_mapping), range) := kbmr in
              match range with
              | Some (start, stop) =>
                  move_gradient p parameter new_components new_gradient_samples block samples_mapping
                    start stop new_gradient
              | None => Ok new_gradient
              end)
            (combine (combine blocks_to_merge samples_mappings) property_ranges) new_gradient in
          add_merged_gradient new_block parameter new_gradient new_gradient_samples new_components)
        (tb_gradients first_block) new_block
  end.

(* src/tensor/keys_to_properties.rs:44-102 -- everything before self is modified *)
Definition keys_to_properties_compute (p : profile) (t : TensorMap) (keys_to_move : Labels)
    (sort_samples : bool) : outcome (Labels * list TensorBlock) :=
  let names_to_move := labels_names keys_to_move in
  let? (new_keys, variables_positions) := remove_variables_from_keys (tm_keys t) names_to_move in
  let? count := labels_count keys_to_move in
  let keys_to_move := if count =? 0 then None else Some keys_to_move in
  let? new_blocks := merged_blocks t new_keys variables_positions (fun blocks_to_merge =>
    merge_blocks_along_properties p blocks_to_merge keys_to_move names_to_move sort_samples) in
  Ok (new_keys, new_blocks).

(* src/tensor/keys_to_properties.rs:41-109 -- TensorMap::keys_to_properties *)
Definition keys_to_properties (p : profile) (t : TensorMap) (keys_to_move : Labels) (sort_samples : bool)
  : TensorMap * outcome unit :=
  match keys_to_properties_compute p t keys_to_move sort_samples with
  | Ok (new_keys, new_blocks) => (mk_tensor new_keys new_blocks, Ok tt)
  | Err e => (t, Err e)
  | Panic m => (t, Panic m)
  | Undefined r => (t, Undefined r)
  end.
