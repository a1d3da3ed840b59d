(* Model of src/blocks.rs and src/tensor/*.rs as programs which call the functions of
   eqs_array_t: each call can work or fail, independently of the others, and the
   arrays owned by a function are destroyed when it fails.

   Arrays are only known by their pointer. The functions on labels are the ones of
   Block.v and Tensor.v. *)
From Verif Require Import Base Labels Array Block Tensor.
Local Open Scope string_scope.
Local Open Scope list_scope.
Local Open Scope nat_scope.

(* src/data.rs:72-165 -- the functions of eqs_array_t, with the pointers of arrays *)
Inductive call :=
| QOrigin (a : nat)
| QShape (a : nat)
| QReshape (a : nat) (shape : list nat)
| QSwapAxes (a : nat) (axis_1 axis_2 : nat)
| QCreate (a : nat) (shape : list nat)
| QCopy (a : nat)
| QMove (output input : nat) (samples : list sample_mapping) (start stop : nat)
| QDestroy (a : nat).

(* What a function answers. [an_null]: the function is NULL and was not called; the
   others are only used by the calls which return them. *)
Record answer := mk_answer {
  an_null : bool;
  an_status : Z;
  an_origin : nat;
  an_shape : list nat;
  an_new : nat }.

Inductive prog (A : Type) : Type :=
| Ret (a : A)
| Ask (c : call) (k : answer -> prog A).
Arguments Ret {A} a.
Arguments Ask {A} c k.

Fixpoint bindp {A B} (m : prog A) (k : A -> prog B) : prog B :=
  match m with
  | Ret a => k a
  | Ask c m => Ask c (fun an => bindp (m an) k)
  end.

(* a block only has the pointers of its arrays *)
Definition pointer (n : nat) : eqs_array := mk_array (ForeignArray n) (mk_nd [] []) [] (fun _ => Works).
Definition pointer_of (a : eqs_array) : nat := match a_kind a with ForeignArray n => n | _ => 0 end.

Definition data_of (b : BasicBlock) : nat := pointer_of (bb_data b).
Definition block_arrays (b : TensorBlock) : list nat :=
  data_of (tb_values b) :: map (fun pg => data_of (snd pg)) (tb_gradients b).
Definition blocks_arrays (blocks : list TensorBlock) : list nat := flat_map block_arrays blocks.
Definition tensor_arrays (t : TensorMap) : list nat := blocks_arrays (tm_blocks t).

(* src/data.rs:194-200 -- impl Drop for eqs_array_t, for arrays in this order *)
Fixpoint drop_arrays (l : list nat) : prog unit :=
  match l with
  | [] => Ret tt
  | a :: l => Ask (QDestroy a) (fun _ => drop_arrays l)
  end.

Definition then_fail {A} (owned : list nat) (failure : outcome A) : prog (outcome A) :=
  bindp (drop_arrays owned) (fun _ => Ret failure).

(* [m] and then [k]; if [m] fails (with `?` or a panic), what is owned by the function
   is dropped *)
Definition or_drop {A B} (owned : list nat) (m : prog (outcome A)) (k : A -> prog (outcome B)) : prog (outcome B) :=
  bindp m (fun r => match r with
    | Ok a => k a
    | Err e => then_fail owned (Err e)
    | Panic message => then_fail owned (Panic message)
    | Undefined reason => then_fail owned (Undefined reason)
    end).

Notation "'let!' x := m 'dropping' owned 'in' k" := (or_drop owned m (fun x => k))
  (at level 200, x pattern, m at level 100, owned at level 100, k at level 200, right associativity).

(* Result::expect *)
Definition expectp {A} (message : string) (m : prog (outcome A)) : prog (outcome A) :=
  bindp m (fun r => Ret (expect message r)).

(** * src/data.rs *)

(* the common part of src/data.rs:272-452 *)
Definition ask {A} (c : call) (op : array_op) (value : answer -> A) : prog (outcome A) :=
  Ask c (fun an => Ret (
    if an_null an then Panic ("eqs_array_t." +++ op_name op +++ " function is NULL")
    else if (an_status an =? 0)%Z then Ok (value an)
    else callback_error op (an_status an))).

Definition p_origin (a : nat) : prog (outcome nat) := ask (QOrigin a) OpOrigin an_origin.
Definition p_shape (a : nat) : prog (outcome (list nat)) := ask (QShape a) OpShape an_shape.
Definition p_reshape (a : nat) (shape : list nat) : prog (outcome unit) := ask (QReshape a shape) OpReshape (fun _ => tt).
Definition p_swap_axes (a axis_1 axis_2 : nat) : prog (outcome unit) := ask (QSwapAxes a axis_1 axis_2) OpSwapAxes (fun _ => tt).
Definition p_create (a : nat) (shape : list nat) : prog (outcome nat) := ask (QCreate a shape) OpCreate an_new.
Definition p_move (output input : nat) (samples : list sample_mapping) (start stop : nat) : prog (outcome unit) :=
  ask (QMove output input samples start stop) OpMoveSamples (fun _ => tt).

(* src/data.rs:202-213 -- impl Clone for eqs_array_t *)
Definition p_copy (a : nat) : prog (outcome nat) :=
  Ask (QCopy a) (fun an => Ret (
    if an_null an then Panic "function eqs_array_t.copy is not set"
    else if (an_status an =? 0)%Z then Ok (an_new an)
    else Panic "calling eqs_array_t.copy failed")).

(** * src/blocks.rs *)

(* src/blocks.rs:44-96 -- check_data_and_labels *)
Definition shaped (shape : list nat) : eqs_array := mk_array (ForeignArray 0) (mk_nd shape []) [] (fun _ => Works).
Definition p_check (context : string) (a : nat) (samples : Labels) (components : list Labels) (properties : Labels)
  : prog (outcome unit) :=
  let! shape := p_shape a dropping [] in
  Ret (check_data_and_labels context (shaped shape) samples components properties).

(* src/blocks.rs:112-125 and 189-200 -- BasicBlock::new and TensorBlock::new, which own
   the array *)
Definition p_block_new (a : nat) (samples : Labels) (components : list Labels) (properties : Labels)
  : prog (outcome TensorBlock) :=
  let! _ := p_check "data and labels don't match" a samples components properties dropping [a] in
  let! _ := Ret (check_component_labels components) dropping [a] in
  Ret (Ok (mk_block (mk_basic (pointer a) samples components properties) [] [])).

(* src/blocks.rs:250-255 -- the message when origins are different asks for them
   again *)
Definition p_same_origin (b : TensorBlock) (a : nat) : prog (outcome unit) :=
  let! origin := p_origin a dropping [] in
  let! values_origin := p_origin (data_of (tb_values b)) dropping [] in
  if negb (origin =? values_origin) then
    let! _ := p_origin a dropping [] in
    let! _ := p_origin (data_of (tb_values b)) dropping [] in
    Ret (Err (InvalidParameter "the gradient array has a different origin than the value array"))
  else Ret (Ok tt).

(* src/blocks.rs:243-295 -- the checks of TensorBlock::add_gradient *)
Definition p_check_gradient (b : TensorBlock) (parameter : string) (a : nat) (samples : Labels) (components : list Labels)
  : prog (outcome unit) :=
  if hm_contains String.eqb (tb_gradients b) parameter then
    Ret (Err (InvalidParameter ("gradient with respect to '" +++ parameter +++ "' already exists for this block")))
  else
  let! _ := p_same_origin b a dropping [] in
  if String.eqb parameter "values" then
    Ret (Err (InvalidParameter "can not store gradient with respect to 'values'"))
  else if (labels_size samples <? 1)
       || negb (match labels_names samples with name :: _ => String.eqb name "sample" | [] => false end) then
    Ret (Err (InvalidParameter "first variable in the gradients samples labels must be 'samples'"))
  else
  let! _ := Ret (check_component_labels components) dropping [] in
  let values_components := bb_components (tb_values b) in
  if length components <? length values_components then
    Ret (Err (InvalidParameter "gradients components should contain at least as many labels as the values components"))
  else
  let extra := length components - length values_components in
  let! _ := Ret (check_gradient_components 0 (skipn extra components) values_components) dropping [] in
  p_check "gradient data and labels don't match" a samples components (bb_properties (tb_values b)).

(* src/blocks.rs:236-309 -- TensorBlock::add_gradient, which owns the array; the array
   is in the block when the last check panics *)
Definition p_add_gradient (b : TensorBlock) (parameter : string) (a : nat) (samples : Labels) (components : list Labels)
  : prog (TensorBlock * outcome unit) :=
  bindp (p_check_gradient b parameter a samples components) (fun r =>
    match r with
    | Ok _ =>
        let gradient := mk_basic (pointer a) samples components (bb_properties (tb_values b)) in
        let gradients := hm_insert_new (tb_gradients b) parameter gradient in
        match cstring_new parameter with
        | None => Ret (mk_block (tb_values b) gradients (tb_gradient_parameters b), Panic "invalid C string")
        | Some parameter =>
            Ret (mk_block (tb_values b) gradients (tb_gradient_parameters b ++ [parameter]), Ok tt)
        end
    | failure => bindp (drop_arrays [a]) (fun _ => Ret (b, failure))
    end).

(* src/blocks.rs:127-172 -- BasicBlock::components_to_properties *)
Definition p_basic_components_to_properties (b : BasicBlock) (variables : list string) : prog (BasicBlock * outcome unit) :=
  match find_component variables (bb_components b) with
  | None => Ret (b, Err (InvalidParameter ("unable to find [" +++ join ", " variables +++ "] in the components ")))
  | Some component_axis =>
      match nth_error (bb_components b) component_axis with
      | None => Ret (b, Panic "removal index should be < len")
      | Some moved_component =>
          let removed := mk_basic (bb_data b) (bb_samples b) (remove_nth component_axis (bb_components b)) (bb_properties b) in
          let a := data_of b in
          bindp
            (let! builder := Ret (builder_new (labels_names moved_component ++ labels_names (bb_properties b))) dropping [] in
             let! moved := Ret (labels_iter moved_component) dropping [] in
             let! old := Ret (labels_iter (bb_properties b)) dropping [] in
             let! builder := Ret (builder_add_all builder (product_rows moved old)) dropping [] in
             let! new_properties := Ret (builder_finish builder) dropping [] in
             let! shape := p_shape a dropping [] in
             let! properties_axis :=
               Ret (if length shape =? 0 then Panic "attempt to subtract with overflow" else Ok (length shape - 1)) dropping [] in
             let! count := Ret (labels_count new_properties) dropping [] in
             let! shape := Ret (set_slice shape properties_axis count) dropping [] in
             let! new_shape :=
               Ret (if component_axis + 1 <? length shape then Ok (remove_nth (component_axis + 1) shape)
                    else Panic "removal index should be < len") dropping [] in
             let! _ := p_swap_axes a (component_axis + 1) (properties_axis - 1) dropping [] in
             let! _ := p_reshape a new_shape dropping [] in
             Ret (Ok new_properties))
            (fun r => match r with
              | Ok new_properties =>
                  Ret (mk_basic (bb_data b) (bb_samples b) (bb_components removed) new_properties, Ok tt)
              | Err e => Ret (removed, Err e)
              | Panic message => Ret (removed, Panic message)
              | Undefined reason => Ret (removed, Undefined reason)
              end)
      end
  end.

(* src/blocks.rs:317-319 *)
Fixpoint p_gradients_components_to_properties (variables : list string) (gradients : list (string * BasicBlock))
  : prog (list (string * BasicBlock) * outcome unit) :=
  match gradients with
  | [] => Ret ([], Ok tt)
  | (parameter, gradient) :: rest =>
      bindp (p_basic_components_to_properties gradient variables) (fun '(gradient', r) =>
        match r with
        | Ok _ =>
            bindp (p_gradients_components_to_properties variables rest) (fun '(rest', r') =>
              Ret ((parameter, gradient') :: rest', r'))
        | failure => Ret ((parameter, gradient') :: rest, failure)
        end)
  end.

(* src/blocks.rs:311-322 -- TensorBlock::components_to_properties *)
Definition p_block_components_to_properties (b : TensorBlock) (variables : list string) : prog (TensorBlock * outcome unit) :=
  match variables with
  | [] => Ret (b, Ok tt)
  | _ =>
      bindp (p_basic_components_to_properties (tb_values b) variables) (fun '(values, r) =>
        match r with
        | Ok _ =>
            bindp (p_gradients_components_to_properties variables (tb_gradients b)) (fun '(gradients, r') =>
              Ret (mk_block values gradients (tb_gradient_parameters b), r'))
        | failure => Ret (mk_block values (tb_gradients b) (tb_gradient_parameters b), failure)
        end)
  end.

(* src/blocks.rs:36 and 178 -- #[derive(Clone)] for BasicBlock and TensorBlock *)
Definition p_basic_clone (b : BasicBlock) : prog (outcome BasicBlock) :=
  let! a := p_copy (data_of b) dropping [] in
  Ret (Ok (mk_basic (pointer a) (bb_samples b) (bb_components b) (bb_properties b))).

Fixpoint p_gradients_clone (done gradients : list (string * BasicBlock)) : prog (outcome (list (string * BasicBlock))) :=
  match gradients with
  | [] => Ret (Ok done)
  | (parameter, gradient) :: rest =>
      let! gradient := p_basic_clone gradient dropping map (fun pg => data_of (snd pg)) done in
      p_gradients_clone (done ++ [(parameter, gradient)]) rest
  end.

Definition p_block_clone (b : TensorBlock) : prog (outcome TensorBlock) :=
  let! values := p_basic_clone (tb_values b) dropping [] in
  let! gradients := p_gradients_clone [] (tb_gradients b) dropping [data_of values] in
  Ret (Ok (mk_block values gradients (tb_gradient_parameters b))).

(** * src/tensor *)

(* src/tensor/mod.rs:80-150 -- TensorMap::new, which owns the blocks *)
Definition p_tensor_new (keys : Labels) (blocks : list TensorBlock) : prog (outcome TensorMap) :=
  let! t := Ret (tensor_map_new keys blocks) dropping blocks_arrays blocks in
  Ret (Ok t).

(* src/tensor/mod.rs:263-265 -- the loop of components_to_properties *)
Fixpoint p_blocks_components_to_properties (variables : list string) (blocks : list TensorBlock)
  : prog (list TensorBlock * outcome unit) :=
  match blocks with
  | [] => Ret ([], Ok tt)
  | block :: rest =>
      bindp (p_block_components_to_properties block variables) (fun '(block', r) =>
        match r with
        | Ok _ =>
            bindp (p_blocks_components_to_properties variables rest) (fun '(rest', r') => Ret (block' :: rest', r'))
        | failure => Ret (block' :: rest, failure)
        end)
  end.

(* src/tensor/mod.rs:258-268 -- TensorMap::components_to_properties *)
Definition p_components_to_properties (t : TensorMap) (variables : list string) : prog (TensorMap * outcome unit) :=
  match variables with
  | [] => Ret (t, Ok tt)
  | _ =>
      bindp (p_blocks_components_to_properties variables (tm_blocks t)) (fun '(blocks, r) =>
        Ret (mk_tensor (tm_keys t) blocks, r))
  end.

(* a loop which stops at the first failure *)
Fixpoint each {A} (f : A -> prog (outcome unit)) (l : list A) : prog (outcome unit) :=
  match l with
  | [] => Ret (Ok tt)
  | x :: l => let! _ := f x dropping [] in each f l
  end.

(* a loop over gradients which adds to a block; [f] owns the block *)
Fixpoint each_gradient {A} (f : TensorBlock -> A -> prog (outcome TensorBlock)) (l : list A) (b : TensorBlock)
  : prog (outcome TensorBlock) :=
  match l with
  | [] => Ret (Ok b)
  | x :: l => let! b := f b x dropping [] in each_gradient f l b
  end.

(* new_block.add_gradient(..).expect("created invalid gradients") *)
Definition p_add_merged_gradient (new_block : TensorBlock) (parameter : string) (a : nat) (samples : Labels)
    (components : list Labels) : prog (outcome TensorBlock) :=
  bindp (p_add_gradient new_block parameter a samples components) (fun '(new_block, r) =>
    let! _ := Ret (expect "created invalid gradients" r) dropping block_arrays new_block in
    Ret (Ok new_block)).

(* src/tensor/keys_to_samples.rs:175-200 and keys_to_properties.rs:254-284 *)
Definition p_move_gradient (p : profile) (parameter : string) (new_components : list Labels)
    (new_gradient_samples : Labels) (block : TensorBlock) (samples_mapping : list sample_mapping)
    (start stop : nat) (new_gradient : nat) : prog (outcome unit) :=
  let! gradient := Ret (expect_some "missing gradient" (tensor_block_gradient block parameter)) dropping [] in
  let! _ := Ret (debug_assert p (labels_list_eqb (bb_components gradient) new_components)
                   "assertion failed: *gradient.components == *new_components") dropping [] in
  let! rows := Ret (labels_iter (bb_samples gradient)) dropping [] in
  let! samples_to_move := Ret (gradient_samples_to_move p 0 new_gradient_samples samples_mapping rows) dropping [] in
  p_move new_gradient (data_of gradient) samples_to_move start stop.

(* src/tensor/keys_to_samples.rs:101-208 -- merge_blocks_along_samples *)
Definition p_merge_blocks_along_samples (p : profile) (blocks_to_merge : list KeyAndBlock)
    (extracted_names : list string) (sort_samples : bool) : prog (outcome TensorBlock) :=
  match blocks_to_merge with
  | [] => Ret (Panic "assertion failed: !blocks_to_merge.is_empty()")
  | (_, first_block) :: _ =>
      let first := tb_values first_block in
      let! _ := Ret (check_same_labels_for_samples first blocks_to_merge) dropping [] in
      let new_samples_names := labels_names (bb_samples first) ++ extracted_names in
      let! (merged_samples, samples_mappings) :=
        Ret (merge_samples blocks_to_merge new_samples_names sort_samples) dropping [] in
      let new_components := bb_components first in
      let new_properties := bb_properties first in
      let! shape := p_shape (data_of first) dropping [] in
      let! n_samples := Ret (labels_count merged_samples) dropping [] in
      let! new_shape := Ret (set_slice shape 0 n_samples) dropping [] in
      let! new_data := p_create (data_of first) new_shape dropping [] in
      let! n_properties := Ret (labels_count new_properties) dropping [new_data] in
      let! _ := each (fun kbm =>
          let '((_, block), samples_mapping) := kbm in
          p_move new_data (data_of (tb_values block)) samples_mapping 0 n_properties)
        (combine blocks_to_merge samples_mappings) dropping [new_data] in
      let! new_block := expectp "invalid block"
        (p_block_new new_data merged_samples new_components new_properties) dropping [] in
      each_gradient (fun new_block pg =>
          let '(parameter, first_gradient) := pg in
          let! new_gradient_samples :=
            Ret (merge_gradient_samples p blocks_to_merge parameter samples_mappings) dropping block_arrays new_block in
          let! shape := p_shape (data_of first_gradient) dropping block_arrays new_block in
          let! n_samples := Ret (labels_count new_gradient_samples) dropping block_arrays new_block in
          let! new_shape := Ret (set_slice shape 0 n_samples) dropping block_arrays new_block in
          let! new_gradient := p_create (data_of first) new_shape dropping block_arrays new_block in
          let new_components := bb_components first_gradient in
          let! _ := each (fun kbm =>
              let '((_, block), samples_mapping) := kbm in
              p_move_gradient p parameter new_components new_gradient_samples block samples_mapping
                0 n_properties new_gradient)
            (combine blocks_to_merge samples_mappings) dropping new_gradient :: block_arrays new_block in
          p_add_merged_gradient new_block parameter new_gradient new_gradient_samples new_components)
        (tb_gradients first_block) new_block
  end.

(* src/tensor/keys_to_properties.rs:114-292 -- merge_blocks_along_properties *)
Definition p_merge_blocks_along_properties (p : profile) (blocks_to_merge : list KeyAndBlock)
    (keys_to_move : option Labels) (extracted_names : list string) (sort_samples : bool) : prog (outcome TensorBlock) :=
  match blocks_to_merge with
  | [] => Ret (Panic "assertion failed: !blocks_to_merge.is_empty()")
  | (_, first_block) :: _ =>
      let first := tb_values first_block in
      let! _ := Ret (check_same_labels_for_properties first
                  (match keys_to_move with Some _ => true | None => false end) blocks_to_merge) dropping [] in
      let! (merged_samples, samples_mappings) :=
        Ret (merge_samples blocks_to_merge (labels_names (bb_samples first)) sort_samples) dropping [] in
      let! new_properties := Ret (merged_properties first keys_to_move blocks_to_merge) dropping [] in
      let! new_properties :=
        Ret (labels_build (extracted_names ++ labels_names (bb_properties first)) new_properties) dropping [] in
      let new_components := bb_components first in
      let! new_properties_count := Ret (labels_count new_properties) dropping [] in
      let! shape := p_shape (data_of first) dropping [] in
      let! n_samples := Ret (labels_count merged_samples) dropping [] in
      let! new_shape := Ret (set_slice shape 0 n_samples) dropping [] in
      let! new_shape := Ret (set_slice new_shape (length new_shape - 1) new_properties_count) dropping [] in
      let! new_data := p_create (data_of first) new_shape dropping [] in
      let! property_ranges := Ret (mapM (property_range new_properties) blocks_to_merge) dropping [new_data] in
      let! _ := each (fun kbmr =>
          let '(((_, block), samples_mapping), range) := kbmr in
          match range with
          | Some (start, stop) => p_move new_data (data_of (tb_values block)) samples_mapping start stop
          | None => Ret (Ok tt)
          end)
        (combine (combine blocks_to_merge samples_mappings) property_ranges) dropping [new_data] in
      let! new_block := expectp "constructed an invalid block"
        (p_block_new new_data merged_samples new_components new_properties) dropping [] in
      each_gradient (fun new_block pg =>
          let '(parameter, first_gradient) := pg in
          let! new_gradient_samples :=
            Ret (merge_gradient_samples p blocks_to_merge parameter samples_mappings) dropping block_arrays new_block in
          let! shape := p_shape (data_of first_gradient) dropping block_arrays new_block in
          let! n_samples := Ret (labels_count new_gradient_samples) dropping block_arrays new_block in
          let! new_shape := Ret (set_slice shape 0 n_samples) dropping block_arrays new_block in
          let! new_shape := Ret (set_slice new_shape (length new_shape - 1) new_properties_count)
            dropping block_arrays new_block in
          let! new_gradient := p_create (data_of first) new_shape dropping block_arrays new_block in
          let new_components := bb_components first_gradient in
          let! _ := each (fun kbmr =>
              let '(((_, block), samples_mapping), range) := kbmr in
              match range with
              | Some (start, stop) =>
                  p_move_gradient p parameter new_components new_gradient_samples block samples_mapping
                    start stop new_gradient
              | None => Ret (Ok tt)
              end)
            (combine (combine blocks_to_merge samples_mappings) property_ranges)
            dropping new_gradient :: block_arrays new_block in
          p_add_merged_gradient new_block parameter new_gradient new_gradient_samples new_components)
        (tb_gradients first_block) new_block
  end.

(* the blocks of the new tensor map, [done] is the Vec of the ones already made *)
Fixpoint each_block {A} (f : A -> prog (outcome TensorBlock)) (done : list TensorBlock) (l : list A)
  : prog (outcome (list TensorBlock)) :=
  match l with
  | [] => Ret (Ok done)
  | x :: l => let! b := f x dropping blocks_arrays done in each_block f (done ++ [b]) l
  end.

(* src/tensor/keys_to_samples.rs:44-90 and keys_to_properties.rs:53-102 *)
Definition p_merged_blocks (t : TensorMap) (new_keys : Labels) (variables_positions : list nat)
    (merge : list KeyAndBlock -> prog (outcome TensorBlock)) : prog (outcome (list TensorBlock)) :=
  let! n_keys := Ret (labels_count new_keys) dropping [] in
  if n_keys =? 1 then
    let! blocks_to_merge := Ret (all_blocks_to_merge t variables_positions) dropping [] in
    let! block := merge blocks_to_merge dropping [] in
    Ret (Ok [block])
  else
    let! entries := Ret (labels_iter new_keys) dropping [] in
    each_block (fun entry =>
        let! blocks_to_merge :=
          Ret (blocks_to_merge_for t variables_positions (labels_names new_keys) entry) dropping [] in
        merge blocks_to_merge)
      [] entries.

(* src/tensor/keys_to_samples.rs:34-90 *)
Definition p_keys_to_samples_compute (p : profile) (t : TensorMap) (keys_to_move : Labels) (sort_samples : bool)
  : prog (outcome (Labels * list TensorBlock)) :=
  let! count := Ret (labels_count keys_to_move) dropping [] in
  if 0 <? count then
    Ret (Err (InvalidParameter
      "user provided values for the keys to move is not yet implemented, `keys_to_move` should not contain any entry when calling keys_to_samples"))
  else
  let names_to_move := labels_names keys_to_move in
  let! (new_keys, variables_positions) := Ret (remove_variables_from_keys (tm_keys t) names_to_move) dropping [] in
  let! new_blocks := p_merged_blocks t new_keys variables_positions (fun blocks_to_merge =>
    p_merge_blocks_along_samples p blocks_to_merge names_to_move sort_samples) dropping [] in
  Ret (Ok (new_keys, new_blocks)).

(* src/tensor/keys_to_properties.rs:44-102 *)
Definition p_keys_to_properties_compute (p : profile) (t : TensorMap) (keys_to_move : Labels) (sort_samples : bool)
  : prog (outcome (Labels * list TensorBlock)) :=
  let names_to_move := labels_names keys_to_move in
  let! (new_keys, variables_positions) := Ret (remove_variables_from_keys (tm_keys t) names_to_move) dropping [] in
  let! count := Ret (labels_count keys_to_move) dropping [] in
  let keys_to_move := if count =? 0 then None else Some keys_to_move in
  let! new_blocks := p_merged_blocks t new_keys variables_positions (fun blocks_to_merge =>
    p_merge_blocks_along_properties p blocks_to_merge keys_to_move names_to_move sort_samples) dropping [] in
  Ret (Ok (new_keys, new_blocks)).

(* src/tensor/keys_to_samples.rs:93-96 and keys_to_properties.rs:105-108 -- the previous
   blocks are dropped when self.blocks is assigned *)
Definition p_replace (t : TensorMap) (m : prog (outcome (Labels * list TensorBlock))) : prog (TensorMap * outcome unit) :=
  bindp m (fun r => match r with
    | Ok (new_keys, new_blocks) => bindp (drop_arrays (tensor_arrays t)) (fun _ => Ret (mk_tensor new_keys new_blocks, Ok tt))
    | Err e => Ret (t, Err e)
    | Panic message => Ret (t, Panic message)
    | Undefined reason => Ret (t, Undefined reason)
    end).

Definition p_keys_to_samples (p : profile) (t : TensorMap) (keys_to_move : Labels) (sort_samples : bool)
  : prog (TensorMap * outcome unit) :=
  p_replace t (p_keys_to_samples_compute p t keys_to_move sort_samples).

Definition p_keys_to_properties (p : profile) (t : TensorMap) (keys_to_move : Labels) (sort_samples : bool)
  : prog (TensorMap * outcome unit) :=
  p_replace t (p_keys_to_properties_compute p t keys_to_move sort_samples).
