(* Model of src/blocks.rs *)
From Verif Require Import Base Labels Array.
Local Open Scope string_scope.
Local Open Scope list_scope.
Local Open Scope nat_scope.

(* src/blocks.rs:36-42 -- struct BasicBlock (Arc<Labels> is shared immutable
   data, represented by its value) *)
Record BasicBlock := mk_basic {
  bb_data : eqs_array;
  bb_samples : Labels;
  bb_components : list Labels;
  bb_properties : Labels;
}.

(* src/blocks.rs:76-86 -- loop over the components *)
Fixpoint check_component_shapes (context : string) (shape : list nat) (dimension : nat)
    (components : list Labels) : outcome nat :=
  match components with
  | [] => Ok dimension
  | component :: rest =>
      let? length_ := index_slice shape dimension in
      let? count := labels_count component in
      if negb (length_ =? count) then
        Err (InvalidParameter (context +++ ": the array shape along axis " +++ string_of_nat dimension
          +++ " is " +++ string_of_nat length_ +++ " but we have " +++ string_of_nat count
          +++ " entries for the corresponding component"))
      else check_component_shapes context shape (dimension + 1) rest
  end.

(* src/blocks.rs:44-96 -- check_data_and_labels *)
Definition check_data_and_labels (context : string) (data : eqs_array)
    (samples : Labels) (components : list Labels) (properties : Labels) : outcome unit :=
  let? shape := array_shape data in
  if negb (length shape =? length components + 2) then
    Err (InvalidParameter (context +++ ": the array has " +++ string_of_nat (length shape)
      +++ " dimensions, but we have " +++ string_of_nat (length components + 2) +++ " separate labels"))
  else
  let? shape_0 := index_slice shape 0 in
  let? n_samples := labels_count samples in
  if negb (shape_0 =? n_samples) then
    Err (InvalidParameter (context +++ ": the array shape along axis 0 is " +++ string_of_nat shape_0
      +++ " but we have " +++ string_of_nat n_samples +++ " sample labels"))
  else
  let n_components := count_distinct names_eqb (map labels_names components) in
  if negb (n_components =? length components) then
    Err (InvalidParameter (context
      +++ ": some of the component names appear more than once in component labels"))
  else
  let? dimension := check_component_shapes context shape 1 components in
  let? shape_p := index_slice shape dimension in
  let? n_properties := labels_count properties in
  if negb (shape_p =? n_properties) then
    Err (InvalidParameter (context +++ ": the array shape along axis " +++ string_of_nat dimension
      +++ " is " +++ string_of_nat shape_p +++ " but we have " +++ string_of_nat n_properties
      +++ " properties labels"))
  else Ok tt.

(* src/blocks.rs:98-108 -- check_component_labels *)
Fixpoint check_component_labels_from (i : nat) (components : list Labels) : outcome unit :=
  match components with
  | [] => Ok tt
  | component :: rest =>
      if negb (labels_size component =? 1) then
        Err (InvalidParameter ("component labels must have a single variable, got "
          +++ string_of_nat (labels_size component) +++ ": ["
          +++ join ", " (labels_names component) +++ "] for component " +++ string_of_nat i))
      else check_component_labels_from (i + 1) rest
  end.

Definition check_component_labels (components : list Labels) : outcome unit :=
  check_component_labels_from 0 components.

(* src/blocks.rs:112-125 -- BasicBlock::new *)
Definition basic_block_new (data : eqs_array) (samples : Labels) (components : list Labels)
    (properties : Labels) : outcome BasicBlock :=
  let? _ := check_data_and_labels "data and labels don't match" data samples components properties in
  let? _ := check_component_labels components in
  Ok (mk_basic data samples components properties).

(* src/blocks.rs:130-136 -- position of the component with the given names *)
Fixpoint find_component (variables : list string) (components : list Labels) : option nat :=
  match components with
  | [] => None
  | component :: rest =>
      if names_eqb (labels_names component) variables then Some 0
      else option_map S (find_component variables rest)
  end.

(* src/blocks.rs:151-159 -- the new properties: every moved entry followed by
   every old property, moved entry major *)
Definition product_rows (first second : list (list Z)) : list (list Z) :=
  flat_map (fun r1 => map (fun r2 => r1 ++ r2) second) first.

(* src/blocks.rs:127-172 -- BasicBlock::components_to_properties. The component
   is removed from self before anything else can fail, so all the later failures
   return the modified block. *)
Definition basic_block_components_to_properties (b : BasicBlock) (variables : list string)
  : BasicBlock * outcome unit :=
  match find_component variables (bb_components b) with
  | None =>
      (b, Err (InvalidParameter ("unable to find [" +++ join ", " variables +++ "] in the components ")))
  | Some component_axis =>
      match nth_error (bb_components b) component_axis with
      | None => (b, Panic "removal index should be < len")
      | Some moved_component =>
          let components := remove_nth component_axis (bb_components b) in
          let with_data data := mk_basic data (bb_samples b) components (bb_properties b) in
          let prepared :=
            let? builder := builder_new (labels_names moved_component ++ labels_names (bb_properties b)) in
            let? moved := labels_iter moved_component in
            let? old := labels_iter (bb_properties b) in
            let? builder := builder_add_all builder (product_rows moved old) in
            let? new_properties := builder_finish builder in
            let? shape := array_shape (bb_data b) in
            let? properties_axis :=
              (if length shape =? 0 then Panic "attempt to subtract with overflow" else Ok (length shape - 1)) in
            let? count := labels_count new_properties in
            let? shape := set_slice shape properties_axis count in
            if component_axis + 1 <? length shape
            then Ok (new_properties, properties_axis, remove_nth (component_axis + 1) shape)
            else Panic "removal index should be < len" in
          match prepared with
          | Ok (new_properties, properties_axis, new_shape) =>
              match array_swap_axes (bb_data b) (component_axis + 1) (properties_axis - 1) with
              | (data1, Ok _) =>
                  match array_reshape data1 new_shape with
                  | (data2, Ok _) => (mk_basic data2 (bb_samples b) components new_properties, Ok tt)
                  | (data2, failure) => (with_data data2, failure)
                  end
              | (data1, failure) => (with_data data1, failure)
              end
          | Err e => (with_data (bb_data b), Err e)
          | Panic m => (with_data (bb_data b), Panic m)
          | Undefined r => (with_data (bb_data b), Undefined r)
          end
      end
  end.

(* src/blocks.rs:178-183 -- struct TensorBlock *)
Record TensorBlock := mk_block {
  tb_values : BasicBlock;
  tb_gradients : list (string * BasicBlock);
  tb_gradient_parameters : list string;
}.

(* src/blocks.rs:189-200 -- TensorBlock::new *)
Definition tensor_block_new (data : eqs_array) (samples : Labels) (components : list Labels)
    (properties : Labels) : outcome TensorBlock :=
  let? values := basic_block_new data samples components properties in
  Ok (mk_block values [] []).

(* src/blocks.rs:219-221 -- TensorBlock::gradient *)
Definition tensor_block_gradient (b : TensorBlock) (parameter : string) : option BasicBlock :=
  hm_get String.eqb (tb_gradients b) parameter.

(* src/blocks.rs:224-226 -- TensorBlock::gradient_parameters_c *)
Definition tensor_block_gradient_parameters (b : TensorBlock) : list string :=
  tb_gradient_parameters b.

(* src/blocks.rs:279-290 -- comparison of the trailing gradient components with
   the values components *)
Fixpoint check_gradient_components (component_i : nat) (gradient values : list Labels) : outcome unit :=
  match gradient, values with
  | g :: gradient', v :: values' =>
      if negb (labels_eqb g v) then
        Err (InvalidParameter ("gradients and values components mismatch for values component "
          +++ string_of_nat component_i +++ " (the corresponding names are ["
          +++ join ", " (labels_names v) +++ "])"))
      else check_gradient_components (component_i + 1) gradient' values'
  | _, _ => Ok tt
  end.

(* src/blocks.rs:243-295 -- the checks of TensorBlock::add_gradient *)
Definition check_gradient (b : TensorBlock) (parameter : string) (data : eqs_array)
    (samples : Labels) (components : list Labels) : outcome unit :=
  if hm_contains String.eqb (tb_gradients b) parameter then
    Err (InvalidParameter ("gradient with respect to '" +++ parameter
      +++ "' already exists for this block"))
  else
  let? origin := array_origin data in
  let? values_origin := array_origin (bb_data (tb_values b)) in
  if negb (kind_eqb origin values_origin) then
    Err (InvalidParameter "the gradient array has a different origin than the value array")
  else if String.eqb parameter "values" then
    Err (InvalidParameter "can not store gradient with respect to 'values'")
  else if (labels_size samples <? 1)
       || negb (match labels_names samples with name :: _ => String.eqb name "sample" | [] => false end) then
    Err (InvalidParameter "first variable in the gradients samples labels must be 'samples'")
  else
  let? _ := check_component_labels components in
  let values_components := bb_components (tb_values b) in
  if length components <? length values_components then
    Err (InvalidParameter
      "gradients components should contain at least as many labels as the values components")
  else
  let extra := length components - length values_components in
  let? _ := check_gradient_components 0 (skipn extra components) values_components in
  check_data_and_labels "gradient data and labels don't match" data samples components
    (bb_properties (tb_values b)).

(* src/blocks.rs:236-309 -- TensorBlock::add_gradient. The gradient is inserted
   before the parameter is converted to a C string, which panics if it contains
   a NUL byte. *)
Definition tensor_block_add_gradient (b : TensorBlock) (parameter : string) (data : eqs_array)
    (samples : Labels) (components : list Labels) : TensorBlock * outcome unit :=
  match check_gradient b parameter data samples components with
  | Ok _ =>
      let gradient := mk_basic data samples components (bb_properties (tb_values b)) in
      let gradients := hm_insert_new (tb_gradients b) parameter gradient in
      match cstring_new parameter with
      | None =>
          (mk_block (tb_values b) gradients (tb_gradient_parameters b), Panic "invalid C string")
      | Some parameter =>
          (mk_block (tb_values b) gradients (tb_gradient_parameters b ++ [parameter]), Ok tt)
      end
  | failure => (b, failure)
  end.

(* src/blocks.rs:317-319 -- loop over all the gradients, stopping at the first
   failure *)
Fixpoint gradients_components_to_properties (variables : list string)
    (gradients : list (string * BasicBlock)) : list (string * BasicBlock) * outcome unit :=
  match gradients with
  | [] => ([], Ok tt)
  | (parameter, gradient) :: rest =>
      match basic_block_components_to_properties gradient variables with
      | (gradient', Ok _) =>
          let '(rest', result) := gradients_components_to_properties variables rest in
          ((parameter, gradient') :: rest', result)
      | (gradient', failure) => ((parameter, gradient') :: rest, failure)
      end
  end.

(* src/blocks.rs:311-322 -- TensorBlock::components_to_properties *)
Definition tensor_block_components_to_properties (b : TensorBlock) (variables : list string)
  : TensorBlock * outcome unit :=
  match variables with
  | [] => (b, Ok tt)
  | _ =>
      match basic_block_components_to_properties (tb_values b) variables with
      | (values, Ok _) =>
          let '(gradients, result) := gradients_components_to_properties variables (tb_gradients b) in
          (mk_block values gradients (tb_gradient_parameters b), result)
      | (values, failure) =>
          (mk_block values (tb_gradients b) (tb_gradient_parameters b), failure)
      end
  end.
