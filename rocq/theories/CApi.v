(* Model of src/c_api/*.rs *)
From Verif Require Import Base Labels Array Block Tensor Npy Io Origin.
Local Open Scope string_scope.
Local Open Scope list_scope.
Local Open Scope nat_scope.

(** * src/c_api/status.rs *)

(* src/lib.rs:66-77 -- impl Display for Error *)
Definition error_text (e : error) : string :=
  match e with
  | InvalidParameter m => "invalid parameter: " +++ m
  | IoError m => "io error: " +++ m
  | Serialization m => "serialization format error: " +++ m
  | BufferSize m => "buffer is not big enough: " +++ m
  | External status context => "external error: " +++ context +++ " (status " +++ string_of_Z status +++ ")"
  | Internal m => "internal error: " +++ m
  end.

(* src/c_api/status.rs:37-52 and 60-67 -- the codes *)
Definition error_code (e : error) : Z :=
  match e with
  | InvalidParameter _ => 1
  | IoError _ => 2
  | Serialization _ => 3
  | BufferSize _ => 254
  | External status _ => status
  | Internal _ => 255
  end.

(* How a C function ends: it returns a status (functions returning a pointer
   compare this status to EQS_SUCCESS), a panic leaves the function, or something
   undefined happens. *)
Inductive c_result :=
| Returned (status : Z)
| Unwound (message : string)
| Crashed (reason : string).

(* src/c_api/status.rs:12-14 -- LAST_ERROR_MESSAGE, for each thread *)
Definition last_errors : Type := nat -> string.

(* src/c_api/status.rs:54-70 -- impl From<Error> for eqs_status_t. This runs
   outside of std::panic::catch_unwind. *)
Definition from_error (thread : nat) (errors : last_errors) (e : error) : last_errors * c_result :=
  match cstring_new (error_text e) with
  | None => (errors, Unwound "error message contains a null byte")
  | Some message =>
      (fun other => if other =? thread then message else errors other, Returned (error_code e))
  end.

(* src/c_api/status.rs:72-80 -- catch_unwind. src/lib.rs:111-123: a panic becomes
   an internal error; the panics of the model always have a text, the ones with
   something else (std::panic::panic_any) do not exist in the library. *)
Definition catch_unwind (thread : nat) (errors : last_errors) (o : outcome unit) : last_errors * c_result :=
  match o with
  | Ok _ => (errors, Returned 0)
  | Err e => from_error thread errors e
  | Panic message => from_error thread errors (Internal message)
  | Undefined reason => (errors, Crashed reason)
  end.

(* src/c_api/status.rs:83-99 -- check_pointers!, without the file and line of
   the message *)
Definition check_pointer {A} (name : string) (pointer : option A) : outcome A :=
  match pointer with
  | Some a => Ok a
  | None => Err (InvalidParameter ("got invalid NULL pointer for " +++ name))
  end.

(** * Strings *)

(* CStr::from_ptr: the characters before the first NUL *)
Fixpoint c_str (memory : string) : string :=
  match memory with
  | EmptyString => EmptyString
  | String c rest => if Ascii.eqb c nul then EmptyString else String c (c_str rest)
  end.

(* CStr::from_ptr(...).to_str().expect(message) *)
Definition c_str_to_str (message memory : string) : outcome string :=
  let b := list_ascii_of_string (c_str memory) in
  if is_utf8 (S (length b)) b then Ok (c_str memory) else Panic message.

(** * src/c_api/labels.rs *)

(* src/c_api/labels.rs:13-30 -- eqs_labels_t. A pointer is NULL ([None]) or the
   memory it points to; labels_ptr points to Labels. *)
Record c_labels := mk_c_labels {
  cl_labels_ptr : option Labels;
  cl_names : option (list string);
  cl_values : option (list Z);
  cl_size : nat;
  cl_count : nat;
}.

(* std::slice::from_raw_parts. For an empty slice made from NULL, documented as
   undefined, we use what happens in practice: an empty slice. *)
Definition from_raw_parts {A} (pointer : option (list A)) (count : nat) : outcome (list A) :=
  match pointer with
  | None => if count =? 0 then Ok [] else Undefined "reading from NULL"
  | Some memory => if count <=? length memory then Ok (firstn count memory) else Undefined "reading out of bounds"
  end.

(* src/c_api/labels.rs:32-65 -- TryFrom<&eqs_labels_t> for Labels; count * size
   can not overflow, since there is this number of values in memory *)
Definition labels_from_c (c : c_labels) : outcome Labels :=
  match cl_names c with
  | None => Err (InvalidParameter "labels.names can not be NULL in eqs_labels_t")
  | Some memory =>
      if (match cl_values c with None => true | Some _ => false end) && (0 <? cl_count c) then
        Err (InvalidParameter "labels.values is NULL but labels.count is >0 in eqs_labels_t")
      else
      let? memory := from_raw_parts (Some memory) (cl_size c) in
      let? names := mapM (c_str_to_str "invalid UTF8 name") memory in
      let? builder := builder_new names in
      let? slice := from_raw_parts (cl_values c) (cl_count c * cl_size c) in
      let? builder :=
        match slice with
        | [] => Ok builder
        | _ => builder_add_all builder (chunks_exact (cl_size c) slice)
        end in
      builder_finish builder
  end.

(* src/c_api/labels.rs:68-98 -- TryFrom<&Labels> for eqs_labels_t *)
Definition labels_to_c (l : Labels) : outcome c_labels :=
  let size := labels_size l in
  let? count := labels_count l in
  let values := if (count =? 0) || (size =? 0) then None else Some (l_values l) in
  let names := if size =? 0 then None else Some (l_names l) in
  Ok (mk_c_labels (Some l) names values size count).

(* src/c_api/labels.rs:115-135 -- eqs_labels_position; the result is -1 when the
   values are not found *)
Definition c_labels_position (labels : c_labels) (values : option (list Z)) (count : nat) : outcome Z :=
  match cl_labels_ptr labels with
  | None => Err (InvalidParameter "these labels do not support calling eqs_labels_position")
  | Some labels =>
      let? label := from_raw_parts values count in
      let? position := labels_position labels label in
      Ok match position with
         | Some position => Z.of_nat position
         | None => (-1)%Z
         end
  end.

(** * The handles and arrays of a program

    Arrays are identified by a number, given in the order in which they are
    handed to the library, or created by it. *)

(* src/c_api/blocks.rs:13-41 -- a boxed TensorBlock, with the arrays it owns: its
   values, then its gradients *)
Record owned_block := mk_owned_block {
  ob_block : TensorBlock;
  ob_arrays : list nat;
}.

(* src/c_api/tensor.rs:18-47 -- a boxed TensorMap, with the arrays of its blocks *)
Record owned_tensor := mk_owned_tensor {
  ot_tensor : TensorMap;
  ot_arrays : list (list nat);
}.

(* Pointers to eqs_block_t: NULL, a block made by eqs_block or eqs_block_copy, or
   a block inside of a tensor map as given by eqs_tensormap_block_by_id (and used
   before this tensor map is changed again) *)
Inductive block_ptr :=
| BlockNull
| BlockAt (handle : nat)
| BlockIn (tensor index : nat).

(* The content of a file: an archive, or anything else *)
Definition file : Type := option archive.

(* Everything the C functions can change. Handles are never used twice. *)
Record world := mk_world {
  w_blocks : list (nat * owned_block);
  w_tensors : list (nat * owned_tensor);
  w_next_handle : nat;
  w_next_array : nat;
  w_destroyed : list nat; (* arrays for which `destroy` was called, one entry per call *)
  w_origins : registry;
  w_files : list (string * file);
  w_errors : last_errors;
}.

Definition world_start (files : list (string * file)) : world :=
  mk_world [] [] 0 0 [] registry_start files (fun _ => "").

Definition set_blocks (w : world) (blocks : list (nat * owned_block)) : world :=
  mk_world blocks (w_tensors w) (w_next_handle w) (w_next_array w) (w_destroyed w) (w_origins w) (w_files w) (w_errors w).
Definition set_tensors (w : world) (tensors : list (nat * owned_tensor)) : world :=
  mk_world (w_blocks w) tensors (w_next_handle w) (w_next_array w) (w_destroyed w) (w_origins w) (w_files w) (w_errors w).
Definition set_origins (w : world) (origins : registry) : world :=
  mk_world (w_blocks w) (w_tensors w) (w_next_handle w) (w_next_array w) (w_destroyed w) origins (w_files w) (w_errors w).
Definition set_files (w : world) (files : list (string * file)) : world :=
  mk_world (w_blocks w) (w_tensors w) (w_next_handle w) (w_next_array w) (w_destroyed w) (w_origins w) files (w_errors w).
Definition set_errors (w : world) (errors : last_errors) : world :=
  mk_world (w_blocks w) (w_tensors w) (w_next_handle w) (w_next_array w) (w_destroyed w) (w_origins w) (w_files w) errors.

(* [n] new arrays *)
Definition new_arrays (w : world) (n : nat) : world * list nat :=
  (mk_world (w_blocks w) (w_tensors w) (w_next_handle w) (w_next_array w + n) (w_destroyed w) (w_origins w) (w_files w) (w_errors w),
   seq (w_next_array w) n).

(* src/data.rs:194-200 -- impl Drop for eqs_array_t *)
Definition destroy (w : world) (arrays : list nat) : world :=
  mk_world (w_blocks w) (w_tensors w) (w_next_handle w) (w_next_array w) (w_destroyed w ++ arrays) (w_origins w) (w_files w) (w_errors w).

(* Box::into_raw(Box::new(...)) *)
Definition box_block (w : world) (b : owned_block) : world * nat :=
  (mk_world ((w_next_handle w, b) :: w_blocks w) (w_tensors w) (S (w_next_handle w)) (w_next_array w) (w_destroyed w) (w_origins w) (w_files w) (w_errors w),
   w_next_handle w).
Definition box_tensor (w : world) (t : owned_tensor) : world * nat :=
  (mk_world (w_blocks w) ((w_next_handle w, t) :: w_tensors w) (S (w_next_handle w)) (w_next_array w) (w_destroyed w) (w_origins w) (w_files w) (w_errors w),
   w_next_handle w).

(* association lists of handles *)
Definition remove_handle {A} (handle : nat) (l : list (nat * A)) : list (nat * A) :=
  filter (fun ha => negb (fst ha =? handle)) l.
Definition update_handle {A} (handle : nat) (a : A) (l : list (nat * A)) : list (nat * A) :=
  map (fun ha => if fst ha =? handle then (handle, a) else ha) l.

(* an owned block; freed blocks and blocks which are inside of a tensor map can
   not be used as such *)
Definition get_block (w : world) (block : block_ptr) : outcome (nat * owned_block) :=
  match block with
  | BlockNull => Undefined "NULL block"
  | BlockAt handle =>
      match hm_get Nat.eqb (w_blocks w) handle with
      | Some b => Ok (handle, b)
      | None => Undefined "block used after it was freed"
      end
  | BlockIn _ _ => Undefined "block which belongs to a tensor map"
  end.

(* &*block: reading any block, with the arrays it owns *)
Definition read_block (w : world) (block : block_ptr) : outcome owned_block :=
  match block with
  | BlockIn tensor index =>
      match hm_get Nat.eqb (w_tensors w) tensor with
      | Some t =>
          match nth_error (tm_blocks (ot_tensor t)) index, nth_error (ot_arrays t) index with
          | Some b, Some arrays => Ok (mk_owned_block b arrays)
          | _, _ => Undefined "block used after it was freed"
          end
      | None => Undefined "tensor map used after it was freed"
      end
  | _ => let? (_, b) := get_block w block in Ok b
  end.

Definition get_tensor (w : world) (handle : nat) : outcome owned_tensor :=
  match hm_get Nat.eqb (w_tensors w) handle with
  | Some t => Ok t
  | None => Undefined "tensor map used after it was freed"
  end.

(* number of arrays in a block *)
Definition arrays_count (b : TensorBlock) : nat := S (length (tb_gradients b)).

(* new arrays for all the blocks *)
Fixpoint new_blocks_arrays (w : world) (blocks : list TensorBlock) : world * list (list nat) :=
  match blocks with
  | [] => (w, [])
  | b :: rest =>
      let '(w, arrays) := new_arrays w (arrays_count b) in
      let '(w, others) := new_blocks_arrays w rest in
      (w, arrays :: others)
  end.

(* A call which failed after creating some arrays: they are destroyed when going
   out of scope. The number of arrays is given with the call. *)
Definition temporary_arrays (w : world) (n : nat) : world :=
  let '(w, arrays) := new_arrays w n in destroy w arrays.

(** * The calls *)

(* an eqs_array_t given to the user, who should call `destroy` if it is set *)
Record given_array := mk_given {
  ga_array : eqs_array;
  ga_id : nat;
  ga_destroy : bool;
}.

(* What the C functions give to their callers: the value returned, and the memory
   of the output parameters once the call finished. *)
Inductive c_value :=
| VNone
| VOrigin (origin : nat)
| VText (buffer : list ascii)
| VLabels (labels : c_labels)
| VPosition (position : Z)
| VArray (array : given_array)
| VNames (names : option (list string)) (count : nat)
| VBlock (block : block_ptr)
| VTensor (tensor : option nat) (blocks : list block_ptr)
| VIndexes (buffer : list nat) (count : nat)
| VError (message : string).

(* Output parameters: NULL or not *)
Definition out_ptr : Type := option unit.
Definition out : out_ptr := Some tt.

(* The C functions with their parameters. A pointer and a number of elements are
   given together as a list (so that they always agree), as are the pointers to
   labels, which are never NULL. Arrays given to the library are not owned by
   anything else. Numbers of temporary arrays, results of the operating system,
   and the order in which the files are listed are given with the call: these
   are not chosen by the caller, and theorems are for all of them. *)
Inductive c_call :=
| RegisterDataOrigin (name : option string) (origin : out_ptr)
| GetDataOrigin (origin : nat) (buffer : option (list ascii))
| LabelsPosition (labels : c_labels) (values : option (list Z)) (count : nat)
| BlockCreate (data : eqs_array) (samples : c_labels) (components : list c_labels) (properties : c_labels)
| BlockFree (block : block_ptr)
| BlockCopy (block : block_ptr)
| BlockLabels (block : block_ptr) (values_gradients : option string) (axis : nat) (labels : out_ptr)
| BlockData (block : block_ptr) (values_gradients : option string) (data : out_ptr)
| BlockAddGradient (block : block_ptr) (parameter : option string) (data : eqs_array)
    (samples : c_labels) (components : list c_labels)
| BlockGradientsList (block : block_ptr) (parameters : out_ptr) (count : out_ptr)
| TensorCreate (keys : c_labels) (blocks : list block_ptr)
| TensorFree (tensor : option nat)
| TensorKeys (tensor : option nat) (keys : out_ptr)
| TensorBlockById (tensor : option nat) (block : out_ptr) (index : nat)
| TensorBlocksMatching (tensor : option nat) (block_indexes : option (list nat)) (count : out_ptr) (selection : c_labels)
| TensorKeysToProperties (tensor : option nat) (keys_to_move : c_labels) (sort_samples : bool) (temporary : nat)
| TensorComponentsToProperties (tensor : option nat) (variables : option (list (option string)))
| TensorKeysToSamples (tensor : option nat) (keys_to_move : c_labels) (sort_samples : bool) (temporary : nat)
| TensorLoad (path : option string) (names : list string) (temporary : nat)
| TensorSave (path : option string) (tensor : option nat) (system : option string) (remains : file)
| LastError.

(* NULL block *)
Definition block_pointer (block : block_ptr) : option block_ptr :=
  match block with
  | BlockNull => None
  | _ => Some block
  end.

(* src/c_api/data.rs:19-32 -- eqs_register_data_origin *)
Definition eqs_register_data_origin (w : world) (name : option string) (origin : out_ptr)
  : world * c_value * outcome unit :=
  let name :=
    let? name := check_pointer "name" name in
    let? _ := check_pointer "origin" origin in
    c_str_to_str "called `Result::unwrap()` on an `Err` value" name in
  match name with
  | Ok name =>
      let '(origins, id) := register_data_origin (w_origins w) name in
      (set_origins w origins, VOrigin id, Ok tt)
  | failure => (w, VNone, let? _ := failure in Ok tt)
  end.

(* src/c_api/data.rs:45-58 -- eqs_get_data_origin *)
Definition eqs_get_data_origin (p : profile) (w : world) (origin : nat) (buffer : option (list ascii))
  : world * c_value * outcome unit :=
  match buffer with
  | None => (w, VNone, let? _ := check_pointer "buffer" buffer in Ok tt)
  | Some buffer =>
      match get_data_origin (w_origins w) origin with
      | Ok name =>
          let '(buffer, result) := copy_str_to_c p name buffer in
          (w, VText buffer, result)
      | failure => (w, VText buffer, let? _ := failure in Ok tt)
      end
  end.

(* functions which only read something *)
Definition reading (w : world) (o : outcome c_value) : world * c_value * outcome unit :=
  match o with
  | Ok v => (w, v, Ok tt)
  | failure => (w, VNone, let? _ := failure in Ok tt)
  end.

(* src/c_api/labels.rs:115-135 *)
Definition eqs_labels_position (w : world) (labels : c_labels) (values : option (list Z)) (count : nat)
  : world * c_value * outcome unit :=
  reading w (let? position := c_labels_position labels values count in Ok (VPosition position)).

(* src/c_api/blocks.rs:59-95 -- eqs_block. The array is owned by the closure, and
   destroyed with it unless it was moved to the block. *)
Definition eqs_block (w : world) (data : eqs_array) (samples : c_labels) (components : list c_labels)
    (properties : c_labels) : world * c_value * outcome unit :=
  let '(w, arrays) := new_arrays w 1 in
  let block :=
    let? samples := labels_from_c samples in
    let? components := mapM labels_from_c components in
    let? properties := labels_from_c properties in
    tensor_block_new data samples components properties in
  match block with
  | Ok block =>
      let '(w, handle) := box_block w (mk_owned_block block arrays) in
      (w, VBlock (BlockAt handle), Ok tt)
  | failure => (destroy w arrays, VBlock BlockNull, let? _ := failure in Ok tt)
  end.

(* src/c_api/blocks.rs:108-119 -- eqs_block_free *)
Definition eqs_block_free (w : world) (block : block_ptr) : world * c_value * outcome unit :=
  match block with
  | BlockNull => (w, VNone, Ok tt)
  | _ =>
      match get_block w block with
      | Ok (handle, b) =>
          (destroy (set_blocks w (remove_handle handle (w_blocks w))) (ob_arrays b), VNone, Ok tt)
      | failure => (w, VNone, let? _ := failure in Ok tt)
      end
  end.

(* derive(Clone) for TensorBlock (src/blocks.rs:36 and 177): clones of all the
   arrays, and the number of arrays cloned before a failure *)
Fixpoint clone_arrays (arrays : list eqs_array) : nat * outcome unit :=
  match arrays with
  | [] => (0, Ok tt)
  | a :: rest =>
      match array_clone a with
      | Ok _ => let '(n, result) := clone_arrays rest in (S n, result)
      | failure => (0, let? _ := failure in Ok tt)
      end
  end.

Definition block_arrays (b : TensorBlock) : list eqs_array :=
  bb_data (tb_values b) :: map (fun qg => bb_data (snd qg)) (tb_gradients b).

(* src/c_api/blocks.rs:131-154 -- eqs_block_copy. A clone has the same content as
   the array. *)
Definition eqs_block_copy (w : world) (block : block_ptr) : world * c_value * outcome unit :=
  match (let? block := check_pointer "block" (block_pointer block) in read_block w block) with
  | Ok b =>
      let '(n, result) := clone_arrays (block_arrays (ob_block b)) in
      let '(w, arrays) := new_arrays w n in
      match result with
      | Ok _ =>
          let '(w, handle) := box_block w (mk_owned_block (ob_block b) arrays) in
          (w, VBlock (BlockAt handle), Ok tt)
      | failure => (destroy w arrays, VBlock BlockNull, failure)
      end
  | failure => (w, VBlock BlockNull, let? _ := failure in Ok tt)
  end.

(* src/c_api/blocks.rs:184-193 and 239-248 -- the values or one of the gradients *)
Definition select_basic_block (b : TensorBlock) (values_gradients : string) : outcome BasicBlock :=
  if String.eqb values_gradients "values" then Ok (tb_values b)
  else
    match tensor_block_gradient b values_gradients with
    | Some gradient => Ok gradient
    | None => Err (InvalidParameter ("can not find gradients with respect to '" +++ values_gradients
        +++ "' in this block"))
    end.

(* src/c_api/blocks.rs:197-212 -- the labels of an axis *)
Definition axis_of_block (b : BasicBlock) (axis : nat) : outcome Labels :=
  let n_components := length (bb_components b) in
  if axis =? 0 then Ok (bb_samples b)
  else if axis - 1 <? n_components then index_slice (bb_components b) (axis - 1)
  else if axis =? n_components + 1 then Ok (bb_properties b)
  else Err (InvalidParameter ("tried to get the labels for axis " +++ string_of_nat axis
    +++ ", but we only have " +++ string_of_nat (n_components + 2) +++ " axes for this block")).

(* src/c_api/blocks.rs:176-217 -- eqs_block_labels *)
Definition eqs_block_labels (w : world) (block : block_ptr) (values_gradients : option string) (axis : nat)
    (labels : out_ptr) : world * c_value * outcome unit :=
  reading w
   (let? block := check_pointer "block" (block_pointer block) in
    let? values_gradients := check_pointer "values_gradients" values_gradients in
    let? _ := check_pointer "labels" labels in
    let? values_gradients := c_str_to_str "called `Result::unwrap()` on an `Err` value" values_gradients in
    let? b := read_block w block in
    let? basic := select_basic_block (ob_block b) values_gradients in
    let? rust_labels := axis_of_block basic axis in
    let? c := labels_to_c rust_labels in
    Ok (VLabels c)).

(* the array of the values or of one of the gradients among the arrays of the
   block *)
Fixpoint gradient_array (gradients : list (string * BasicBlock)) (arrays : list nat) (parameter : string) : option nat :=
  match gradients, arrays with
  | (q, _) :: gradients, array :: arrays =>
      if String.eqb parameter q then Some array else gradient_array gradients arrays parameter
  | _, _ => None
  end.

Definition select_array (b : owned_block) (values_gradients : string) : outcome nat :=
  expect_some "the block does not own its arrays"
    match ob_arrays b with
    | [] => None
    | values :: gradients =>
        if String.eqb values_gradients "values" then Some values
        else gradient_array (tb_gradients (ob_block b)) gradients values_gradients
    end.

(* src/c_api/blocks.rs:233-256 -- eqs_block_data. src/data.rs:240-253 -- raw_copy:
   `destroy` is not set in what is given to the user. *)
Definition eqs_block_data (w : world) (block : block_ptr) (values_gradients : option string)
    (data : out_ptr) : world * c_value * outcome unit :=
  reading w
   (let? block := check_pointer "block" (block_pointer block) in
    let? values_gradients := check_pointer "values_gradients" values_gradients in
    let? _ := check_pointer "data" data in
    let? values_gradients := c_str_to_str "called `Result::unwrap()` on an `Err` value" values_gradients in
    let? b := read_block w block in
    let? basic := select_basic_block (ob_block b) values_gradients in
    let? array := select_array b values_gradients in
    Ok (VArray (mk_given (bb_data basic) array false))).

(* src/c_api/blocks.rs:277-300 -- eqs_block_add_gradient. The array is destroyed
   unless it was moved to the block, which happens when all the checks of
   add_gradient are passed. *)
Definition eqs_block_add_gradient (w : world) (block : block_ptr) (parameter : option string)
    (data : eqs_array) (samples : c_labels) (components : list c_labels) : world * c_value * outcome unit :=
  let '(w, arrays) := new_arrays w 1 in
  let arguments :=
    let? block := check_pointer "block" (block_pointer block) in
    let? parameter := check_pointer "parameter" parameter in
    let? parameter := c_str_to_str "called `Result::unwrap()` on an `Err` value" parameter in
    let? samples := labels_from_c samples in
    let? components := mapM labels_from_c components in
    let? (handle, b) := get_block w block in
    Ok (handle, b, parameter, samples, components) in
  match arguments with
  | Ok (handle, b, parameter, samples, components) =>
      let '(block, result) := tensor_block_add_gradient (ob_block b) parameter data samples components in
      if length (tb_gradients (ob_block b)) <? length (tb_gradients block) then
        (set_blocks w (update_handle handle (mk_owned_block block (ob_arrays b ++ arrays)) (w_blocks w)),
         VNone, result)
      else (destroy w arrays, VNone, result)
  | failure => (destroy w arrays, VNone, let? _ := failure in Ok tt)
  end.

(* src/c_api/blocks.rs:313-332 -- eqs_block_gradients_list *)
Definition eqs_block_gradients_list (w : world) (block : block_ptr) (parameters : out_ptr) (count : out_ptr)
  : world * c_value * outcome unit :=
  reading w
   (let? block := check_pointer "block" (block_pointer block) in
    let? _ := check_pointer "parameters" parameters in
    let? _ := check_pointer "count" count in
    let? b := read_block w block in
    let list_ := tensor_block_gradient_parameters (ob_block b) in
    Ok (VNames (match list_ with [] => None | _ => Some list_ end) (length list_))).

(* equality of pointers *)
Definition block_ptr_eqb (b1 b2 : block_ptr) : bool :=
  match b1, b2 with
  | BlockNull, BlockNull => true
  | BlockAt h1, BlockAt h2 => h1 =? h2
  | BlockIn t1 i1, BlockIn t2 i2 => (t1 =? t2) && (i1 =? i2)
  | _, _ => false
  end.

(* src/c_api/tensor.rs:82-87 -- the blocks are moved out of their boxes; the
   pointers are not checked *)
Fixpoint take_blocks (w : world) (blocks : list block_ptr) : world * outcome (list owned_block) :=
  match blocks with
  | [] => (w, Ok [])
  | block :: rest =>
      match get_block w block with
      | Ok (handle, b) =>
          let w := set_blocks w (remove_handle handle (w_blocks w)) in
          let '(w, others) := take_blocks w rest in
          (w, let? others := others in Ok (b :: others))
      | failure => (w, let? _ := failure in Ok [])
      end
  end.

(* src/c_api/tensor.rs:62-103 -- eqs_tensormap *)
Definition eqs_tensormap (w : world) (keys : c_labels) (blocks : list block_ptr) : world * c_value * outcome unit :=
  match labels_from_c keys with
  | Ok keys =>
      if negb (count_distinct block_ptr_eqb blocks =? length blocks) then
        (w, VTensor None blocks,
         Err (InvalidParameter "got the same block more than once when constructing a tensor map"))
      else
      match take_blocks w blocks with
      | (w, Ok owned) =>
          let arrays := map ob_arrays owned in
          let nulls := map (fun _ => BlockNull) blocks in
          match tensor_map_new keys (map ob_block owned) with
          | Ok tensor =>
              let '(w, handle) := box_tensor w (mk_owned_tensor tensor arrays) in
              (w, VTensor (Some handle) nulls, Ok tt)
          | failure => (destroy w (concat arrays), VTensor None nulls, let? _ := failure in Ok tt)
          end
      | (w, failure) => (w, VTensor None blocks, let? _ := failure in Ok tt)
      end
  | failure => (w, VTensor None blocks, let? _ := failure in Ok tt)
  end.

(* src/c_api/tensor.rs:116-124 -- eqs_tensormap_free *)
Definition eqs_tensormap_free (w : world) (tensor : option nat) : world * c_value * outcome unit :=
  match tensor with
  | None => (w, VNone, Ok tt)
  | Some handle =>
      match get_tensor w handle with
      | Ok t =>
          (destroy (set_tensors w (remove_handle handle (w_tensors w))) (concat (ot_arrays t)), VNone, Ok tt)
      | failure => (w, VNone, let? _ := failure in Ok tt)
      end
  end.

(* src/c_api/tensor.rs:140-150 -- eqs_tensormap_keys *)
Definition eqs_tensormap_keys (w : world) (tensor : option nat) (keys : out_ptr) : world * c_value * outcome unit :=
  reading w
   (let? handle := check_pointer "tensor" tensor in
    let? _ := check_pointer "keys" keys in
    let? t := get_tensor w handle in
    let? c := labels_to_c (tm_keys (ot_tensor t)) in
    Ok (VLabels c)).

(* src/c_api/tensor.rs:168-181 -- eqs_tensormap_block_by_id *)
Definition eqs_tensormap_block_by_id (w : world) (tensor : option nat) (block : out_ptr) (index : nat)
  : world * c_value * outcome unit :=
  reading w
   (let? handle := check_pointer "tensor" tensor in
    let? _ := check_pointer "block" block in
    let? t := get_tensor w handle in
    let? _ := index_slice (tm_blocks (ot_tensor t)) index in
    Ok (VBlock (BlockIn handle index))).

(* src/c_api/tensor.rs:215-217 -- `block_indexes[idx] = block`, from position
   [i], with the content of the buffer after the last success *)
Fixpoint write_indexes (i : nat) (buffer : list nat) (indexes : list nat) : list nat * outcome unit :=
  match indexes with
  | [] => (buffer, Ok tt)
  | index :: rest =>
      match set_slice buffer i index with
      | Ok buffer => write_indexes (i + 1) buffer rest
      | failure => (buffer, let? _ := failure in Ok tt)
      end
  end.

(* src/c_api/tensor.rs:204-224 -- eqs_tensormap_blocks_matching. The buffer is
   given by its content, of length *count. *)
Definition eqs_tensormap_blocks_matching (w : world) (tensor : option nat) (block_indexes : option (list nat))
    (count : out_ptr) (selection : c_labels) : world * c_value * outcome unit :=
  let arguments :=
    let? handle := check_pointer "tensor" tensor in
    let? buffer := check_pointer "block_indexes" block_indexes in
    let? _ := check_pointer "count" count in
    let? selection := labels_from_c selection in
    let? t := get_tensor w handle in
    let? rust_blocks := blocks_matching (ot_tensor t) selection in
    Ok (buffer, rust_blocks) in
  match arguments with
  | Ok (buffer, rust_blocks) =>
      let '(buffer, result) := write_indexes 0 buffer rust_blocks in
      (w, VIndexes buffer (length rust_blocks), result)
  | failure =>
      (w, match block_indexes with Some buffer => VIndexes buffer (length buffer) | None => VNone end,
       let? _ := failure in Ok tt)
  end.

(* keys_to_properties and keys_to_samples: on success, all the arrays of the
   tensor map are new ones, and the previous ones are destroyed *)
Definition move_keys (w : world) (tensor : option nat) (keys_to_move : c_labels) (temporary : nat)
    (move : TensorMap -> Labels -> TensorMap * outcome unit) : world * c_value * outcome unit :=
  let arguments :=
    let? handle := check_pointer "tensor" tensor in
    let? keys_to_move := labels_from_c keys_to_move in
    let? t := get_tensor w handle in
    Ok (handle, keys_to_move, t) in
  match arguments with
  | Ok (handle, keys_to_move, t) =>
      match move (ot_tensor t) keys_to_move with
      | (moved, Ok _) =>
          let '(w, arrays) := new_blocks_arrays w (tm_blocks moved) in
          let w := set_tensors w (update_handle handle (mk_owned_tensor moved arrays) (w_tensors w)) in
          (destroy (temporary_arrays w temporary) (concat (ot_arrays t)), VNone, Ok tt)
      | (same, failure) =>
          let w := set_tensors w (update_handle handle (mk_owned_tensor same (ot_arrays t)) (w_tensors w)) in
          (temporary_arrays w temporary, VNone, failure)
      end
  | failure => (w, VNone, let? _ := failure in Ok tt)
  end.

(* src/c_api/tensor.rs:263-278 -- eqs_tensormap_keys_to_properties *)
Definition eqs_tensormap_keys_to_properties (p : profile) (w : world) (tensor : option nat)
    (keys_to_move : c_labels) (sort_samples : bool) (temporary : nat) : world * c_value * outcome unit :=
  move_keys w tensor keys_to_move temporary (fun t keys => keys_to_properties p t keys sort_samples).

(* src/c_api/tensor.rs:345-359 -- eqs_tensormap_keys_to_samples *)
Definition eqs_tensormap_keys_to_samples (p : profile) (w : world) (tensor : option nat)
    (keys_to_move : c_labels) (sort_samples : bool) (temporary : nat) : world * c_value * outcome unit :=
  move_keys w tensor keys_to_move temporary (fun t keys => keys_to_samples p t keys sort_samples).

(* src/c_api/tensor.rs:294-315 -- eqs_tensormap_components_to_properties. The
   arrays are modified in place. *)
Definition eqs_tensormap_components_to_properties (w : world) (tensor : option nat)
    (variables : option (list (option string))) : world * c_value * outcome unit :=
  let arguments :=
    let? handle := check_pointer "tensor" tensor in
    let? variables := check_pointer "variables" variables in
    let? variables := mapM (fun variable =>
      let? variable := check_pointer "variable" variable in
      c_str_to_str "invalid utf8" variable) variables in
    let? t := get_tensor w handle in
    Ok (handle, variables, t) in
  match arguments with
  | Ok (handle, variables, t) =>
      let '(moved, result) := components_to_properties (ot_tensor t) variables in
      (set_tensors w (update_handle handle (mk_owned_tensor moved (ot_arrays t)) (w_tensors w)), VNone, result)
  | failure => (w, VNone, let? _ := failure in Ok tt)
  end.

(* File::open and ZipArchive::new *)
Definition open_file (w : world) (path : string) : outcome archive :=
  match hm_get String.eqb (w_files w) path with
  | None => Err (IoError "No such file or directory (os error 2)")
  | Some None => Err (Serialization "invalid Zip archive: ")
  | Some (Some content) => Ok content
  end.

(* src/c_api/io.rs:20-48 -- eqs_tensormap_load *)
Definition eqs_tensormap_load (p : profile) (w : world) (path : option string) (names : list string)
    (temporary : nat) : world * c_value * outcome unit :=
  let tensor :=
    let? path := check_pointer "path" path in
    let? path := c_str_to_str "use UTF-8 for path" path in
    let? content := open_file w path in
    load p names content in
  match tensor with
  | Ok tensor =>
      let '(w, arrays) := new_blocks_arrays w (tm_blocks tensor) in
      let '(w, handle) := box_tensor w (mk_owned_tensor tensor arrays) in
      (w, VTensor (Some handle) [], Ok tt)
  | failure => (temporary_arrays w temporary, VTensor None [], let? _ := failure in Ok tt)
  end.

(* File::create and writes: the new content of the file *)
Definition write_file (w : world) (path : string) (content : file) : world :=
  set_files w ((path, content) :: filter (fun f => negb (String.eqb (fst f) path)) (w_files w)).

(* src/c_api/io.rs:56-71 -- eqs_tensormap_save on a little endian machine. When
   [system] is an error, the file can not be created. The file was already
   emptied when something fails later, what remains in it is given with the
   call. *)
Definition eqs_tensormap_save (w : world) (path : option string) (tensor : option nat)
    (system : option string) (remains : file) : world * c_value * outcome unit :=
  let arguments :=
    let? path := check_pointer "path" path in
    let? handle := check_pointer "tensor" tensor in
    let? path := c_str_to_str "use UTF-8 for path" path in
    let? _ := match system with None => Ok tt | Some message => Err (IoError message) end in
    let? t := get_tensor w handle in
    Ok (path, t) in
  match arguments with
  | Ok (path, t) =>
      match save LittleEndian (ot_tensor t) with
      | Ok content => (write_file w path (Some content), VNone, Ok tt)
      | failure => (write_file w path remains, VNone, let? _ := failure in Ok tt)
      end
  | failure => (w, VNone, let? _ := failure in Ok tt)
  end.

(* what runs inside of catch_unwind: the changes, the outputs, and the result *)
Definition call_body (p : profile) (thread : nat) (w : world) (c : c_call) : world * c_value * outcome unit :=
  match c with
  | RegisterDataOrigin name origin => eqs_register_data_origin w name origin
  | GetDataOrigin origin buffer => eqs_get_data_origin p w origin buffer
  | LabelsPosition labels values count => eqs_labels_position w labels values count
  | BlockCreate data samples components properties => eqs_block w data samples components properties
  | BlockFree block => eqs_block_free w block
  | BlockCopy block => eqs_block_copy w block
  | BlockLabels block values_gradients axis labels => eqs_block_labels w block values_gradients axis labels
  | BlockData block values_gradients data => eqs_block_data w block values_gradients data
  | BlockAddGradient block parameter data samples components =>
      eqs_block_add_gradient w block parameter data samples components
  | BlockGradientsList block parameters count => eqs_block_gradients_list w block parameters count
  | TensorCreate keys blocks => eqs_tensormap w keys blocks
  | TensorFree tensor => eqs_tensormap_free w tensor
  | TensorKeys tensor keys => eqs_tensormap_keys w tensor keys
  | TensorBlockById tensor block index => eqs_tensormap_block_by_id w tensor block index
  | TensorBlocksMatching tensor block_indexes count selection =>
      eqs_tensormap_blocks_matching w tensor block_indexes count selection
  | TensorKeysToProperties tensor keys sort temporary => eqs_tensormap_keys_to_properties p w tensor keys sort temporary
  | TensorComponentsToProperties tensor variables => eqs_tensormap_components_to_properties w tensor variables
  | TensorKeysToSamples tensor keys sort temporary => eqs_tensormap_keys_to_samples p w tensor keys sort temporary
  | TensorLoad path names temporary => eqs_tensormap_load p w path names temporary
  | TensorSave path tensor system remains => eqs_tensormap_save w path tensor system remains
  (* src/c_api/status.rs:101-122 -- eqs_last_error *)
  | LastError => (w, VError (w_errors w thread), Ok tt)
  end.

(* a whole call *)
Definition run_call (p : profile) (thread : nat) (w : world) (c : c_call) : world * c_value * c_result :=
  let '(w, v, o) := call_body p thread w c in
  let '(errors, result) := catch_unwind thread (w_errors w) o in
  (set_errors w errors, v, result).

(* A program: calls made by any number of threads. Calls which are running at the
   same time on different handles do not interact, so the calls are executed one
   after the other; the program ends at the first call which does not return. *)
Fixpoint run (p : profile) (w : world) (calls : list (nat * c_call)) : world * list (c_value * c_result) :=
  match calls with
  | [] => (w, [])
  | (thread, c) :: rest =>
      let '(w, v, result) := run_call p thread w c in
      match result with
      | Returned _ =>
          let '(w, results) := run p w rest in
          (w, (v, result) :: results)
      | _ => (w, [(v, result)])
      end
  end.
