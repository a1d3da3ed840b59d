(* Model of the objects of equistore/block.py, equistore/tensor.py and
   equistore/data.py: which objects hold the pointers of the library, which
   objects keep the others alive, and what the statements of a Python program do
   with them. The content of the arrays and labels is modelled elsewhere (Array.v,
   Labels.v, PyLabels.v). *)
From Verif Require Import Base Labels Array Block Tensor Npy Io Origin CApi PyIo.
Local Open Scope string_scope.
Local Open Scope list_scope.
Local Open Scope nat_scope.

(** * Objects *)

(* Where the memory of a numpy array which is not owned by numpy is: next to an
   array of the library (the array itself, or the labels stored with it), or in
   the keys of a tensor map. [changes] is the number of times this memory was
   already replaced when the numpy array was made. *)
Inductive py_memory :=
| PartMemory (array changes : nat)
| KeysMemory (tensor changes : nat).

(* Objects, with references to other objects given by their number.
   - equistore/data.py:159-202 -- ArrayWrapper: the array of the library which uses
     it, the numpy array if this is a view of some memory of the library, and
     `_children`;
   - equistore/block.py:37-91 -- TensorBlock: `_ptr`, the number of times the keys
     of the tensor map were already moved when this block was made, `_owning`,
     `_values` and `_gradients` together, and `_parent`;
   - a list of blocks;
   - equistore/tensor.py:33-71 -- TensorMap: `_ptr` and `_blocks` (None for a new
     empty list, that nothing else uses);
   - equistore/data.py:90-125 and equistore/labels.py -- _RustNDArray, Labels which
     are a view, and arrays made from them: the memory, and `_parent`. *)
Inductive py_object :=
| PyWrapper (array : nat) (view : option nat) (children : list nat)
| PyBlock (ptr : block_ptr) (changes : nat) (owning : bool) (wrappers : list nat) (parent : option nat)
| PyList (items : list nat)
| PyTensor (ptr : nat) (blocks : option nat)
| PyView (memory : py_memory) (parent : option nat).

Definition optional {A} (o : option A) : list A :=
  match o with
  | Some a => [a]
  | None => []
  end.

(* the objects which are kept alive by an object *)
Definition references (x : py_object) : list nat :=
  match x with
  | PyWrapper _ view children => optional view ++ children
  | PyBlock _ _ _ wrappers parent => wrappers ++ optional parent
  | PyList items => items
  | PyTensor _ blocks => optional blocks
  | PyView _ parent => optional parent
  end.

(* The library, the objects which exist, and the ones which are in a variable of
   the program; for the arrays given to the library by Python, the ArrayWrapper
   which was used; the tensor maps for each time their keys were moved, and the
   arrays for each time they were modified in place. *)
Record py_state := mk_py {
  py_world : world;
  py_objects : list (nat * py_object);
  py_next : nat;
  py_variables : list nat;
  py_wrapped : list (nat * nat);
  py_moved : list nat;
  py_changed : list nat;
}.

Definition py_start (files : list (string * file)) : py_state := mk_py (world_start files) [] 0 [] [] [] [].

Definition with_world (s : py_state) (w : world) : py_state :=
  mk_py w (py_objects s) (py_next s) (py_variables s) (py_wrapped s) (py_moved s) (py_changed s).
Definition with_objects (s : py_state) (objects : list (nat * py_object)) : py_state :=
  mk_py (py_world s) objects (py_next s) (py_variables s) (py_wrapped s) (py_moved s) (py_changed s).
Definition with_variables (s : py_state) (variables : list nat) : py_state :=
  mk_py (py_world s) (py_objects s) (py_next s) variables (py_wrapped s) (py_moved s) (py_changed s).
Definition with_moved (s : py_state) (moved changed : list nat) : py_state :=
  mk_py (py_world s) (py_objects s) (py_next s) (py_variables s) (py_wrapped s) moved changed.

Definition find_object (s : py_state) (o : nat) : option py_object := hm_get Nat.eqb (py_objects s) o.
Definition set_object (s : py_state) (o : nat) (x : py_object) : py_state :=
  with_objects s (update_handle o x (py_objects s)).
Definition new_object (s : py_state) (x : py_object) : py_state :=
  mk_py (py_world s) ((py_next s, x) :: py_objects s) (S (py_next s)) (py_variables s) (py_wrapped s) (py_moved s) (py_changed s).
Definition new_wrapper (s : py_state) (array : nat) (view : option nat) : py_state :=
  mk_py (py_world s) ((py_next s, PyWrapper array view []) :: py_objects s) (S (py_next s)) (py_variables s)
    ((array, py_next s) :: py_wrapped s) (py_moved s) (py_changed s).

(* number of times *)
Definition times (n : nat) (l : list nat) : nat := count_occ Nat.eq_dec l n.

(* a function which changes the state, and can raise an exception *)
Definition and_then {A B} (r : py_state * outcome A) (f : py_state -> A -> py_state * outcome B) : py_state * outcome B :=
  let '(s, o) := r in
  match o with
  | Ok a => f s a
  | Err e => (s, Err e)
  | Panic m => (s, Panic m)
  | Undefined reason => (s, Undefined reason)
  end.

(* the value of a statement: a new variable, if any *)
Definition py_result : Type := py_state * outcome (option nat).

Definition give (s : py_state) (x : py_object) : py_result :=
  let o := py_next s in
  let s := new_object s x in
  (with_variables s (o :: py_variables s), Ok (Some o)).

Definition nothing (s : py_state) : py_result := (s, Ok None).

(** * Using objects and memory *)

(* NameError *)
Definition variable (s : py_state) (o : nat) : outcome py_object :=
  if mem Nat.eqb o (py_variables s) then
    match find_object s o with
    | Some x => Ok x
    | None => Undefined "object used after it was freed"
    end
  else exception "NameError".

(* is this memory still there? Replacing some labels or arrays frees the previous
   ones, although the labels can be shared with other blocks in some cases. *)
Definition memory_there (s : py_state) (m : py_memory) : bool :=
  match m with
  | PartMemory array changes => negb (mem Nat.eqb array (w_destroyed (py_world s))) && (changes =? times array (py_changed s))
  | KeysMemory tensor changes => mem Nat.eqb tensor (map fst (w_tensors (py_world s))) && (changes =? times tensor (py_moved s))
  end.

Definition check_memory (s : py_state) (m : py_memory) : outcome unit :=
  if memory_there s m then Ok tt else Undefined "memory used after it was freed".

(* reading an array or labels *)
Definition read_view (s : py_state) (o : nat) : outcome unit :=
  let? x := variable s o in
  match x with
  | PyView m _ => check_memory s m
  | _ => exception "AttributeError"
  end.

Definition each {A} (f : A -> outcome unit) (l : list A) : outcome unit :=
  let? _ := mapM f l in Ok tt.

(* the pointer of a block, which points inside of the tensor map until its keys are
   moved *)
Definition block_pointer_of (s : py_state) (o : nat) : outcome block_ptr :=
  let? x := variable s o in
  match x with
  | PyBlock (BlockIn tensor index) changes _ _ _ =>
      if changes =? times tensor (py_moved s) then Ok (BlockIn tensor index)
      else Undefined "block used after it was freed"
  | PyBlock ptr _ _ _ _ => Ok ptr
  | _ => exception "AttributeError"
  end.

Definition tensor_pointer_of (s : py_state) (o : nat) : outcome nat :=
  let? x := variable s o in
  match x with
  | PyTensor ptr _ => Ok ptr
  | _ => exception "AttributeError"
  end.

(* equistore/data.py:205-207 -- a callback of this array is called: for an array
   given by Python, its wrapper has to be there *)
Definition call_array (s : py_state) (array : nat) : outcome unit :=
  match hm_get Nat.eqb (py_wrapped s) array with
  | None => Ok tt
  | Some o =>
      match find_object s o with
      | Some _ => Ok tt
      | None => Undefined "array used after it was freed"
      end
  end.

(* the elements of this array are used *)
Definition read_array (s : py_state) (array : nat) : outcome unit :=
  match hm_get Nat.eqb (py_wrapped s) array with
  | None => Ok tt
  | Some o =>
      match find_object s o with
      | Some (PyWrapper _ (Some view) _) =>
          match find_object s view with
          | Some (PyView m _) => check_memory s m
          | _ => Undefined "object used after it was freed"
          end
      | Some _ => Ok tt
      | None => Undefined "array used after it was freed"
      end
  end.

(** * Calls of the C API *)

Definition arrays_at (w : world) (block : block_ptr) : list nat :=
  match read_block w block with
  | Ok b => ob_arrays b
  | _ => []
  end.

Definition tensor_arrays (w : world) (tensor : nat) : list (list nat) :=
  match hm_get Nat.eqb (w_tensors w) tensor with
  | Some t => ot_arrays t
  | None => []
  end.

(* the arrays with callbacks which can be called by a function *)
Definition arrays_called (w : world) (c : c_call) : list nat :=
  match c with
  | BlockFree block | BlockCopy block | BlockAddGradient block _ _ _ _ => arrays_at w block
  | TensorCreate _ blocks => flat_map (arrays_at w) blocks
  | TensorFree (Some tensor) | TensorKeysToProperties (Some tensor) _ _ _ | TensorKeysToSamples (Some tensor) _ _ _
  | TensorComponentsToProperties (Some tensor) _ | TensorSave _ (Some tensor) _ _ => concat (tensor_arrays w tensor)
  | _ => []
  end.

(* the arrays with elements which can be read by a function *)
Definition arrays_read (w : world) (c : c_call) : list nat :=
  match c with
  | BlockCopy block => arrays_at w block
  | TensorKeysToProperties (Some tensor) _ _ _ | TensorKeysToSamples (Some tensor) _ _ _
  | TensorComponentsToProperties (Some tensor) _ | TensorSave _ (Some tensor) _ _ => concat (tensor_arrays w tensor)
  | _ => []
  end.

(* equistore/data.py:300-303 -- _eqs_array_destroy: `storage.array = None` *)
Definition drop_array (destroyed : list nat) (x : py_object) : py_object :=
  match x with
  | PyWrapper array view children =>
      if mem Nat.eqb array destroyed then PyWrapper array None children else x
  | _ => x
  end.

Definition after_call (s : py_state) (w : world) : py_state :=
  with_world (with_objects s (map (fun ox => (fst ox, drop_array (w_destroyed w) (snd ox))) (py_objects s))) w.

(* equistore/status.py:29-49 -- a call which does not succeed is an exception.
   Unwinding out of a function of the library ends the program. *)
Definition py_call (p : profile) (s : py_state) (c : c_call) : py_state * outcome c_value :=
  match (let? _ := each (call_array s) (arrays_called (py_world s) c) in
         each (read_array s) (arrays_read (py_world s) c)) with
  | Ok _ =>
      match run_call p 0 (py_world s) c with
      | (w, v, Returned 0) => (after_call s w, Ok v)
      | (w, _, Returned _) => (after_call s w, exception "EquistoreError")
      | (w, _, Unwound message) => (after_call s w, Panic message)
      | (w, _, Crashed reason) => (after_call s w, Undefined reason)
      end
  | failure => (s, let? _ := failure in Ok VNone)
  end.

(** * TensorBlock *)

Definition block_of (v : c_value) : block_ptr :=
  match v with
  | VBlock block => block
  | _ => BlockNull
  end.

(* numpy arrays given to the library: views of the memory of the library, or
   arrays which own their memory *)
Definition check_array (s : py_state) (view : option nat) : outcome unit :=
  match view with
  | None => Ok tt
  | Some o =>
      let? x := variable s o in
      match x with
      | PyView _ _ => Ok tt
      | _ => exception "AttributeError"
      end
  end.

(* equistore/block.py:37-73 -- TensorBlock.__init__. When eqs_block fails, the new
   object has no pointer and is collected. [labels] are the labels which are
   views, and are used here. *)
Definition py_new_block (p : profile) (s : py_state) (data : eqs_array) (view : option nat)
    (samples : c_labels) (components : list c_labels) (properties : c_labels) (labels : list nat) : py_result :=
  and_then (s, check_array s view) (fun s _ =>
  and_then (s, each (read_view s) labels) (fun s _ =>
  let wrapper := py_next s in
  let s := new_wrapper s (w_next_array (py_world s)) view in
  and_then (py_call p s (BlockCreate data samples components properties)) (fun s v =>
  give s (PyBlock (block_of v) 0 true [wrapper] None)))).

(* equistore/data.py:287-297 -- _eqs_array_copy, for each array of a block *)
Fixpoint wrap_copies (s : py_state) (arrays : list (nat * nat)) : py_state * list nat :=
  match arrays with
  | [] => (s, [])
  | (array, copy) :: rest =>
      match hm_get Nat.eqb (py_wrapped s) array with
      | None => wrap_copies s rest
      | Some _ =>
          let wrapper := py_next s in
          let '(s, wrappers) := wrap_copies (new_wrapper s copy None) rest in
          (s, wrapper :: wrappers)
      end
  end.

(* equistore/block.py:98-129 -- TensorBlock.__deepcopy__. The calls which get the
   arrays of the copy are not described, they always succeed. *)
Definition py_copy (p : profile) (s : py_state) (block : nat) : py_result :=
  and_then (s, block_pointer_of s block) (fun s ptr =>
  let arrays := arrays_at (py_world s) ptr in
  and_then (py_call p s (BlockCopy ptr)) (fun s v =>
  let '(s, wrappers) := wrap_copies s (combine arrays (arrays_at (py_world s) (block_of v))) in
  give s (PyBlock (block_of v) 0 true wrappers None))).

(* eqs_block_add_gradient with a block of a tensor map, which is changed (see
   CApi.v for the other blocks) *)
Definition add_gradient_inside (w : world) (tensor index : nat) (parameter : string) (data : eqs_array)
    (samples : c_labels) (components : list c_labels) : world * outcome unit :=
  let '(w, arrays) := new_arrays w 1 in
  let arguments :=
    let? parameter := c_str_to_str "called `Result::unwrap()` on an `Err` value" parameter in
    let? samples := labels_from_c samples in
    let? components := mapM labels_from_c components in
    let? t := get_tensor w tensor in
    let? b := read_block w (BlockIn tensor index) in
    Ok (t, b, parameter, samples, components) in
  match arguments with
  | Ok (t, b, parameter, samples, components) =>
      let '(block, result) := tensor_block_add_gradient (ob_block b) parameter data samples components in
      if length (tb_gradients (ob_block b)) <? length (tb_gradients block) then
        (set_tensors w (update_handle tensor
           (mk_owned_tensor
              (mk_tensor (tm_keys (ot_tensor t)) (set_nth (tm_blocks (ot_tensor t)) index block))
              (set_nth (ot_arrays t) index (ob_arrays b ++ arrays))) (w_tensors w)), result)
      else (destroy w arrays, result)
  | failure => (destroy w arrays, let? _ := failure in Ok tt)
  end.

(* equistore/block.py:235-267 -- TensorBlock.add_gradient *)
Definition py_add_gradient (p : profile) (s : py_state) (block : nat) (parameter : string) (data : eqs_array)
    (view : option nat) (samples : c_labels) (components : list c_labels) (labels : list nat) : py_result :=
  and_then (s, check_array s view) (fun s _ =>
  and_then (s, each (read_view s) labels) (fun s _ =>
  and_then (s, block_pointer_of s block) (fun s ptr =>
  let wrapper := py_next s in
  let s := new_wrapper s (w_next_array (py_world s)) view in
  let s :=
    match find_object s block with
    | Some (PyBlock ptr changes owning wrappers parent) =>
        set_object s block (PyBlock ptr changes owning (wrappers ++ [wrapper]) parent)
    | _ => s
    end in
  match ptr with
  | BlockIn tensor index =>
      and_then (s, each (call_array s) (arrays_at (py_world s) ptr)) (fun s _ =>
      match add_gradient_inside (py_world s) tensor index parameter data samples components with
      | (w, Ok _) => nothing (after_call s w)
      | (w, Undefined reason) => (after_call s w, Undefined reason)
      | (w, _) => (after_call s w, exception "EquistoreError")
      end)
  | _ =>
      and_then (py_call p s (BlockAddGradient ptr (Some parameter) data samples components)) (fun s _ => nothing s)
  end))).

(* equistore/block.py:166-176 and 331-341 -- TensorBlock.values and Gradient.data,
   and equistore/data.py:128-137 -- eqs_array_to_python_object. The gradient itself
   is not described, it only refers to the block. *)
Definition py_part (p : profile) (s : py_state) (block : nat) (name : string) : py_result :=
  and_then (s, block_pointer_of s block) (fun s ptr =>
  and_then (py_call p s (BlockData ptr (Some name) out)) (fun s v =>
  match v with
  | VArray given =>
      let array := ga_id given in
      and_then (s, call_array s array) (fun s _ =>
      match hm_get Nat.eqb (py_wrapped s) array with
      | None => give s (PyView (PartMemory array (times array (py_changed s))) (Some block))
      | Some o =>
          match find_object s o with
          | Some (PyWrapper _ (Some view) _) => (with_variables s (view :: py_variables s), Ok (Some view))
          | _ => nothing s
          end
      end)
  | _ => nothing s
  end)).

(* equistore/block.py:178-219 and 343-386 -- the labels of a block or gradient. They
   are stored with the array. Labels without entries are not a view. *)
Definition py_part_labels (p : profile) (s : py_state) (block : nat) (name : string) (axis : nat) : py_result :=
  and_then (s, block_pointer_of s block) (fun s ptr =>
  and_then (py_call p s (BlockData ptr (Some name) out)) (fun s v =>
  match v with
  | VArray given =>
      let array := ga_id given in
      and_then (py_call p s (BlockLabels ptr (Some name) axis out)) (fun s v =>
      match v with
      | VLabels c =>
          if cl_count c =? 0 then nothing s
          else give s (PyView (PartMemory array (times array (py_changed s))) (Some block))
      | _ => nothing s
      end)
  | _ => nothing s
  end)).

(* equistore/block.py:269-279 -- TensorBlock.gradients_list *)
Definition py_gradients_list (p : profile) (s : py_state) (block : nat) : py_result :=
  and_then (s, block_pointer_of s block) (fun s ptr =>
  and_then (py_call p s (BlockGradientsList ptr out out)) (fun s _ => nothing s)).

(** * Lists *)

Definition list_items (s : py_state) (o : nat) : outcome (list nat) :=
  let? x := variable s o in
  match x with
  | PyList items => Ok items
  | _ => exception "AttributeError"
  end.

Definition py_new_list (s : py_state) (items : list nat) : py_result :=
  and_then (s, mapM (variable s) items) (fun s _ => give s (PyList items)).

(* any change of a list *)
Definition py_set_list (s : py_state) (o : nat) (items : list nat) : py_result :=
  and_then (s, list_items s o) (fun s _ =>
  and_then (s, mapM (variable s) items) (fun s _ => nothing (set_object s o (PyList items)))).

Definition py_list_item (s : py_state) (o index : nat) : py_result :=
  and_then (s, list_items s o) (fun s items =>
  match nth_error items index with
  | Some item => (with_variables s (item :: py_variables s), Ok (Some item))
  | None => (s, exception "IndexError")
  end).

(** * TensorMap *)

(* `block._ptr`, for all the objects in a list *)
Definition pointer_in_list (s : py_state) (o : nat) : outcome block_ptr :=
  match find_object s o with
  | Some (PyBlock ptr _ _ _ _) => Ok ptr
  | _ => exception "AttributeError"
  end.

(* equistore/tensor.py:43-52 -- the pointers are removed from the blocks, up to the
   first block of another tensor map *)
Fixpoint take_pointers (s : py_state) (blocks : list nat) : py_state * bool :=
  match blocks with
  | [] => (s, true)
  | o :: rest =>
      match find_object s o with
      | Some (PyBlock _ changes true wrappers parent) =>
          take_pointers (set_object s o (PyBlock BlockNull changes true wrappers parent)) rest
      | _ => (s, false)
      end
  end.

(* equistore/tensor.py:33-61 -- TensorMap.__init__ *)
Definition py_new_tensor (p : profile) (s : py_state) (keys : c_labels) (labels : list nat) (blocks : nat) : py_result :=
  and_then (s, list_items s blocks) (fun s items =>
  and_then (s, mapM (pointer_in_list s) items) (fun s pointers =>
  let '(s, owning) := take_pointers s items in
  if negb owning then (s, exception "ValueError")
  else
    and_then (s, each (read_view s) labels) (fun s _ =>
    and_then (py_call p s (TensorCreate keys pointers)) (fun s v =>
    match v with
    | VTensor (Some tensor) _ => give s (PyTensor tensor (Some blocks))
    | _ => nothing s
    end)))).

(* equistore/tensor.py:99-104 -- TensorMap.keys *)
Definition py_keys (p : profile) (s : py_state) (tensor : nat) : py_result :=
  and_then (s, tensor_pointer_of s tensor) (fun s ptr =>
  and_then (py_call p s (TensorKeys (Some ptr) out)) (fun s v =>
  match v with
  | VLabels c =>
      if cl_count c =? 0 then nothing s
      else give s (PyView (KeysMemory ptr (times ptr (py_moved s))) (Some tensor))
  | _ => nothing s
  end)).

(* equistore/tensor.py:256-259 -- TensorMap._get_block_by_id; the other ways to get
   a block first call blocks_matching *)
Definition py_block_at (p : profile) (s : py_state) (tensor index : nat) : py_result :=
  and_then (s, tensor_pointer_of s tensor) (fun s ptr =>
  and_then (py_call p s (TensorBlockById (Some ptr) out index)) (fun s v =>
  give s (PyBlock (block_of v) (times ptr (py_moved s)) false [] (Some tensor)))).

(* equistore/tensor.py:199-254 -- TensorMap.blocks_matching, with a buffer for
   [count] indexes *)
Definition py_matching (p : profile) (s : py_state) (tensor count : nat) (selection : c_labels) (labels : list nat) : py_result :=
  and_then (s, each (read_view s) labels) (fun s _ =>
  and_then (s, tensor_pointer_of s tensor) (fun s ptr =>
  and_then (py_call p s (TensorBlocksMatching (Some ptr) (Some (repeat 0 count)) out selection)) (fun s _ => nothing s))).

(* equistore/data.py:267-284 -- _eqs_array_create: each new array is made by the
   values of one of the previous blocks, and its wrapper is added to the children
   of this array. Which block this is depends on the keys, and is given by
   [creators]: theorems are for all of them. *)
Fixpoint wrap_children (s : py_state) (creators values arrays : list nat) : py_state :=
  match arrays with
  | [] => s
  | array :: rest =>
      let s :=
        match nth_error values (hd 0 creators mod length values) with
        | None => s
        | Some creator =>
            match hm_get Nat.eqb (py_wrapped s) creator with
            | None => s
            | Some o =>
                match find_object s o with
                | Some (PyWrapper a view children) =>
                    let child := py_next s in
                    set_object (new_wrapper s array None) o (PyWrapper a view (children ++ [child]))
                | _ => s
                end
            end
        end in
      wrap_children s (tl creators) values rest
  end.

(* equistore/tensor.py:261-330 -- TensorMap.keys_to_properties and keys_to_samples *)
Definition py_move_keys (p : profile) (s : py_state) (tensor : nat) (labels creators : list nat)
    (call : option nat -> c_call) : py_result :=
  and_then (s, each (read_view s) labels) (fun s _ =>
  and_then (s, tensor_pointer_of s tensor) (fun s ptr =>
  let values := map (hd 0) (tensor_arrays (py_world s) ptr) in
  and_then (py_call p s (call (Some ptr))) (fun s _ =>
  let s := wrap_children s creators values (concat (tensor_arrays (py_world s) ptr)) in
  nothing (with_moved s (ptr :: py_moved s) (py_changed s))))).

(* equistore/tensor.py:332-343 -- TensorMap.components_to_properties. All the
   arrays and labels of the blocks can be replaced, even when this fails. *)
Definition py_components_to_properties (p : profile) (s : py_state) (tensor : nat) (variables : list string) : py_result :=
  and_then (s, tensor_pointer_of s tensor) (fun s ptr =>
  let arrays := concat (tensor_arrays (py_world s) ptr) in
  let '(s, result) := py_call p s (TensorComponentsToProperties (Some ptr) (Some (map Some variables))) in
  and_then (with_moved s (py_moved s) (arrays ++ py_changed s), result) (fun s _ => nothing s)).

(* equistore/io.py -- load, without use_numpy *)
Definition py_load (p : profile) (s : py_state) (path : string) (names : list string) (temporary : nat) : py_result :=
  and_then (py_call p s (TensorLoad (Some path) names temporary)) (fun s v =>
  match v with
  | VTensor (Some tensor) _ => give s (PyTensor tensor None)
  | _ => nothing s
  end).

(* equistore/io.py -- save, without use_numpy *)
Definition py_save (p : profile) (s : py_state) (path : string) (tensor : nat) (system : option string) (remains : file) : py_result :=
  and_then (s, tensor_pointer_of s tensor) (fun s ptr =>
  and_then (py_call p s (TensorSave (Some path) (Some ptr) system remains)) (fun s _ => nothing s)).

(** * Views *)

Definition py_read (s : py_state) (view : nat) : py_result :=
  and_then (s, read_view s view) (fun s _ => nothing s).

(* numpy.asarray(view): an array of the class numpy.ndarray with the same memory.
   The base of this array is the first array of the class numpy.ndarray, which was
   made from a pointer; so this does not keep the view, or its parent. *)
Definition py_as_array (s : py_state) (view : nat) : py_result :=
  and_then (s, variable s view) (fun s x =>
  match x with
  | PyView m _ => give s (PyView m None)
  | _ => (s, exception "AttributeError")
  end).

(** * The end of objects *)

(* del *)
Definition py_forget (s : py_state) (objects : list nat) : py_result :=
  nothing (with_variables s (filter (fun o => negb (mem Nat.eqb o objects)) (py_variables s))).

(* Python can free a set of objects when nothing else refers to them: one object
   with a reference count of zero, or any number of objects found by the cyclic
   garbage collector *)
Definition unreachable (s : py_state) (objects : list nat) : bool :=
  forallb (fun o => negb (mem Nat.eqb o (py_variables s))) objects
  && forallb (fun ox => mem Nat.eqb (fst ox) objects
       || forallb (fun r => negb (mem Nat.eqb r objects)) (references (snd ox))) (py_objects s).

(* equistore/block.py:93-96 and equistore/tensor.py:73-75 -- __del__; exceptions are
   ignored *)
Definition finalize (p : profile) (s : py_state) (o : nat) : py_state * outcome unit :=
  let call c :=
    match py_call p s c with
    | (s, Panic m) => (s, Panic m)
    | (s, Undefined reason) => (s, Undefined reason)
    | (s, _) => (s, Ok tt)
    end in
  match find_object s o with
  | Some (PyBlock ptr _ true _ _) => call (BlockFree ptr)
  | Some (PyTensor ptr _) => call (TensorFree (Some ptr))
  | _ => (s, Ok tt)
  end.

Fixpoint finalize_all (p : profile) (s : py_state) (objects : list nat) : py_state * outcome unit :=
  match objects with
  | [] => (s, Ok tt)
  | o :: rest => and_then (finalize p s o) (fun s _ => finalize_all p s rest)
  end.

(* All the __del__ methods are called before any of the objects is freed (PEP 442) *)
Definition py_collect (p : profile) (s : py_state) (objects : list nat) : py_result :=
  if unreachable s objects then
    and_then (finalize_all p s (nodup Nat.eq_dec objects)) (fun s _ =>
    nothing (with_objects s (filter (fun ox => negb (mem Nat.eqb (fst ox) objects)) (py_objects s))))
  else nothing s.

(** * Programs *)

Inductive statement :=
| NewBlock (data : eqs_array) (view : option nat) (samples : c_labels) (components : list c_labels)
    (properties : c_labels) (labels : list nat)
| CopyOf (block : nat)
| AddGradient (block : nat) (parameter : string) (data : eqs_array) (view : option nat) (samples : c_labels)
    (components : list c_labels) (labels : list nat)
| PartOf (block : nat) (name : string)
| LabelsOf (block : nat) (name : string) (axis : nat)
| GradientsList (block : nat)
| NewList (items : list nat)
| SetList (object : nat) (items : list nat)
| ItemOf (object index : nat)
| NewTensor (keys : c_labels) (labels : list nat) (blocks : nat)
| KeysOf (tensor : nat)
| BlockOf (tensor index : nat)
| Matching (tensor count : nat) (selection : c_labels) (labels : list nat)
| KeysToProperties (tensor : nat) (keys : c_labels) (labels : list nat) (sort : bool) (temporary : nat) (creators : list nat)
| KeysToSamples (tensor : nat) (keys : c_labels) (labels : list nat) (sort : bool) (temporary : nat) (creators : list nat)
| ComponentsToProperties (tensor : nat) (variables : list string)
| Load (path : string) (names : list string) (temporary : nat)
| Save (path : string) (tensor : nat) (system : option string) (remains : file)
| Read (view : nat)
| AsArray (view : nat)
| Forget (objects : list nat)
| Collect (objects : list nat).

Definition py_step (p : profile) (s : py_state) (st : statement) : py_result :=
  match st with
  | NewBlock data view samples components properties labels => py_new_block p s data view samples components properties labels
  | CopyOf block => py_copy p s block
  | AddGradient block parameter data view samples components labels =>
      py_add_gradient p s block parameter data view samples components labels
  | PartOf block name => py_part p s block name
  | LabelsOf block name axis => py_part_labels p s block name axis
  | GradientsList block => py_gradients_list p s block
  | NewList items => py_new_list s items
  | SetList o items => py_set_list s o items
  | ItemOf o index => py_list_item s o index
  | NewTensor keys labels blocks => py_new_tensor p s keys labels blocks
  | KeysOf tensor => py_keys p s tensor
  | BlockOf tensor index => py_block_at p s tensor index
  | Matching tensor count selection labels => py_matching p s tensor count selection labels
  | KeysToProperties tensor keys labels sort temporary creators =>
      py_move_keys p s tensor labels creators (fun t => TensorKeysToProperties t keys sort temporary)
  | KeysToSamples tensor keys labels sort temporary creators =>
      py_move_keys p s tensor labels creators (fun t => TensorKeysToSamples t keys sort temporary)
  | ComponentsToProperties tensor variables => py_components_to_properties p s tensor variables
  | Load path names temporary => py_load p s path names temporary
  | Save path tensor system remains => py_save p s path tensor system remains
  | Read view => py_read s view
  | AsArray view => py_as_array s view
  | Forget objects => py_forget s objects
  | Collect objects => py_collect p s objects
  end.

(* The statements one after the other; exceptions are caught. The program ends
   when the library ends it, or anything undefined happens. *)
Fixpoint py_run (p : profile) (s : py_state) (program : list statement) : outcome py_state :=
  match program with
  | [] => Ok s
  | st :: rest =>
      match py_step p s st with
      | (s, Ok _) | (s, Err _) => py_run p s rest
      | (_, Panic m) => Panic m
      | (_, Undefined reason) => Undefined reason
      end
  end.
