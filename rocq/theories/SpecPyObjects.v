(* Specification vocabulary, part 8: the objects of Python programs.

   Only the data types of the model and [py_run] are used. *)
From Coq Require Import Permutation.
From Verif Require Import Base Labels Array Block Tensor Npy Io Origin CApi Spec SpecTensor SpecIo SpecApi PyIo PyObjects.
Local Open Scope list_scope.
Local Open Scope nat_scope.

(* this object exists *)
Definition object_is (s : py_state) (o : nat) (x : py_object) : Prop := In (o, x) (py_objects s).

(* number of times the keys of a tensor map were moved, or an array was changed in
   place *)
Definition moves (s : py_state) (tensor : nat) : nat := count_occ Nat.eq_dec (py_moved s) tensor.
Definition changes (s : py_state) (array : nat) : nat := count_occ Nat.eq_dec (py_changed s) array.

(** * Careful programs *)

(* a block which was not obtained from a tensor map before its keys were moved *)
Definition current_block (s : py_state) (o : nat) : Prop :=
  forall tensor index before owning wrappers parent,
    object_is s o (PyBlock (BlockIn tensor index) before owning wrappers parent) -> before = moves s tensor.

(* an array or labels obtained from a block which was not moved to a tensor map
   since, or from the keys of a tensor map, and not changed since *)
Definition current_view (s : py_state) (o : nat) : Prop :=
  forall m parent, object_is s o (PyView m parent) ->
  exists source x, parent = Some source /\ object_is s source x
    /\ match m, x with
       | KeysMemory tensor before, PyTensor _ _ => before = moves s tensor
       | PartMemory array before, PyBlock ptr _ _ _ _ =>
           ptr <> BlockNull /\ current_block s source /\ before = changes s array
       | _, _ => False
       end.

(* a block which can be changed *)
Definition owning_block (s : py_state) (o : nat) : Prop :=
  forall ptr before owning wrappers parent, object_is s o (PyBlock ptr before owning wrappers parent) -> owning = true.

(* the blocks in a list are not already in a tensor map *)
Definition fresh_blocks (s : py_state) (o : nat) : Prop :=
  forall items item ptr before owning wrappers parent, object_is s o (PyList items) -> In item items ->
    object_is s item (PyBlock ptr before owning wrappers parent) -> ptr <> BlockNull.

(* a list which was not given to TensorMap() *)
Definition unused_list (s : py_state) (o : nat) : Prop :=
  forall t ptr, ~ object_is s t (PyTensor ptr (Some o)).

(* all the arrays of a tensor map come from the same library *)
Definition same_origin (s : py_state) (o : nat) : Prop :=
  forall ptr blocks, object_is s o (PyTensor ptr blocks) -> mergeable (py_world s) (Some ptr).

(* what Python programs should do with blocks, arrays and labels. [labels] are the
   labels given to a function which are views. *)
Definition careful_statement (s : py_state) (st : statement) : Prop :=
  match st with
  | NewBlock _ view samples components properties labels =>
      view = None /\ readable samples /\ Forall readable components /\ readable properties
      /\ Forall (current_view s) labels
  | CopyOf block | PartOf block _ | LabelsOf block _ _ | GradientsList block => current_block s block
  | AddGradient block _ _ view samples components labels =>
      view = None /\ readable samples /\ Forall readable components /\ Forall (current_view s) labels
      /\ owning_block s block
  | SetList o _ => unused_list s o
  | NewTensor keys labels blocks => readable keys /\ Forall (current_view s) labels /\ fresh_blocks s blocks
  | Matching _ _ selection labels => readable selection /\ Forall (current_view s) labels
  | KeysToProperties tensor keys labels _ _ _ | KeysToSamples tensor keys labels _ _ _ =>
      readable keys /\ Forall (current_view s) labels /\ same_origin s tensor
  | Read view => current_view s view
  | _ => True
  end.

(* every statement is used as it should, in the state where it is executed *)
Definition careful (p : profile) (files : list (string * file)) (program : list statement) : Prop :=
  forall before st after s, program = before ++ st :: after -> py_run p (py_start files) before = Ok s ->
  careful_statement s st.

(** * Owners *)

(* TensorMap() did not raise *)
Definition tensors_made (p : profile) (files : list (string * file)) (program : list statement) : Prop :=
  forall before keys labels blocks after s, program = before ++ NewTensor keys labels blocks :: after ->
  py_run p (py_start files) before = Ok s -> exists s' v, py_step p s (NewTensor keys labels blocks) = (s', Ok v).

(* the objects which will free a block or a tensor map of the library *)
Definition frees_block (s : py_state) (o handle : nat) : Prop :=
  exists before wrappers parent, object_is s o (PyBlock (BlockAt handle) before true wrappers parent).
Definition frees_tensor (s : py_state) (o handle : nat) : Prop :=
  exists blocks, object_is s o (PyTensor handle blocks).

(* the end of a program: nothing is used, and everything can be collected *)
Definition all_objects (s : py_state) : list nat := map fst (py_objects s).
Definition at_end (s : py_state) : list statement := [Forget (py_variables s); Collect (all_objects s)].

(* the objects that a program can still use *)
Inductive reachable (s : py_state) : nat -> Prop :=
| reachable_variable o : In o (py_variables s) -> reachable s o
| reachable_reference o x r : reachable s o -> object_is s o x -> In r (references x) -> reachable s r.

(* every statement but one is used as it should *)
Definition careful_but (p : profile) (files : list (string * file)) (program : list statement) (exception : nat) : Prop :=
  forall before st after s, program = before ++ st :: after -> length before <> exception ->
  py_run p (py_start files) before = Ok s -> careful_statement s st.
