(* What is said about the labels of Python, independently of how they are given
   to the library *)
From Verif Require Import Base Labels Spec Block Tensor SpecTensor CApi SpecApi PyLabels.
Local Open Scope string_scope.
Local Open Scope list_scope.
Local Open Scope nat_scope.

(* the labels a Python program can have: new ones, the ones of the library, and
   parts of these *)
Inductive python_labels : py_labels -> Prop :=
| made_new : forall names columns values l,
    Forall (fun row => length row = columns) values -> labels_new names columns values = Ok l -> python_labels l
| from_library : forall labels c l,
    axis_labels labels -> labels_to_c labels = Ok c -> from_eqs_labels c = Ok l -> python_labels l
| sliced : forall l first step number,
    python_labels l -> step <> 0%Z ->
    (forall k, k < number -> (0 <= Z.of_nat first + Z.of_nat k * step < Z.of_nat (pl_count l))%Z) ->
    python_labels (py_slice l first step number)
| selected_fields : forall l names l',
    python_labels l -> py_select l names = Ok l' -> python_labels l'
| taken : forall l indexes,
    python_labels l -> Forall (fun i => i < pl_count l) indexes -> python_labels (py_take l indexes).

(* the ones which are made without labels[::step] (and a step which is not one) or
   labels[["a", "b"]] *)
Inductive plain_labels : py_labels -> Prop :=
| plain_new : forall names columns values l,
    Forall (fun row => length row = columns) values -> labels_new names columns values = Ok l -> plain_labels l
| plain_library : forall labels c l,
    axis_labels labels -> labels_to_c labels = Ok c -> from_eqs_labels c = Ok l -> plain_labels l
| plain_slice : forall l first number,
    plain_labels l -> first + number <= pl_count l -> plain_labels (py_slice l first 1 number)
| plain_take : forall l indexes,
    plain_labels l -> Forall (fun i => i < pl_count l) indexes -> plain_labels (py_take l indexes).

(* the entries are next to each other, and so are the fields of each entry *)
Definition packed (l : py_labels) : Prop :=
  (2 <= pl_count l -> pl_stride l = Z.of_nat (length (pl_fields l)))
  /\ (1 <= pl_count l -> map snd (pl_fields l) = seq 0 (length (pl_fields l))).

(* the same labels, with something else in memory *)
Definition with_memory (l : py_labels) (memory : list Z) : py_labels :=
  mk_py_labels memory (pl_start l) (pl_stride l) (pl_count l) (pl_item l) (pl_fields l) (pl_library l).

(* the library reads the same entries, from existing memory *)
Definition same_in_library (l : py_labels) : Prop :=
  readable (as_eqs_labels l) /\ c_rows (as_eqs_labels l) = py_rows l.

(* an integer, and what remains of it in 32 bits *)
Definition same_32_bits (a b : Z) : Prop := is_i32 b = true /\ exists k, a = (b + k * 2 ^ 32)%Z.

(* the key [i] of a tensor map has these values *)
Definition key_agrees (t : TensorMap) (keywords : list (string * Z)) (i : nat) : Prop :=
  exists key, nth_error (rows (tm_keys t)) i = Some key
    /\ forall name value, In (name, value) keywords -> In (name, value) (combine (labels_names (tm_keys t)) key).

(* this pointer gives the block [i] of a tensor map *)
Definition points_to_block (w : world) (t : TensorMap) (i : nat) (pointer : block_ptr) : Prop :=
  exists b, points_to w pointer b /\ nth_error (tm_blocks t) i = Some (ob_block b).

(* a function raises an exception *)
Definition raises {A} (o : outcome A) : Prop := exists e, o = Err e.

(* what the documentation of the C API says about functions which write a text to
   a buffer: the text and a NUL when there is space for both, and a status of
   EQS_BUFFER_SIZE_ERROR if there is not *)
Definition writes_text (callback : list ascii -> world * c_value * c_result) (text : string) : Prop :=
  forall buffer,
    (String.length text < length buffer ->
       exists w rest, callback buffer = (w, VText (list_ascii_of_string text ++ nul :: rest), Returned 0%Z))
    /\ (length buffer <= String.length text -> exists w buffer', callback buffer = (w, VText buffer', Returned 254%Z)).
