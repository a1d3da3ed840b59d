(* Vocabulary for the properties of files, independent of the way they are read
   and written *)
From Verif Require Import Base Labels Array Block Tensor Npy Spec.
Local Open Scope nat_scope.

(* text made of ASCII characters only *)
Definition ascii_text (s : string) : Prop :=
  Forall (fun c => nat_of_ascii c < 128) (list_ascii_of_string s).

(* a Python literal where all texts are ASCII *)
Inductive ascii_literal : py_value -> Prop :=
| ascii_string s : ascii_text s -> ascii_literal (PyString s)
| ascii_integer z : ascii_literal (PyInteger z)
| ascii_tuple l : Forall ascii_literal l -> ascii_literal (PyTuple l)
| ascii_list l : Forall ascii_literal l -> ascii_literal (PyList l)
| ascii_dict l :
    Forall (fun kv => ascii_literal (fst kv) /\ ascii_literal (snd kv)) l -> ascii_literal (PyDict l)
| ascii_boolean b : ascii_literal (PyBoolean b)
| ascii_none : ascii_literal PyNone.

(* lengths which fit in 64 bits *)
Definition usize_shape (shape : list Z) : Prop := Forall (fun n => 0 <= n < 2 ^ 64)%Z shape.

(* the number stored least significant byte first *)
Inductive little_endian : list ascii -> Z -> Prop :=
| le_nil : little_endian [] 0
| le_cons c b z : little_endian b z -> little_endian (c :: b) (Z.of_nat (nat_of_ascii c) + 256 * z).

Definition int32 (z : Z) : Prop := (- 2 ^ 31 <= z < 2 ^ 31)%Z.
Definition bits64 (z : Z) : Prop := (0 <= z < 2 ^ 64)%Z.

(* shapes an array in memory can have: the number of elements, and the product
   of the lengths which are not zero, are limited *)
Definition elements (shape : list nat) : nat := fold_right Nat.mul 1 shape.

Definition storable (shape : list nat) : Prop :=
  (Z.of_nat (elements (filter (fun n => negb (n =? 0)%nat) shape)) < 2 ^ 63)%Z
  /\ (8 * Z.of_nat (elements shape) < 2 ^ 63)%Z.

(* an array of 64-bit floating point numbers (as bits) with one element per
   multi-index *)
Definition float_array (a : eqs_array) : Prop :=
  Forall bits64 (nd_data (a_nd a))
  /\ length (nd_data (a_nd a)) = elements (nd_shape (a_nd a))
  /\ storable (nd_shape (a_nd a)).

(* labels which fit in memory: 32-bit values *)
Definition labels_in_memory (l : Labels) : Prop :=
  Forall int32 (l_values l) /\ (4 * Z.of_nat (length (l_values l)) < 2 ^ 63)%Z.

(* number of characters in all the names *)
Definition text_size (names : list string) : nat := fold_right (fun s n => String.length s + n) 0 names.

(** * Tensor maps *)

(* all the labels and arrays stored in a block *)
Definition basic_labels (b : BasicBlock) : list Labels :=
  bb_samples b :: bb_components b ++ [bb_properties b].

Definition parts_of_block (b : TensorBlock) : list BasicBlock := tb_values b :: map snd (tb_gradients b).

(* everything fits in the memory of a 64-bit machine *)
Definition basic_in_memory (b : BasicBlock) : Prop :=
  Forall labels_in_memory (basic_labels b)
  /\ Forall bits64 (nd_data (a_nd (bb_data b))) /\ storable (nd_shape (a_nd (bb_data b))).

Definition tensor_in_memory (t : TensorMap) : Prop :=
  labels_in_memory (tm_keys t)
  /\ forall b part, In b (tm_blocks t) -> In part (parts_of_block b) -> basic_in_memory part.

(* reasonable numbers of variables and of axes, to be able to describe the
   content of the files in their headers *)
Definition describable_labels (l : Labels) : Prop :=
  (Z.of_nat (14 * length (l_names l) + text_size (l_names l)) < 2 ^ 31)%Z.

Definition describable_basic (b : BasicBlock) : Prop :=
  Forall describable_labels (basic_labels b)
  /\ (Z.of_nat (length (nd_shape (a_nd (bb_data b)))) < 2 ^ 20)%Z.

Definition describable (t : TensorMap) : Prop :=
  describable_labels (tm_keys t)
  /\ forall b part, In b (tm_blocks t) -> In part (parts_of_block b) -> describable_basic part.

(* not stored in the EmptyArray of the Rust API, which has no elements *)
Definition has_elements (t : TensorMap) : Prop :=
  forall b part, In b (tm_blocks t) -> In part (parts_of_block b) -> a_kind (bb_data part) <> RustEmptyArray.

(* stored in ndarrays, with any layout *)
Definition in_ndarrays (t : TensorMap) : Prop :=
  forall b part, In b (tm_blocks t) -> In part (parts_of_block b) -> a_kind (bb_data part) = RustNdarray.

(* the numbers can be accessed through eqs_array_t.data *)
Definition readable (a : eqs_array) : Prop := exists numbers, array_data a = Ok numbers.

Definition readable_tensor (t : TensorMap) : Prop :=
  forall b part, In b (tm_blocks t) -> In part (parts_of_block b) -> readable (bb_data part).

(* the component with this name is the one before last, and moving it to a single
   property leaves the two last axes exchanged in memory *)
Definition left_exchanged (b : BasicBlock) (name : string) : Prop :=
  exists pre moved last, bb_components b = pre ++ [moved; last] /\ labels_names moved = [name]
    /\ 2 <= length (rows moved) /\ 2 <= length (rows last) /\ length (rows (bb_properties b)) = 1
    /\ rows (bb_samples b) <> [] /\ Forall (fun c => rows c <> []) pre.

(* no C string can hold the byte 0 *)
Definition c_parameters (t : TensorMap) : Prop :=
  forall b q g, In b (tm_blocks t) -> In (q, g) (tb_gradients b) ->
    ~ In Ascii.zero (list_ascii_of_string q).

(* same labels, shape and numbers *)
Definition same_basic (b1 b2 : BasicBlock) : Prop :=
  Forall2 same_labels (basic_labels b1) (basic_labels b2)
  /\ nd_shape (a_nd (bb_data b1)) = nd_shape (a_nd (bb_data b2))
  /\ nd_data (a_nd (bb_data b1)) = nd_data (a_nd (bb_data b2)).

Definition same_gradients (b1 b2 : TensorBlock) : Prop :=
  forall q g1, In (q, g1) (tb_gradients b1) -> exists g2, In (q, g2) (tb_gradients b2) /\ same_basic g1 g2.

Definition same_block (b1 b2 : TensorBlock) : Prop :=
  same_basic (tb_values b1) (tb_values b2)
  /\ length (tb_gradients b1) = length (tb_gradients b2)
  /\ same_gradients b1 b2 /\ same_gradients b2 b1.

Definition same_tensor (t1 t2 : TensorMap) : Prop :=
  same_labels (tm_keys t1) (tm_keys t2) /\ Forall2 same_block (tm_blocks t1) (tm_blocks t2).

(** * Arbitrary files *)

(* the call returns, with a value or an error *)
Definition no_crash {A} (o : outcome A) : Prop :=
  match o with Ok _ | Err _ => True | Panic _ | Undefined _ => False end.

(* the names of the fields in a type descriptor *)
Definition field_names (fields : list py_value) : list string :=
  flat_map (fun field => match field with PyTuple [PyString name; _] => [name] | _ => [] end) fields.

(* what load expects from the content of all files without checking it: shapes
   which fit in memory, at least two axes for data; for labels at least one
   variable, valid and different names for the variables, and different rows *)
Definition sane_file (f : bytes) : Prop :=
  forall h rest, header_from_reader f = Ok (h, rest) ->
    storable (map Z.to_nat (h_shape h))
    /\ (forall s, h_descriptor h = PyString s -> 2 <= length (h_shape h))
    /\ (forall fields, h_descriptor h = PyList fields ->
        fields <> [] /\ good_names (field_names fields)
        /\ (forall count, h_shape h = [count] -> 4 * (count * Z.of_nat (length fields)) < 2 ^ 63)%Z
        /\ forall byte_rows, rest = concat byte_rows ->
             Forall (fun r => length r = length fields * 4) byte_rows -> NoDup byte_rows).

(* what load expects from the names of the files *)
Definition sane_name (name : string) : Prop :=
  name <> "blocks/0/gradients/data.npy"%string /\ ~ In Ascii.zero (list_ascii_of_string name).
