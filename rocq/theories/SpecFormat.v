(* The format of NPY files and the layout of the archives, from the documentation
   of NumPy (numpy.lib.format) and of the library (src/io/mod.rs:20-48),
   independent of the way the library reads and writes them. *)
From Coq Require Import Permutation.
From Verif Require Import Base Labels Array Block Tensor Npy Spec SpecIo.
Local Open Scope string_scope.
Local Open Scope list_scope.
Local Open Scope nat_scope.

(** * Python literals *)

(* tabulations, ends of line, form feeds and spaces *)
Definition blank (b : bytes) : Prop := Forall (fun c => In (nat_of_ascii c) [9; 10; 12; 13; 32]) b.

(* ASCII characters which stand for themselves between two quotes [q] *)
Definition plain (q : ascii) (s : string) : Prop :=
  Forall (fun c => nat_of_ascii c < 128 /\ c <> q /\ ~ In (nat_of_ascii c) [10; 13; 92]) (list_ascii_of_string s).

(* a number in base 10, without useless zeros *)
Definition decimal (b : bytes) (z : Z) : Prop :=
  b <> [] /\ Forall (fun c => 48 <= nat_of_ascii c <= 57) b
  /\ (forall r, b = "0"%char :: r -> r = [])
  /\ z = fold_left (fun z c => (10 * z + Z.of_nat (nat_of_ascii c - 48))%Z) b 0%Z.

(* [spelling v b]: the text [b] is a way to write the value [v] in Python.
   Blanks are accepted between all tokens, and a comma after the last item; a
   tuple with a single item needs this comma. *)
Inductive spelling : py_value -> bytes -> Prop :=
| sp_string q s : q = "'"%char \/ q = """"%char -> plain q s ->
    spelling (PyString s) (q :: list_ascii_of_string s ++ [q])
| sp_integer b z : decimal b z -> spelling (PyInteger z) b
| sp_true : spelling (PyBoolean true) (list_ascii_of_string "True")
| sp_false : spelling (PyBoolean false) (list_ascii_of_string "False")
| sp_none : spelling PyNone (list_ascii_of_string "None")
| sp_tuple comma l b : items comma l b -> (length l = 1 -> comma = true) ->
    spelling (PyTuple l) ("("%char :: b ++ [")"%char])
| sp_list comma l b : items comma l b -> spelling (PyList l) ("["%char :: b ++ ["]"%char])
| sp_dict l b : entries l b -> spelling (PyDict l) ("{"%char :: b ++ ["}"%char])

with items : bool -> list py_value -> bytes -> Prop :=
| items_none s : blank s -> items true [] s
| items_last s1 v b s2 : blank s1 -> spelling v b -> blank s2 -> items false [v] (s1 ++ b ++ s2)
| items_more s1 v b s2 comma l r : blank s1 -> spelling v b -> blank s2 -> items comma l r ->
    items comma (v :: l) (s1 ++ b ++ s2 ++ ","%char :: r)

with entries : list (py_value * py_value) -> bytes -> Prop :=
| entries_none s : blank s -> entries [] s
| entries_last s1 k b s2 s3 v c s4 :
    blank s1 -> spelling k b -> blank s2 -> blank s3 -> spelling v c -> blank s4 ->
    entries [(k, v)] (s1 ++ b ++ s2 ++ ":"%char :: s3 ++ c ++ s4)
| entries_more s1 k b s2 s3 v c s4 l r :
    blank s1 -> spelling k b -> blank s2 -> blank s3 -> spelling v c -> blank s4 -> entries l r ->
    entries ((k, v) :: l) (s1 ++ b ++ s2 ++ ":"%char :: s3 ++ c ++ s4 ++ ","%char :: r).

(** * NPY files *)

(* an unsigned integer stored in [n] bytes *)
Definition stored (e : endianness) (n : nat) (b : bytes) (z : Z) : Prop :=
  length b = n /\ little_endian (match e with LittleEndian => b | BigEndian => rev b end) z.

(* a NPY file (version 1.0, 2.0 or 3.0): the type and the shape of the array, if
   the elements are in Fortran order, and the bytes of the elements *)
Definition npy_format (h : header) (content f : bytes) : Prop :=
  exists major field l text padding,
    f = ascii_of_nat 147 :: list_ascii_of_string "NUMPY" ++ [ascii_of_nat major; ascii_of_nat 0] ++ field
        ++ (text ++ padding ++ [ascii_of_nat 10]) ++ content
    /\ ((major = 1 /\ length field = 2) \/ ((major = 2 \/ major = 3) /\ length field = 4))
    /\ little_endian field (Z.of_nat (length (text ++ padding ++ [ascii_of_nat 10])))
    /\ Permutation l [(PyString "descr", h_descriptor h); (PyString "fortran_order", PyBoolean (h_fortran_order h));
                      (PyString "shape", PyTuple (map PyInteger (h_shape h)))]
    /\ spelling (PyDict l) text /\ blank padding.

(* an array in C order with the given type, shape and content *)
Definition npy_file (descr : py_value) (shape : list Z) (content f : bytes) : Prop :=
  npy_format (mk_header descr false shape) content f.

(* a structured array with one 32-bit integer for each variable *)
Definition labels_file (l : Labels) (f : bytes) : Prop :=
  exists e numbers,
    npy_file
      (PyList (map (fun name => PyTuple [PyString name; PyString match e with LittleEndian => "<i4" | BigEndian => ">i4" end])
                   (labels_names l)))
      [Z.of_nat (length (rows l))] (concat numbers) f
    /\ Forall2 (stored e 4) numbers (map (fun z => (z mod 2 ^ 32)%Z) (concat (rows l))).

(* an array of 64-bit floating point numbers *)
Definition data_file (a : eqs_array) (f : bytes) : Prop :=
  exists e numbers,
    npy_file (PyString match e with LittleEndian => "<f8" | BigEndian => ">f8" end)
      (map Z.of_nat (nd_shape (a_nd a))) (concat numbers) f
    /\ Forall2 (stored e 8) numbers (nd_data (a_nd a)).

(** * Archives *)

Definition number (i : nat) (n : string) : Prop := decimal (list_ascii_of_string n) (Z.of_nat i).

(* the path of each file, and what it contains *)
Inductive documented (t : TensorMap) : string -> (bytes -> Prop) -> Prop :=
| doc_keys : documented t "keys.npy" (labels_file (tm_keys t))
| doc_samples i n b : nth_error (tm_blocks t) i = Some b -> number i n ->
    documented t ("blocks/" +++ n +++ "/values/samples.npy") (labels_file (bb_samples (tb_values b)))
| doc_component i n b j m c : nth_error (tm_blocks t) i = Some b -> number i n ->
    nth_error (bb_components (tb_values b)) j = Some c -> number j m ->
    documented t ("blocks/" +++ n +++ "/values/components/" +++ m +++ ".npy") (labels_file c)
| doc_properties i n b : nth_error (tm_blocks t) i = Some b -> number i n ->
    documented t ("blocks/" +++ n +++ "/values/properties.npy") (labels_file (bb_properties (tb_values b)))
| doc_data i n b : nth_error (tm_blocks t) i = Some b -> number i n ->
    documented t ("blocks/" +++ n +++ "/values/data.npy") (data_file (bb_data (tb_values b)))
| doc_gradient_samples i n b q g : nth_error (tm_blocks t) i = Some b -> number i n -> In (q, g) (tb_gradients b) ->
    documented t ("blocks/" +++ n +++ "/gradients/" +++ q +++ "/samples.npy") (labels_file (bb_samples g))
| doc_gradient_component i n b q g j m c :
    nth_error (tm_blocks t) i = Some b -> number i n -> In (q, g) (tb_gradients b) ->
    nth_error (bb_components g) j = Some c -> number j m ->
    documented t ("blocks/" +++ n +++ "/gradients/" +++ q +++ "/components/" +++ m +++ ".npy") (labels_file c)
| doc_gradient_data i n b q g : nth_error (tm_blocks t) i = Some b -> number i n -> In (q, g) (tb_gradients b) ->
    documented t ("blocks/" +++ n +++ "/gradients/" +++ q +++ "/data.npy") (data_file (bb_data g)).

(* the files in the archive are the documented ones, each with the documented
   content; the writer is free to choose their order, their version and
   endianness, and the layout of their headers *)
Definition conforming (t : TensorMap) (a : list (string * bytes)) : Prop :=
  NoDup (map fst a)
  /\ (forall path f, In (path, f) a -> exists content, documented t path content)
  /\ (forall path content, documented t path content -> exists f, In (path, f) a /\ content f).
