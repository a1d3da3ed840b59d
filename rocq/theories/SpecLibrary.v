(* What is needed to state the properties of Library.v *)
From Verif Require Import Base Labels Array Block Tensor Npy Io Origin CApi Spec SpecTensor SpecPy Strided Library.
Local Open Scope string_scope.
Local Open Scope list_scope.
Local Open Scope nat_scope.

(* the state before call number [i] *)
Definition library_state (b : build) (p : profile) (w : world) (calls : list (nat * library_call)) (i : nat) : world :=
  fst (library_run b p w (firstn i calls)).

(* call number [i] is [c], made by [thread]; it ended with [result] and gave [v] *)
Definition library_called (b : build) (p : profile) (w : world) (calls : list (nat * library_call)) (i thread : nat)
    (c : library_call) (v : library_value) (result : c_result) : Prop :=
  nth_error calls i = Some (thread, c) /\ nth_error (snd (library_run b p w calls)) i = Some (v, result).

(* the content of a file, None if there is no such file *)
Definition file_at (w : world) (name : string) : option file := hm_get String.eqb (w_files w) name.

(* the path is a C string in UTF-8, for the file with this name *)
Definition names_file (path : option string) (name : string) : Prop :=
  exists memory, path = Some memory /\ c_str memory = name
    /\ is_utf8 (S (length (list_ascii_of_string name))) (list_ascii_of_string name) = true.

(* everything but the files, the origins and the messages of errors *)
Definition same_objects (w w' : world) : Prop :=
  w_blocks w' = w_blocks w /\ w_tensors w' = w_tensors w /\ w_destroyed w' = w_destroyed w
  /\ w_next_handle w' = w_next_handle w /\ w_next_array w' = w_next_array w.

(* a name which was registered by the program, or by the library for its own arrays *)
Definition library_registered (b : build) (p : profile) (w : world) (calls : list (nat * library_call)) (i : nat)
    (name : string) (id : nat) : Prop :=
  (exists thread memory, library_called b p w calls i thread (Call (RegisterDataOrigin (Some memory) out)) (Plain (VOrigin id)) (Returned 0)
    /\ name = c_str memory)
  \/ (exists thread a, library_called b p w calls i thread (ArrayOrigin a) (Plain (VOrigin id)) (Returned 0)
       /\ ((a_kind a = RustNdarray /\ name = "rust.ndarray") \/ (a_kind a = RustEmptyArray /\ name = "rust.EmptyArray"))).

(* the element at [idx] is where it is in a row-major array *)
Definition row_major_numbers (a : strided) (numbers : list Z) : Prop :=
  forall idx, in_bounds (st_shape a) idx -> nth_error numbers (offset (st_shape a) idx) = Some (st_get a idx).

(* an array which is not from Rust, with a function origin which gives this identifier *)
Definition answers_origin (a : eqs_array) (origin : nat) : Prop :=
  a_kind a = ForeignArray origin /\ (a_callbacks a OpOrigin = Works \/ a_callbacks a OpOrigin = Fails 0).
