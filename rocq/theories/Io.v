(* Model of load and save, src/io/mod.rs *)
From Verif Require Import Base Labels Array Block Tensor Npy.
Local Open Scope string_scope.
Local Open Scope list_scope.
Local Open Scope nat_scope.

(* The content of a ZIP archive: the path and content of the files. The ZIP
   container itself (zip crate: records, checksums, limits on the length of
   paths, I/O errors) is not modelled. *)
Definition archive : Type := list (string * bytes).

(* ZipArchive::by_name: when several files have the same name, the last one *)
Definition by_name (a : archive) (path : string) : outcome bytes :=
  match hm_get String.eqb (rev a) path with
  | Some content => Ok content
  | None => Err (Serialization ("specified file not found in archive: " +++ path))
  end.

(* the directory of the values or of a gradient of a block *)
Definition values_directory (block_i : nat) : string :=
  "blocks/" +++ string_of_nat block_i +++ "/values".
Definition gradient_directory (block_i : nat) (parameter : string) : string :=
  "blocks/" +++ string_of_nat block_i +++ "/gradients/" +++ parameter.
Definition component_path (directory : string) (i : nat) : string :=
  directory +++ "/components/" +++ string_of_nat i +++ ".npy".

(* str::starts_with, str::ends_with *)
Definition has_prefix (prefix s : string) : bool := String.prefix prefix s.
Definition has_suffix (suffix s : string) : bool :=
  (String.length suffix <=? String.length s)
  && String.eqb (substring (String.length s - String.length suffix) (String.length suffix) s) suffix.

(* src/io/mod.rs:57-64 -- the gradient parameters, from the names of the files.
   The two calls to split_at are done on character boundaries, since all the
   characters of the prefix and of the suffix are ASCII. *)
Fixpoint gradient_parameters (names : list string) : outcome (list string) :=
  match names with
  | [] => Ok []
  | name :: names =>
      let? parameter :=
        if has_prefix "blocks/0/gradients/" name && has_suffix "/data.npy" name then
          let parameter := substring 19 (String.length name - 19) name in
          if String.length parameter <? 9 then Panic "attempt to subtract with overflow"
          else Ok [substring 0 (String.length parameter - 9) parameter]
        else Ok [] in
      let? others := gradient_parameters names in
      Ok (parameter ++ others)
  end.

(* src/io/mod.rs:77-81 and 97-102 -- the components. With less than two axes
   the subtraction overflows: in release builds the loop then runs until the
   first file which does not exist, at the latest after as many files as there
   are in the archive. *)
Definition read_components (p : profile) (a : archive) (directory : string) (shape : list nat)
  : outcome (list Labels) :=
  let? n :=
    if length shape <? 2 then
      match p with
      | Debug => Panic "attempt to subtract with overflow"
      | Release => Ok (S (length a))
      end
    else Ok (length shape - 2) in
  mapM (fun i => let? file := by_name a (component_path directory i) in read_labels p file) (seq 0 n).

(* src/io/mod.rs:88-103 -- one iteration of the loop over the gradients *)
Definition load_gradient (p : profile) (a : archive) (block_i : nat) (block : TensorBlock)
    (parameter : string) : outcome TensorBlock :=
  let directory := gradient_directory block_i parameter in
  let? file := by_name a (directory +++ "/data.npy") in
  let? data := read_data p file in
  let? file := by_name a (directory +++ "/samples.npy") in
  let? samples := read_labels p file in
  let? components := read_components p a directory (nd_shape data) in
  let '(block, result) := tensor_block_add_gradient block parameter (rust_ndarray data) samples components in
  let? _ := result in
  Ok block.

(* src/io/mod.rs:67-107 -- one iteration of the loop over the blocks *)
Definition load_block (p : profile) (a : archive) (parameters : list string) (block_i : nat)
  : outcome TensorBlock :=
  let directory := values_directory block_i in
  let? file := by_name a (directory +++ "/data.npy") in
  let? data := read_data p file in
  let? file := by_name a (directory +++ "/samples.npy") in
  let? samples := read_labels p file in
  let? components := read_components p a directory (nd_shape data) in
  let? file := by_name a (directory +++ "/properties.npy") in
  let? properties := read_labels p file in
  let? block := tensor_block_new (rust_ndarray data) samples components properties in
  foldM (load_gradient p a block_i) parameters block.

(* src/io/mod.rs:50-110 -- load. [names] is what ZipArchive::file_names lists:
   the keys of a hash map, so every name once, in an arbitrary order. *)
Definition load (p : profile) (names : list string) (a : archive) : outcome TensorMap :=
  let? file := by_name a "keys.npy" in
  let? keys := read_labels p file in
  let? parameters := gradient_parameters names in
  let? count := labels_count keys in
  let? blocks := mapM (load_block p a parameters) (seq 0 count) in
  tensor_map_new keys blocks.

(* one file with labels, src/io/mod.rs:125-127 and others *)
Definition save_labels (e : endianness) (path : string) (l : Labels) : outcome archive :=
  let? file := write_labels e l in Ok [(path, file)].

Definition save_data (e : endianness) (path : string) (data : eqs_array) : outcome archive :=
  let? file := write_data e data in Ok [(path, file)].

(* src/io/mod.rs:138-142 and 157-161 *)
Fixpoint save_components (e : endianness) (directory : string) (i : nat) (components : list Labels)
  : outcome archive :=
  match components with
  | [] => Ok []
  | component :: rest =>
      let? first := save_labels e (component_path directory i) component in
      let? others := save_components e directory (i + 1) rest in
      Ok (first ++ others)
  end.

(* src/io/mod.rs:148-162 -- loop over the gradients *)
Fixpoint save_gradients (e : endianness) (block_i : nat) (gradients : list (string * BasicBlock))
  : outcome archive :=
  match gradients with
  | [] => Ok []
  | (parameter, gradient) :: rest =>
      let directory := gradient_directory block_i parameter in
      let? data := save_data e (directory +++ "/data.npy") (bb_data gradient) in
      let? samples := save_labels e (directory +++ "/samples.npy") (bb_samples gradient) in
      let? components := save_components e directory 0 (bb_components gradient) in
      let? others := save_gradients e block_i rest in
      Ok (data ++ samples ++ components ++ others)
  end.

(* src/io/mod.rs:129-163 -- loop over the blocks *)
Fixpoint save_blocks (e : endianness) (block_i : nat) (blocks : list TensorBlock) : outcome archive :=
  match blocks with
  | [] => Ok []
  | block :: rest =>
      let directory := values_directory block_i in
      let values := tb_values block in
      let? data := save_data e (directory +++ "/data.npy") (bb_data values) in
      let? samples := save_labels e (directory +++ "/samples.npy") (bb_samples values) in
      let? components := save_components e directory 0 (bb_components values) in
      let? properties := save_labels e (directory +++ "/properties.npy") (bb_properties values) in
      let? gradients := save_gradients e block_i (tb_gradients block) in
      let? others := save_blocks e (block_i + 1) rest in
      Ok (data ++ samples ++ components ++ properties ++ gradients ++ others)
  end.

(* src/io/mod.rs:117-168 -- save *)
Definition save (e : endianness) (t : TensorMap) : outcome archive :=
  let? keys := save_labels e "keys.npy" (tm_keys t) in
  let? blocks := save_blocks e 0 (tm_blocks t) in
  Ok (keys ++ blocks).
