(* Model of what depends on the features of the build (Cargo.toml, src/lib.rs:34-46),
   of eqs_get_rust_array (src/c_api/data.rs:77-105), and of the origins which the library
   registers for its own arrays (src/data.rs:662-665 and 737-739). The other functions are
   the ones of CApi.v. *)
From Verif Require Import Base Labels Array Block Tensor Npy Io Origin CApi.
Local Open Scope string_scope.
Local Open Scope list_scope.
Local Open Scope nat_scope.

(* Cargo.toml:17-28 -- the features; serialization activates ndarray. Nothing else in the
   sources depends on the other ones, except the parallel iterators (Iterators.v). *)
Inductive build := NoFeature | OnlyNdarray | WithSerialization.

Definition has_ndarray (b : build) : bool := match b with NoFeature => false | _ => true end.
Definition has_serialization (b : build) : bool := match b with WithSerialization => true | _ => false end.

(* src/lib.rs:38-45 -- io::load and io::save without the feature *)
Definition not_enabled {A} : outcome A := Err (Serialization "serialization was not enabled in equistore").

(* src/c_api/io.rs:20-48 -- eqs_tensormap_load: the file is opened first. Whatever is in the
   file, it is not read. *)
Definition load_without (w : world) (path : option string) : world * c_value * outcome unit :=
  (w, VTensor None [],
   let? path := check_pointer "path" path in
   let? path := c_str_to_str "use UTF-8 for path" path in
   match hm_get String.eqb (w_files w) path with
   | None => Err (IoError "No such file or directory (os error 2)")
   | Some _ => not_enabled
   end).

(* src/c_api/io.rs:56-71 -- eqs_tensormap_save: the file is created, or emptied, first. A
   file without content is not an archive. When [system] is an error the file can not be
   created. *)
Definition save_without (w : world) (path : option string) (tensor : option nat) (system : option string)
  : world * c_value * outcome unit :=
  let arguments :=
    let? path := check_pointer "path" path in
    let? handle := check_pointer "tensor" tensor in
    let? path := c_str_to_str "use UTF-8 for path" path in
    let? _ := match system with None => Ok tt | Some message => Err (IoError message) end in
    let? _ := get_tensor w handle in
    Ok path in
  match arguments with
  | Ok path => (write_file w path None, VNone, not_enabled)
  | failure => (w, VNone, let? _ := failure in Ok tt)
  end.

(** * The origins of the arrays of Rust *)

(* src/data.rs:662-665 -- NDARRAY_DATA_ORIGIN, and src/data.rs:737-739 --
   DUMMY_DATA_ORIGIN: registered when they are first used, and kept. Names stay in the
   registry, so registering them again gives the same identifier. *)
Definition ndarray_name : string := "rust.ndarray".
Definition empty_name : string := "rust.EmptyArray".

(* src/data.rs:272-287 -- origin, with the function of the arrays of Rust
   (src/data.rs:518-530) *)
Definition origin_of (r : registry) (a : eqs_array) : registry * outcome nat :=
  match a_kind a with
  | RustNdarray => let '(r, id) := register_data_origin r ndarray_name in (r, Ok id)
  | RustEmptyArray => let '(r, id) := register_data_origin r empty_name in (r, Ok id)
  | ForeignArray origin => (r, call a OpOrigin (Ok origin))
  end.

(* src/data.rs:457-467 -- as_array. The failure of the function origin is the origin 0; the
   message has the two origins, which are left out here. The pointer of an array with the
   right origin is used as a pointer to Box<dyn Array>. *)
Definition as_ndarray (r : registry) (a : eqs_array) : registry * outcome unit :=
  let '(r, origin) := origin_of r a in
  let compare id :=
    let '(r, expected) := register_data_origin r ndarray_name in
    (r, if id =? expected then
          match a_kind a with
          | RustNdarray => Ok tt
          | RustEmptyArray => Panic "invalid array type"
          | ForeignArray _ => Undefined "this is not a pointer to an array of Rust"
          end
        else Panic "assertion failed: this array was not created by rust ndarray") in
  match origin with
  | Ok id => compare id
  | Err _ => compare 0
  | Panic message => (r, Panic message)
  | Undefined reason => (r, Undefined reason)
  end.

(* What the outputs of eqs_get_rust_array hold: the numbers in memory from *data, and
   the shape *)
Inductive library_value :=
| Plain (v : c_value)
| RustArray (numbers : list Z) (shape : list nat).

(* src/c_api/data.rs:77-105 -- eqs_get_rust_array. [memory] is what is in memory where the
   elements of the array start, for the arrays of Rust (Strided.v). *)
Definition eqs_get_rust_array (b : build) (w : world) (array : option eqs_array) (memory : list Z)
    (data shape shape_count : out_ptr) : world * library_value * outcome unit :=
  let arguments :=
    let? array := check_pointer "array" array in
    let? _ := check_pointer "data" data in
    let? _ := check_pointer "shape" shape in
    let? _ := check_pointer "shape_count" shape_count in
    Ok array in
  match arguments with
  | Ok array =>
      if has_ndarray b then
        let '(origins, result) := as_ndarray (w_origins w) array in
        let w := set_origins w origins in
        match result with
        | Ok _ =>
            if is_standard_layout (nd_shape (a_nd array)) (a_strides array)
            then (w, RustArray memory (nd_shape (a_nd array)), Ok tt)
            else (w, Plain VNone, Panic "assertion failed: array.is_standard_layout()")
        | failure => (w, Plain VNone, failure)
        end
      else
        (w, Plain VNone,
         Err (Internal "support for rust ndarray is disabled, please recompile the code to activate it"))
  | failure => (w, Plain VNone, let? _ := failure in Ok tt)
  end.

(** * Programs *)

(* The calls of CApi.v, eqs_get_rust_array, and the uses of the origin of an array of
   Rust: its function origin, called by a program, or by add_gradient
   (src/blocks.rs:250-256). *)
Inductive library_call :=
| Call (c : c_call)
| GetRustArray (array : option eqs_array) (memory : list Z) (data shape shape_count : out_ptr)
| ArrayOrigin (array : eqs_array).

Definition library_body (b : build) (p : profile) (thread : nat) (w : world) (c : library_call)
  : world * library_value * outcome unit :=
  match c with
  | Call c =>
      let '(w, v, result) :=
        match c with
        | TensorLoad path names temporary =>
            if has_serialization b then call_body p thread w c else load_without w path
        | TensorSave path tensor system remains =>
            if has_serialization b then call_body p thread w c else save_without w path tensor system
        | _ => call_body p thread w c
        end in
      (w, Plain v, result)
  | GetRustArray array memory data shape shape_count => eqs_get_rust_array b w array memory data shape shape_count
  | ArrayOrigin array =>
      let '(origins, id) := origin_of (w_origins w) array in
      (set_origins w origins, Plain match id with Ok id => VOrigin id | _ => VNone end, let? _ := id in Ok tt)
  end.

Definition library_run_call (b : build) (p : profile) (thread : nat) (w : world) (c : library_call)
  : world * library_value * c_result :=
  let '(w, v, o) := library_body b p thread w c in
  let '(errors, result) := catch_unwind thread (w_errors w) o in
  (set_errors w errors, v, result).

(* the program ends at the first call which does not return, see [run] *)
Fixpoint library_run (b : build) (p : profile) (w : world) (calls : list (nat * library_call))
  : world * list (library_value * c_result) :=
  match calls with
  | [] => (w, [])
  | (thread, c) :: rest =>
      let '(w, v, result) := library_run_call b p thread w c in
      match result with
      | Returned _ =>
          let '(w, results) := library_run b p w rest in
          (w, (v, result) :: results)
      | _ => (w, [(v, result)])
      end
  end.
