(* Model of scripts/generate-declarations.py, which makes equistore/_c_api.py from
   include/equistore.h; and the content of these two files.

   The input is the AST of pycparser: the text of the header, its #define lines and
   qualifiers (const) are not described. The output is the Python expressions which
   are written to the file, as a tree, and not their text. *)
From Verif Require Import Base.
Local Open Scope string_scope.
Local Open Scope list_scope.
Local Open Scope nat_scope.

(* Types in pycparser: [CNames] is a TypeDecl with an IdentifierType (with the words
   of the type: "long" "double"), [CStructRef] and [CEnumRef] are TypeDecl with a
   Struct or an Enum, then PtrDecl, ArrayDecl and FuncDecl. *)
Inductive c_type :=
| CNames (words : list string)
| CStructRef (name : string)
| CEnumRef (name : string)
| CPointer (t : c_type)
| CArray (t : c_type) (dim : option nat)
| CFunction (result : c_type) (params : list c_type).

(* Declarations: [CTypedef] is for all the types which are not a struct or an enum *)
Inductive c_decl :=
| CTypedef (name : string) (t : c_type)
| CStruct (name : string) (members : list (string * c_type))
| CEnum (name : string) (values : list (string * nat))
| CDeclare (name : string) (result : c_type) (params : list c_type).

(* Python expressions: an identifier (with its module), POINTER(t),
   CFUNCTYPE(result, *args), and t * dim *)
Inductive py_type :=
| PyName (name : string)
| PyPointer (t : py_type)
| PyFunction (result : py_type) (args : list py_type)
| PyArray (t : py_type) (dim : nat).

(* restype of a function: the function _check_status or a type *)
Inductive py_result := CheckStatus | ResultType (t : py_type).

Record py_module := mk_module {
  pm_types : list (string * py_type);
  pm_enums : list (string * list (string * nat));
  pm_structs : list (string * list (string * py_type));
  pm_functions : list (string * (list py_type * py_result)) }.

Definition eqs_name (name : string) : bool := prefix "eqs_" name.

(* scripts/generate-declarations.py:100-116 -- c_type_name *)
Definition c_type_name (name : string) : string :=
  if eqs_name name then name
  else if (name =? "uintptr_t")%string then "c_uintptr_t"
  else if (name =? "void")%string then "None"
  else if (name =? "int32_t")%string then "ctypes.c_int32"
  else if (name =? "uint32_t")%string then "ctypes.c_uint32"
  else if (name =? "int64_t")%string then "ctypes.c_int64"
  else if (name =? "uint64_t")%string then "ctypes.c_uint64"
  else "ctypes.c_" +++ name.

(* scripts/generate-declarations.py:119-127 -- _typedecl_name. None is a failed
   assertion, here and in all the functions below. *)
Definition typedecl_name (t : c_type) : option string :=
  match t with
  | CStructRef name | CEnumRef name | CNames [name] => Some name
  | _ => None
  end.

Definition all_some {A B} (f : A -> option B) : list A -> option (list B) :=
  fix all (l : list A) : option (list B) :=
    match l with
    | [] => Some []
    | a :: l => match f a, all l with Some b, Some bs => Some (b :: bs) | _, _ => None end
    end.

(* scripts/generate-declarations.py:130-180 -- funcdecl_to_ctypes and
   type_to_ctypes *)
Fixpoint type_to_ctypes (t : c_type) : option py_type :=
  match t with
  | CPointer (CPointer (CPointer t)) =>
      match typedecl_name t with
      | Some name => if (name =? "char")%string then Some (PyPointer (PyPointer (PyName "ctypes.c_char_p"))) else None
      | None => None
      end
  | CPointer (CPointer t) =>
      match typedecl_name t with
      | Some name =>
          if (name =? "char")%string then Some (PyPointer (PyName "ctypes.c_char_p"))
          else Some (PyPointer (PyPointer (PyName (c_type_name name))))
      | None => None
      end
  | CPointer (CFunction result params) =>
      match type_to_ctypes result, all_some type_to_ctypes params with
      | Some result, Some args => Some (PyFunction result args)
      | _, _ => None
      end
  | CPointer t =>
      match typedecl_name t with
      | Some name =>
          if (name =? "void")%string then Some (PyName "ctypes.c_void_p")
          else if (name =? "char")%string then Some (PyName "ctypes.c_char_p")
          else Some (PyPointer (PyName (c_type_name name)))
      | None => None
      end
  | CArray t (Some dim) => option_map (fun t => PyArray t dim) (type_to_ctypes t)
  | CArray _ None => None
  | CFunction result params =>
      match type_to_ctypes result, all_some type_to_ctypes params with
      | Some result, Some args => Some (PyFunction result args)
      | _, _ => None
      end
  | t => option_map (fun name => PyName (c_type_name name)) (typedecl_name t)
  end.

(* scripts/generate-declarations.py:58-77 and 260-261 -- visit_Typedef keeps
   node.type.type, which is what a pointer refers to, the elements of an array, or the
   result of a function; and for an IdentifierType only the first word is used *)
Definition typedef_to_ctypes (t : c_type) : option py_type :=
  match t with
  | CNames (word :: _) => Some (PyName (c_type_name word))
  | CNames [] | CStructRef _ | CEnumRef _ => None
  | CPointer t | CArray t _ | CFunction t _ => type_to_ctypes t
  end.

(* scripts/generate-declarations.py:190-201 -- generate_structs *)
Definition members_to_ctypes (members : list (string * c_type)) : option (list (string * py_type)) :=
  all_some (fun '(name, t) => option_map (fun t => (name, t)) (type_to_ctypes t)) members.

(* scripts/generate-declarations.py:204-224 -- generate_functions *)
Definition function_to_ctypes (result : c_type) (params : list c_type) : option (list py_type * py_result) :=
  match all_some type_to_ctypes params, type_to_ctypes result with
  | Some args, Some restype =>
      Some (match args with [PyName name] => if (name =? "None")%string then [] else args | _ => args end,
            match restype with
            | PyName name => if (name =? "eqs_status_t")%string then CheckStatus else ResultType restype
            | _ => ResultType restype
            end)
  | _, _ => None
  end.

(* scripts/generate-declarations.py:41-77 and 227-266 -- AstVisitor and
   generate_declarations: everything with another name is ignored. Names are
   declared once, so that the dictionary of types has the order of the header. *)
Fixpoint generate (header : list c_decl) : option py_module :=
  match header with
  | [] => Some (mk_module [] [] [] [])
  | d :: header =>
      match generate header with
      | None => None
      | Some m =>
          match d with
          | CTypedef name t =>
              if eqs_name name then
                option_map (fun t => mk_module ((name, t) :: pm_types m) (pm_enums m) (pm_structs m) (pm_functions m))
                  (typedef_to_ctypes t)
              else Some m
          | CEnum name values =>
              if eqs_name name then Some (mk_module (pm_types m) ((name, values) :: pm_enums m) (pm_structs m) (pm_functions m))
              else Some m
          | CStruct name members =>
              if eqs_name name then
                option_map (fun members => mk_module (pm_types m) (pm_enums m) ((name, members) :: pm_structs m) (pm_functions m))
                  (members_to_ctypes members)
              else Some m
          | CDeclare name result params =>
              if eqs_name name then
                option_map (fun f => mk_module (pm_types m) (pm_enums m) (pm_structs m) ((name, f) :: pm_functions m))
                  (function_to_ctypes result params)
              else Some m
          end
      end
  end.

(** * The header *)

(* abbreviations *)
Definition c_name (name : string) : c_type := CNames [name].
Definition c_ptr (name : string) : c_type := CPointer (CNames [name]).
Definition c_struct (name : string) : c_type := CStructRef name.
Definition c_struct_ptr (name : string) : c_type := CPointer (CStructRef name).
Definition c_callback (params : list c_type) : c_type := CPointer (CFunction (CNames ["eqs_status_t"]) params).
Definition c_function (name : string) (params : list c_type) : c_decl := CDeclare name (CNames ["eqs_status_t"]) params.

(* include/equistore.h *)
Definition equistore_h : list c_decl := [
  CStruct "eqs_block_t" [];
  CStruct "eqs_tensormap_t" [];
  CTypedef "eqs_status_t" (c_name "int32_t");
  CStruct "eqs_labels_t" [
    ("labels_ptr", c_ptr "void"); ("names", CPointer (c_ptr "char")); ("values", c_ptr "int32_t");
    ("size", c_name "uintptr_t"); ("count", c_name "uintptr_t")];
  CTypedef "eqs_data_origin_t" (c_name "uint64_t");
  CStruct "eqs_sample_mapping_t" [("input", c_name "uintptr_t"); ("output", c_name "uintptr_t")];
  CStruct "eqs_array_t" [
    ("ptr", c_ptr "void");
    ("origin", c_callback [c_ptr "void"; c_ptr "eqs_data_origin_t"]);
    ("data", c_callback [c_ptr "void"; CPointer (c_ptr "double")]);
    ("shape", c_callback [c_ptr "void"; CPointer (c_ptr "uintptr_t"); c_ptr "uintptr_t"]);
    ("reshape", c_callback [c_ptr "void"; c_ptr "uintptr_t"; c_name "uintptr_t"]);
    ("swap_axes", c_callback [c_ptr "void"; c_name "uintptr_t"; c_name "uintptr_t"]);
    ("create", c_callback [c_ptr "void"; c_ptr "uintptr_t"; c_name "uintptr_t"; c_struct_ptr "eqs_array_t"]);
    ("copy", c_callback [c_ptr "void"; c_struct_ptr "eqs_array_t"]);
    ("destroy", CPointer (CFunction (c_name "void") [c_ptr "void"]));
    ("move_samples_from", c_callback [
       c_ptr "void"; c_ptr "void"; c_struct_ptr "eqs_sample_mapping_t"; c_name "uintptr_t"; c_name "uintptr_t";
       c_name "uintptr_t"])];
  CDeclare "eqs_disable_panic_printing" (c_name "void") [c_name "void"];
  CDeclare "eqs_last_error" (c_ptr "char") [c_name "void"];
  c_function "eqs_labels_position" [c_struct "eqs_labels_t"; c_ptr "int32_t"; c_name "uint64_t"; c_ptr "int64_t"];
  c_function "eqs_register_data_origin" [c_ptr "char"; c_ptr "eqs_data_origin_t"];
  c_function "eqs_get_data_origin" [c_name "eqs_data_origin_t"; c_ptr "char"; c_name "uint64_t"];
  c_function "eqs_get_rust_array" [
    c_struct_ptr "eqs_array_t"; CPointer (c_ptr "double"); CPointer (c_ptr "uintptr_t"); c_ptr "uintptr_t"];
  CDeclare "eqs_block" (c_struct_ptr "eqs_block_t") [
    c_struct "eqs_array_t"; c_struct "eqs_labels_t"; c_struct_ptr "eqs_labels_t"; c_name "uintptr_t"; c_struct "eqs_labels_t"];
  c_function "eqs_block_free" [c_struct_ptr "eqs_block_t"];
  CDeclare "eqs_block_copy" (c_struct_ptr "eqs_block_t") [c_struct_ptr "eqs_block_t"];
  c_function "eqs_block_labels" [c_struct_ptr "eqs_block_t"; c_ptr "char"; c_name "uintptr_t"; c_struct_ptr "eqs_labels_t"];
  c_function "eqs_block_data" [c_struct_ptr "eqs_block_t"; c_ptr "char"; c_struct_ptr "eqs_array_t"];
  c_function "eqs_block_add_gradient" [
    c_struct_ptr "eqs_block_t"; c_ptr "char"; c_struct "eqs_array_t"; c_struct "eqs_labels_t"; c_struct_ptr "eqs_labels_t";
    c_name "uintptr_t"];
  c_function "eqs_block_gradients_list" [c_struct_ptr "eqs_block_t"; CPointer (CPointer (c_ptr "char")); c_ptr "uint64_t"];
  CDeclare "eqs_tensormap" (c_struct_ptr "eqs_tensormap_t") [
    c_struct "eqs_labels_t"; CPointer (c_struct_ptr "eqs_block_t"); c_name "uint64_t"];
  c_function "eqs_tensormap_free" [c_struct_ptr "eqs_tensormap_t"];
  c_function "eqs_tensormap_keys" [c_struct_ptr "eqs_tensormap_t"; c_struct_ptr "eqs_labels_t"];
  c_function "eqs_tensormap_block_by_id" [c_struct_ptr "eqs_tensormap_t"; CPointer (c_struct_ptr "eqs_block_t"); c_name "uint64_t"];
  c_function "eqs_tensormap_blocks_matching" [
    c_struct_ptr "eqs_tensormap_t"; c_ptr "uintptr_t"; c_ptr "uintptr_t"; c_struct "eqs_labels_t"];
  c_function "eqs_tensormap_keys_to_properties" [c_struct_ptr "eqs_tensormap_t"; c_struct "eqs_labels_t"; c_name "bool"];
  c_function "eqs_tensormap_components_to_properties" [c_struct_ptr "eqs_tensormap_t"; CPointer (c_ptr "char"); c_name "uint64_t"];
  c_function "eqs_tensormap_keys_to_samples" [c_struct_ptr "eqs_tensormap_t"; c_struct "eqs_labels_t"; c_name "bool"];
  CDeclare "eqs_tensormap_load" (c_struct_ptr "eqs_tensormap_t") [c_ptr "char"];
  c_function "eqs_tensormap_save" [c_ptr "char"; c_struct_ptr "eqs_tensormap_t"]].

(** * The Python module *)

Definition py_status : py_type := PyName "eqs_status_t".
Definition py_ptr (name : string) : py_type := PyPointer (PyName name).
Definition py_void_p : py_type := PyName "ctypes.c_void_p".
Definition py_char_p : py_type := PyName "ctypes.c_char_p".
Definition py_uintptr : py_type := PyName "c_uintptr_t".

(* equistore/_c_api.py:29-235 *)
Definition c_api_py : py_module := mk_module
  [("eqs_status_t", PyName "ctypes.c_int32"); ("eqs_data_origin_t", PyName "ctypes.c_uint64")]
  []
  [("eqs_block_t", []);
   ("eqs_tensormap_t", []);
   ("eqs_labels_t", [
      ("labels_ptr", py_void_p); ("names", PyPointer py_char_p); ("values", py_ptr "ctypes.c_int32");
      ("size", py_uintptr); ("count", py_uintptr)]);
   ("eqs_sample_mapping_t", [("input", py_uintptr); ("output", py_uintptr)]);
   ("eqs_array_t", [
      ("ptr", py_void_p);
      ("origin", PyFunction py_status [py_void_p; py_ptr "eqs_data_origin_t"]);
      ("data", PyFunction py_status [py_void_p; PyPointer (py_ptr "ctypes.c_double")]);
      ("shape", PyFunction py_status [py_void_p; PyPointer (PyPointer py_uintptr); PyPointer py_uintptr]);
      ("reshape", PyFunction py_status [py_void_p; PyPointer py_uintptr; py_uintptr]);
      ("swap_axes", PyFunction py_status [py_void_p; py_uintptr; py_uintptr]);
      ("create", PyFunction py_status [py_void_p; PyPointer py_uintptr; py_uintptr; py_ptr "eqs_array_t"]);
      ("copy", PyFunction py_status [py_void_p; py_ptr "eqs_array_t"]);
      ("destroy", PyFunction (PyName "None") [py_void_p]);
      ("move_samples_from", PyFunction py_status [
         py_void_p; py_void_p; py_ptr "eqs_sample_mapping_t"; py_uintptr; py_uintptr; py_uintptr])])]
  [("eqs_disable_panic_printing", ([], ResultType (PyName "None")));
   ("eqs_last_error", ([], ResultType py_char_p));
   ("eqs_labels_position", ([
      PyName "eqs_labels_t"; py_ptr "ctypes.c_int32"; PyName "ctypes.c_uint64"; py_ptr "ctypes.c_int64"], CheckStatus));
   ("eqs_register_data_origin", ([py_char_p; py_ptr "eqs_data_origin_t"], CheckStatus));
   ("eqs_get_data_origin", ([PyName "eqs_data_origin_t"; py_char_p; PyName "ctypes.c_uint64"], CheckStatus));
   ("eqs_get_rust_array", ([
      py_ptr "eqs_array_t"; PyPointer (py_ptr "ctypes.c_double"); PyPointer (PyPointer py_uintptr); PyPointer py_uintptr],
      CheckStatus));
   ("eqs_block", ([
      PyName "eqs_array_t"; PyName "eqs_labels_t"; py_ptr "eqs_labels_t"; py_uintptr; PyName "eqs_labels_t"],
      ResultType (py_ptr "eqs_block_t")));
   ("eqs_block_free", ([py_ptr "eqs_block_t"], CheckStatus));
   ("eqs_block_copy", ([py_ptr "eqs_block_t"], ResultType (py_ptr "eqs_block_t")));
   ("eqs_block_labels", ([py_ptr "eqs_block_t"; py_char_p; py_uintptr; py_ptr "eqs_labels_t"], CheckStatus));
   ("eqs_block_data", ([py_ptr "eqs_block_t"; py_char_p; py_ptr "eqs_array_t"], CheckStatus));
   ("eqs_block_add_gradient", ([
      py_ptr "eqs_block_t"; py_char_p; PyName "eqs_array_t"; PyName "eqs_labels_t"; py_ptr "eqs_labels_t"; py_uintptr],
      CheckStatus));
   ("eqs_block_gradients_list", ([py_ptr "eqs_block_t"; PyPointer (PyPointer py_char_p); py_ptr "ctypes.c_uint64"], CheckStatus));
   ("eqs_tensormap", ([
      PyName "eqs_labels_t"; PyPointer (py_ptr "eqs_block_t"); PyName "ctypes.c_uint64"], ResultType (py_ptr "eqs_tensormap_t")));
   ("eqs_tensormap_free", ([py_ptr "eqs_tensormap_t"], CheckStatus));
   ("eqs_tensormap_keys", ([py_ptr "eqs_tensormap_t"; py_ptr "eqs_labels_t"], CheckStatus));
   ("eqs_tensormap_block_by_id", ([
      py_ptr "eqs_tensormap_t"; PyPointer (py_ptr "eqs_block_t"); PyName "ctypes.c_uint64"], CheckStatus));
   ("eqs_tensormap_blocks_matching", ([
      py_ptr "eqs_tensormap_t"; PyPointer py_uintptr; PyPointer py_uintptr; PyName "eqs_labels_t"], CheckStatus));
   ("eqs_tensormap_keys_to_properties", ([py_ptr "eqs_tensormap_t"; PyName "eqs_labels_t"; PyName "ctypes.c_bool"], CheckStatus));
   ("eqs_tensormap_components_to_properties", ([
      py_ptr "eqs_tensormap_t"; PyPointer py_char_p; PyName "ctypes.c_uint64"], CheckStatus));
   ("eqs_tensormap_keys_to_samples", ([py_ptr "eqs_tensormap_t"; PyName "eqs_labels_t"; PyName "ctypes.c_bool"], CheckStatus));
   ("eqs_tensormap_load", ([py_char_p], ResultType (py_ptr "eqs_tensormap_t")));
   ("eqs_tensormap_save", ([py_char_p; py_ptr "eqs_tensormap_t"], CheckStatus))].

(** * The functions of the Rust library *)

(* types in Rust: a name, a raw pointer (const or mut), and
   Option<unsafe extern fn(...) -> result> *)
Inductive rust_type :=
| RsName (name : string)
| RsPointer (t : rust_type)
| RsCallback (params : list rust_type) (result : option rust_type).

Record rust_library := mk_rust_library {
  rl_aliases : list (string * rust_type); (* type aliases, and transparent structs *)
  rl_structs : list (string * option (list (string * rust_type))); (* repr(C); None if it is opaque *)
  rl_functions : list (string * (list rust_type * option rust_type)) }.

Definition rs_ptr (name : string) : rust_type := RsPointer (RsName name).
Definition rs_usize : rust_type := RsName "usize".
Definition rs_callback (params : list rust_type) : rust_type := RsCallback params (Some (RsName "eqs_status_t")).
Definition rs_function (name : string) (params : list rust_type) : string * (list rust_type * option rust_type) :=
  (name, (params, Some (RsName "eqs_status_t"))).

(* all the `#[no_mangle] pub extern fn` of src/c_api, with the types they use:
   src/c_api/status.rs:26, src/c_api/blocks.rs:19, src/c_api/tensor.rs:14,
   src/c_api/labels.rs:14-30, src/data.rs:13-15 and 72-175. The functions are in the
   order of the header. *)
Definition c_api_rs : rust_library := mk_rust_library
  [("eqs_status_t", RsName "i32"); ("eqs_data_origin_t", RsName "u64")]
  [("eqs_block_t", None); ("eqs_tensormap_t", None);
   ("eqs_labels_t", Some [
      ("labels_ptr", rs_ptr "c_void"); ("names", RsPointer (rs_ptr "c_char")); ("values", rs_ptr "i32");
      ("size", rs_usize); ("count", rs_usize)]);
   ("eqs_sample_mapping_t", Some [("input", rs_usize); ("output", rs_usize)]);
   ("eqs_array_t", Some [
      ("ptr", rs_ptr "c_void");
      ("origin", rs_callback [rs_ptr "c_void"; rs_ptr "eqs_data_origin_t"]);
      ("data", rs_callback [rs_ptr "c_void"; RsPointer (rs_ptr "f64")]);
      ("shape", rs_callback [rs_ptr "c_void"; RsPointer (rs_ptr "usize"); rs_ptr "usize"]);
      ("reshape", rs_callback [rs_ptr "c_void"; rs_ptr "usize"; rs_usize]);
      ("swap_axes", rs_callback [rs_ptr "c_void"; rs_usize; rs_usize]);
      ("create", rs_callback [rs_ptr "c_void"; rs_ptr "usize"; rs_usize; rs_ptr "eqs_array_t"]);
      ("copy", rs_callback [rs_ptr "c_void"; rs_ptr "eqs_array_t"]);
      ("destroy", RsCallback [rs_ptr "c_void"] None);
      ("move_samples_from", rs_callback [
         rs_ptr "c_void"; rs_ptr "c_void"; rs_ptr "eqs_sample_mapping_t"; rs_usize; rs_usize; rs_usize])])]
  [("eqs_disable_panic_printing", ([], None));
   ("eqs_last_error", ([], Some (rs_ptr "c_char")));
   rs_function "eqs_labels_position" [RsName "eqs_labels_t"; rs_ptr "i32"; RsName "u64"; rs_ptr "i64"];
   rs_function "eqs_register_data_origin" [rs_ptr "c_char"; rs_ptr "eqs_data_origin_t"];
   rs_function "eqs_get_data_origin" [RsName "eqs_data_origin_t"; rs_ptr "c_char"; RsName "u64"];
   rs_function "eqs_get_rust_array" [rs_ptr "eqs_array_t"; RsPointer (rs_ptr "f64"); RsPointer (rs_ptr "usize"); rs_ptr "usize"];
   ("eqs_block", ([
      RsName "eqs_array_t"; RsName "eqs_labels_t"; rs_ptr "eqs_labels_t"; rs_usize; RsName "eqs_labels_t"],
      Some (rs_ptr "eqs_block_t")));
   rs_function "eqs_block_free" [rs_ptr "eqs_block_t"];
   ("eqs_block_copy", ([rs_ptr "eqs_block_t"], Some (rs_ptr "eqs_block_t")));
   rs_function "eqs_block_labels" [rs_ptr "eqs_block_t"; rs_ptr "c_char"; rs_usize; rs_ptr "eqs_labels_t"];
   rs_function "eqs_block_data" [rs_ptr "eqs_block_t"; rs_ptr "c_char"; rs_ptr "eqs_array_t"];
   rs_function "eqs_block_add_gradient" [
     rs_ptr "eqs_block_t"; rs_ptr "c_char"; RsName "eqs_array_t"; RsName "eqs_labels_t"; rs_ptr "eqs_labels_t"; rs_usize];
   rs_function "eqs_block_gradients_list" [rs_ptr "eqs_block_t"; RsPointer (RsPointer (rs_ptr "c_char")); rs_ptr "u64"];
   ("eqs_tensormap", ([
      RsName "eqs_labels_t"; RsPointer (rs_ptr "eqs_block_t"); RsName "u64"], Some (rs_ptr "eqs_tensormap_t")));
   rs_function "eqs_tensormap_free" [rs_ptr "eqs_tensormap_t"];
   rs_function "eqs_tensormap_keys" [rs_ptr "eqs_tensormap_t"; rs_ptr "eqs_labels_t"];
   rs_function "eqs_tensormap_block_by_id" [rs_ptr "eqs_tensormap_t"; RsPointer (rs_ptr "eqs_block_t"); RsName "u64"];
   rs_function "eqs_tensormap_blocks_matching" [rs_ptr "eqs_tensormap_t"; rs_ptr "usize"; rs_ptr "usize"; RsName "eqs_labels_t"];
   rs_function "eqs_tensormap_keys_to_properties" [rs_ptr "eqs_tensormap_t"; RsName "eqs_labels_t"; RsName "bool"];
   rs_function "eqs_tensormap_components_to_properties" [rs_ptr "eqs_tensormap_t"; RsPointer (rs_ptr "c_char"); RsName "u64"];
   rs_function "eqs_tensormap_keys_to_samples" [rs_ptr "eqs_tensormap_t"; RsName "eqs_labels_t"; RsName "bool"];
   ("eqs_tensormap_load", ([rs_ptr "c_char"], Some (rs_ptr "eqs_tensormap_t")));
   rs_function "eqs_tensormap_save" [rs_ptr "c_char"; rs_ptr "eqs_tensormap_t"]].
