(* Specification vocabulary, part 10: what declarations mean.

   A type means how values are stored in memory and given to functions. This is
   defined for C, for ctypes and for Rust, from their documentation, without the
   functions of scripts/generate-declarations.py. *)
From Verif Require Import Base Declarations.
Local Open Scope string_scope.
Local Open Scope list_scope.
Local Open Scope nat_scope.

(* the platform: bytes of a pointer and of a long *)
Record abi := mk_abi { a_word : nat; a_long : nat }.

Inductive repr :=
| RVoid
| RChar
| RBool
| RInt (signed : bool) (bytes : nat)
| RFloat (bytes : nat)
| RLongDouble
| RStruct (name : string)
| REnum (name : string)
| RPointer (r : repr)
| RArray (r : repr) (dim : nat)
| RFunction (result : repr) (params : list repr).

Fixpoint find_name {A} (name : string) (l : list (string * A)) : option A :=
  match l with
  | [] => None
  | (name', a) :: l => if (name =? name')%string then Some a else find_name name l
  end.

Definition no_void (rs : list repr) : option (list repr) :=
  if existsb (fun r => match r with RVoid => true | _ => false end) rs then None else Some rs.

(** * C *)

Definition c_words (a : abi) (words : list string) : option repr :=
  match words with
  | [word] =>
      find_name word
        [("void", RVoid); ("char", RChar); ("bool", RBool); ("float", RFloat 4); ("double", RFloat 8);
         ("short", RInt true 2); ("int", RInt true 4); ("unsigned", RInt false 4); ("long", RInt true (a_long a));
         ("int8_t", RInt true 1); ("uint8_t", RInt false 1); ("int16_t", RInt true 2); ("uint16_t", RInt false 2);
         ("int32_t", RInt true 4); ("uint32_t", RInt false 4); ("int64_t", RInt true 8); ("uint64_t", RInt false 8);
         ("uintptr_t", RInt false (a_word a)); ("size_t", RInt false (a_word a))]
  | [word; word'] =>
      if (word =? "unsigned")%string then
        find_name word' [("char", RInt false 1); ("short", RInt false 2); ("int", RInt false 4); ("long", RInt false (a_long a))]
      else if (word =? "long")%string then
        find_name word' [("int", RInt true (a_long a)); ("long", RInt true 8); ("double", RLongDouble); ("unsigned", RInt false (a_long a))]
      else None
  | _ => None
  end.

(* parameters which are arrays or functions are pointers *)
Definition adjust (r : repr) : repr :=
  match r with
  | RArray r _ => RPointer r
  | RFunction result params => RPointer (RFunction result params)
  | r => r
  end.

(* f(void) has no parameters *)
Definition c_params (rs : list repr) : option (list repr) :=
  match rs with
  | [RVoid] => Some []
  | rs => no_void (map adjust rs)
  end.

(* the elements of arrays and the members of structs can not be functions *)
Definition stored (r : option repr) : option repr :=
  match r with
  | Some RVoid | Some (RFunction _ _) => None
  | r => r
  end.

(* [structs]: the structs of the header, [enums]: its enums, [env]: the typedefs *)
Fixpoint c_meaning (a : abi) (structs enums : list string) (env : string -> option repr) (t : c_type) : option repr :=
  match t with
  | CNames words =>
      match c_words a words with
      | Some r => Some r
      | None => match words with [name] => env name | _ => None end
      end
  | CStructRef name => if in_dec string_dec name structs then Some (RStruct name) else None
  | CEnumRef name => if in_dec string_dec name enums then Some (REnum name) else None
  | CPointer t => option_map RPointer (c_meaning a structs enums env t)
  | CArray t (Some dim) => option_map (fun r => RArray r dim) (stored (c_meaning a structs enums env t))
  | CArray t None => None
  | CFunction result params =>
      match c_meaning a structs enums env result, all_some (c_meaning a structs enums env) params with
      | Some (RFunction _ _), _ | Some (RArray _ _), _ => None
      | Some r, Some rs => option_map (RFunction r) (c_params rs)
      | _, _ => None
      end
  end.

(* what is declared: members of the structs, parameters and results of the
   functions *)
Record declared := mk_declared {
  d_structs : list (string * list (string * repr));
  d_functions : list (string * (list repr * repr)) }.

Definition add_name (name : string) (r : repr) (env : string -> option repr) (name' : string) : option repr :=
  if (name' =? name)%string then Some r else env name'.

Definition decl_name (d : c_decl) : string :=
  match d with
  | CTypedef name _ | CStruct name _ | CEnum name _ | CDeclare name _ _ => name
  end.

Definition struct_names (header : list c_decl) : list string :=
  flat_map (fun d => match d with CStruct name _ => [name] | _ => [] end) header.
Definition enum_names (header : list c_decl) : list string :=
  flat_map (fun d => match d with CEnum name _ => [name] | _ => [] end) header.

(* each declaration can only use the names before it; the header declares all the
   structs it uses. None is a header which can not be compiled. *)
Fixpoint c_read (a : abi) (structs enums : list string) (env : string -> option repr) (header : list c_decl) : option declared :=
  match header with
  | [] => Some (mk_declared [] [])
  | CTypedef name t :: header =>
      match c_meaning a structs enums env t with
      | Some r => c_read a structs enums (add_name name r env) header
      | None => None
      end
  | CEnum name _ :: header => c_read a structs enums (add_name name (REnum name) env) header
  | CStruct name members :: header =>
      match all_some (fun '(n, t) => option_map (pair n) (stored (c_meaning a structs enums env t))) members,
            c_read a structs enums (add_name name (RStruct name) env) header with
      | Some members, Some d => Some (mk_declared ((name, members) :: d_structs d) (d_functions d))
      | _, _ => None
      end
  | CDeclare name result params :: header =>
      match c_meaning a structs enums env (CFunction result params), c_read a structs enums env header with
      | Some (RFunction r rs), Some d => Some (mk_declared (d_structs d) ((name, (rs, r)) :: d_functions d))
      | _, _ => None
      end
  end.

Definition c_declared (a : abi) (header : list c_decl) : option declared :=
  c_read a (struct_names header) (enum_names header) (fun _ => None) header.

(** * ctypes *)

(* equistore/_c_api.py:17-21: c_uintptr_t depends on the platform *)
Definition ctypes_name (a : abi) (name : string) : option repr :=
  find_name name
    [("None", RVoid); ("c_uintptr_t", RInt false (a_word a));
     ("ctypes.c_char", RChar); ("ctypes.c_bool", RBool); ("ctypes.c_float", RFloat 4); ("ctypes.c_double", RFloat 8);
     ("ctypes.c_longdouble", RLongDouble);
     ("ctypes.c_byte", RInt true 1); ("ctypes.c_ubyte", RInt false 1);
     ("ctypes.c_short", RInt true 2); ("ctypes.c_ushort", RInt false 2);
     ("ctypes.c_int", RInt true 4); ("ctypes.c_uint", RInt false 4);
     ("ctypes.c_long", RInt true (a_long a)); ("ctypes.c_ulong", RInt false (a_long a));
     ("ctypes.c_longlong", RInt true 8); ("ctypes.c_ulonglong", RInt false 8);
     ("ctypes.c_int8", RInt true 1); ("ctypes.c_uint8", RInt false 1);
     ("ctypes.c_int16", RInt true 2); ("ctypes.c_uint16", RInt false 2);
     ("ctypes.c_int32", RInt true 4); ("ctypes.c_uint32", RInt false 4);
     ("ctypes.c_int64", RInt true 8); ("ctypes.c_uint64", RInt false 8);
     ("ctypes.c_size_t", RInt false (a_word a)); ("ctypes.c_ssize_t", RInt true (a_word a));
     ("ctypes.c_char_p", RPointer RChar); ("ctypes.c_void_p", RPointer RVoid)].

(* arrays are given to functions as pointers, but are not accepted by CFUNCTYPE *)
Definition callback_args (rs : list repr) : option (list repr) :=
  if existsb (fun r => match r with RArray _ _ => true | _ => false end) rs then None else no_void rs.

Definition argtypes (rs : list repr) : option (list repr) := no_void (map adjust rs).

(* None is an exception when the module is imported *)
Fixpoint py_meaning (a : abi) (env : string -> option repr) (t : py_type) : option repr :=
  match t with
  | PyName name => match ctypes_name a name with Some r => Some r | None => env name end
  | PyPointer t => option_map RPointer (py_meaning a env t)
  | PyArray t dim => option_map (fun r => RArray r dim) (py_meaning a env t)
  | PyFunction result args =>
      match py_meaning a env result, all_some (py_meaning a env) args with
      | Some r, Some rs => option_map (fun rs => RPointer (RFunction r rs)) (callback_args rs)
      | _, _ => None
      end
  end.

(* ctypes: a function used as restype is called with the result, as a C int *)
Definition result_meaning (a : abi) (env : string -> option repr) (result : py_result) : option repr :=
  match result with
  | CheckStatus => Some (RInt true 4)
  | ResultType t => py_meaning a env t
  end.

Fixpoint py_types (a : abi) (env : string -> option repr) (types : list (string * py_type)) : option (string -> option repr) :=
  match types with
  | [] => Some env
  | (name, t) :: types =>
      match py_meaning a env t with
      | Some r => py_types a (add_name name r env) types
      | None => None
      end
  end.

(* the class can be used in its own fields *)
Fixpoint py_structs (a : abi) (env : string -> option repr) (structs : list (string * list (string * py_type)))
  : option ((string -> option repr) * list (string * list (string * repr))) :=
  match structs with
  | [] => Some (env, [])
  | (name, members) :: structs =>
      let env := add_name name (RStruct name) env in
      match all_some (fun '(n, t) => option_map (pair n) (py_meaning a env t)) members, py_structs a env structs with
      | Some members, Some (env, ds) => Some (env, (name, members) :: ds)
      | _, _ => None
      end
  end.

Definition py_function (a : abi) (env : string -> option repr) (f : string * (list py_type * py_result))
  : option (string * (list repr * repr)) :=
  let '(name, (args, result)) := f in
  match all_some (py_meaning a env) args, result_meaning a env result with
  | Some rs, Some r => option_map (fun rs => (name, (rs, r))) (argtypes rs)
  | _, _ => None
  end.

(* classes of the module enum can not be used as types *)
Definition py_declared (a : abi) (m : py_module) : option declared :=
  match py_types a (fun _ => None) (pm_types m) with
  | None => None
  | Some env =>
      match py_structs a env (pm_structs m) with
      | None => None
      | Some (env, ds) =>
          match all_some (py_function a env) (pm_functions m) with
          | Some fs => Some (mk_declared ds fs)
          | None => None
          end
      end
  end.

(** * Rust *)

Definition rust_name (a : abi) (name : string) : option repr :=
  find_name name
    [("c_void", RVoid); ("c_char", RChar); ("bool", RBool); ("f64", RFloat 8); ("i32", RInt true 4); ("i64", RInt true 8);
     ("u64", RInt false 8); ("usize", RInt false (a_word a))].

Fixpoint rust_meaning (a : abi) (env : string -> option repr) (t : rust_type) : option repr :=
  match t with
  | RsName name => match rust_name a name with Some r => Some r | None => env name end
  | RsPointer t => option_map RPointer (rust_meaning a env t)
  | RsCallback params result =>
      match match result with None => Some RVoid | Some t => rust_meaning a env t end, all_some (rust_meaning a env) params with
      | Some r, Some rs => option_map (fun rs => RPointer (RFunction r rs)) (no_void rs)
      | _, _ => None
      end
  end.

(* types can be used before they are declared; opaque structs have no members for
   the other languages *)
Definition rust_declared (a : abi) (l : rust_library) : option declared :=
  let structs := map (fun '(name, _) => (name, RStruct name)) (rl_structs l) in
  match all_some (fun '(name, t) => option_map (pair name) (rust_meaning a (fun _ => None) t)) (rl_aliases l) with
  | None => None
  | Some aliases =>
      let env := fun name => find_name name (aliases ++ structs) in
      match all_some (fun '(name, members) =>
                match members with
                | None => Some (name, [])
                | Some members =>
                    option_map (pair name) (all_some (fun '(n, t) => option_map (pair n) (rust_meaning a env t)) members)
                end) (rl_structs l),
            all_some (fun '(name, (params, result)) =>
                match all_some (rust_meaning a env) params,
                      match result with None => Some RVoid | Some t => rust_meaning a env t end with
                | Some rs, Some r => option_map (fun rs => (name, (rs, r))) (no_void rs)
                | _, _ => None
                end) (rl_functions l) with
      | Some ds, Some fs => Some (mk_declared ds fs)
      | _, _ => None
      end
  end.

(** * Headers *)

(* all names start with eqs_ and are used once; typedefs are for types which are
   one word; the status is a 32-bit integer *)
Definition simple_header (header : list c_decl) : Prop :=
  Forall (fun d => prefix "eqs_" (decl_name d) = true) header
  /\ NoDup (map decl_name header)
  /\ (forall name t, In (CTypedef name t) header -> exists word, t = CNames [word])
  /\ (forall d, In d header -> decl_name d = "eqs_status_t" -> d = CTypedef "eqs_status_t" (CNames ["int32_t"])).
