(* Model of equistore/_c_lib.py: how the Python code finds, loads and sets up the
   shared library. *)
From Verif Require Import Base Npy PyIo Declarations.
Local Open Scope string_scope.
Local Open Scope list_scope.
Local Open Scope nat_scope.

(* What never changes while a program runs: sys.platform, platform.architecture()[0],
   the directory of the file (_HERE), and os.sep. *)
Record machine := mk_machine {
  ma_platform : string;
  ma_architecture : string;
  ma_here : string;
  ma_separator : string }.

(* What can change: which paths are files and what they contain ([None]: open
   raises an OSError), and what the dynamic loader does with a path ([None]: it
   raises an OSError): the functions exported by the library. *)
Record disk := mk_disk {
  di_isfile : string -> bool;
  di_content : string -> option bytes;
  di_load : string -> option (list string) }.

(* A library object of ctypes: where it was loaded from, what it exports, the
   functions with argtypes and restype, and if eqs_disable_panic_printing was called *)
Record library := mk_library {
  li_path : string;
  li_exports : list string;
  li_declared : list string;
  li_quiet : bool }.

(* EQUISTORE_LIBRARY_PATH and _get_library._cached_dll *)
Record finder := mk_finder {
  fi_path : option string;
  fi_cached : option library }.

(* equistore/_c_lib.py:10 and 28-29 *)
Definition finder_start : finder := mk_finder None None.

(* equistore/_c_lib.py:13-23 -- _set_equistore_library_path *)
Definition set_library_path (path : string) (s : finder) : finder * outcome unit :=
  match fi_path s with
  | Some _ => (s, exception "Trying to set the EQUISTORE library path twice")
  | None => (mk_finder (Some path) (fi_cached s), Ok tt)
  end.

(* fd.seek(position) and fd.read(count): less than count bytes at the end of the
   file *)
Definition read_at (position : Z) (count : nat) (content : bytes) : bytes :=
  if (Z.of_nat (length content) <=? position)%Z then []
  else firstn count (skipn (Z.to_nat position) content).

(* struct.unpack: the exact number of bytes, the least significant one first *)
Definition unpack (count : nat) (b : bytes) : outcome Z :=
  if length b =? count then Ok (low_value b)
  else exception "unpack requires a buffer of another size".

(* equistore/_c_lib.py:75-105 -- _check_dll. The text of the first two bytes is
   decoded, which is another exception if it is not UTF-8. *)
Definition check_dll (m : machine) (d : disk) (path : string) : outcome unit :=
  match di_content d path with
  | None => exception "OSError"
  | Some content =>
      if (text_of (read_at 0 2 content) =? "MZ")%string then
        let? offset := unpack 4 (read_at 60 4 content) in
        let? machine := unpack 2 (read_at (offset + 4) 2 content) in
        if (ma_architecture m =? "32bit")%string then
          if (machine =? 332)%Z then Ok tt else exception "Python is 32-bit, but this DLL is not"
        else if (ma_architecture m =? "64bit")%string then
          if (machine =? 34404)%Z then Ok tt else exception "Python is 64-bit, but this DLL is not"
        else exception "Could not determine pointer size of Python"
      else exception "path is not a DLL"
  end.

(* equistore/_c_lib.py:51-60 -- the name of the library, and if this is Windows *)
Definition library_name (platform : string) : option (string * bool) :=
  if prefix "darwin" platform then Some ("libequistore.dylib", false)
  else if prefix "linux" platform then Some ("libequistore.so", false)
  else if prefix "win" platform then Some ("equistore.dll", true)
  else None.

(* equistore/_c_lib.py:47-72 -- _lib_path. Simplified: os.path.join puts a separator
   between the names, which is not always true for the root of a disk. *)
Definition lib_path (m : machine) (d : disk) (s : finder) : finder * outcome string :=
  match fi_path s with
  | Some path => (s, Ok path)
  | None =>
      match library_name (ma_platform m) with
      | None => (s, exception "Unknown platform. Please edit this file")
      | Some (name, windows) =>
          let path := ma_here m +++ ma_separator m +++ "lib" +++ ma_separator m +++ name in
          (mk_finder (Some path) (fi_cached s),
            if di_isfile d path then
              let? _ := if windows then check_dll m d path else Ok tt in
              Ok path
            else exception "Could not find equistore shared library")
      end
  end.

(* equistore/_c_api.py:81-235 -- setup_functions: argtypes and restype of all
   the functions in order, until one is not exported (an AttributeError) *)
Fixpoint setup_functions (names : list string) (l : library) : library * outcome unit :=
  match names with
  | [] => (l, Ok tt)
  | name :: names =>
      if existsb (String.eqb name) (li_exports l) then
        setup_functions names (mk_library (li_path l) (li_exports l) (li_declared l ++ [name]) (li_quiet l))
      else (l, exception "function not found")
  end.

Definition function_names : list string := map fst (pm_functions c_api_py).

(* equistore/_c_lib.py:38 -- eqs_disable_panic_printing() *)
Definition disable_panic_printing (l : library) : library * outcome unit :=
  if existsb (String.eqb "eqs_disable_panic_printing") (li_exports l) then
    (mk_library (li_path l) (li_exports l) (li_declared l) true, Ok tt)
  else (l, exception "function not found").

(* equistore/_c_lib.py:30-40 -- LibraryFinder.__call__ *)
Definition get_library (m : machine) (d : disk) (s : finder) : finder * outcome library :=
  match fi_cached s with
  | Some l => (s, Ok l)
  | None =>
      let (s, path) := lib_path m d s in
      match path with
      | Ok path =>
          match di_load d path with
          | None => (s, exception "OSError")
          | Some exports =>
              let (l, result) := setup_functions function_names (mk_library path exports [] false) in
              match result with
              | Ok _ =>
                  let (l, result) := disable_panic_printing l in
                  (mk_finder (fi_path s) (Some l), let? _ := result in Ok l)
              | Err e => (mk_finder (fi_path s) (Some l), Err e)
              | Panic message => (mk_finder (fi_path s) (Some l), Panic message)
              | Undefined reason => (mk_finder (fi_path s) (Some l), Undefined reason)
              end
          end
      | Err e => (s, Err e)
      | Panic message => (s, Panic message)
      | Undefined reason => (s, Undefined reason)
      end
  end.

(* A program: calls of these two functions, each with the disk at this time. *)
Inductive finder_call :=
| SetPath (path : string)
| GetLibrary.

Inductive finder_result :=
| PathSet (o : outcome unit)
| Library (o : outcome library).

Definition finder_step (m : machine) (s : finder) (event : disk * finder_call) : finder * finder_result :=
  match snd event with
  | SetPath path => let (s, o) := set_library_path path s in (s, PathSet o)
  | GetLibrary => let (s, o) := get_library m (fst event) s in (s, Library o)
  end.

Fixpoint finder_run (m : machine) (s : finder) (program : list (disk * finder_call)) : list finder_result :=
  match program with
  | [] => []
  | event :: program => let (s, r) := finder_step m s event in r :: finder_run m s program
  end.
