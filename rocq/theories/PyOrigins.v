(* Model of the identifiers of origins in equistore/data.py:17-19 and 50-190: they are
   kept in global variables, which are used by all the threads of Python. The library
   is loaded (see CLib.v). *)
From Verif Require Import Base Origin.
Local Open Scope string_scope.
Local Open Scope list_scope.
Local Open Scope nat_scope.

(* the three variables, and the names of their origins; the name of the module is
   "equistore.data" *)
Inductive storage := NumpyStorage | TorchStorage | RustStorage.

Definition storage_name (s : storage) : string :=
  match s with
  | NumpyStorage => "equistore.data.numpy"
  | TorchStorage => "equistore.data.torch"
  | RustStorage => "rust.ndarray"
  end.

(* Code of Python, up to the next use of something other threads can change. The
   interpreter can run other threads between any two of them. The functions of the
   library take a lock. *)
Inductive code (A : Type) :=
| Return (a : A)
| LoadGlobal (s : storage) (next : option nat -> code A)
| StoreGlobal (s : storage) (id : nat) (next : code A)
| RegisterName (name : string) (next : nat -> code A)
| NameOf (id : nat) (next : string -> code A).
Arguments Return {A}. Arguments LoadGlobal {A}. Arguments StoreGlobal {A}. Arguments RegisterName {A}. Arguments NameOf {A}.

(* equistore/data.py:61-89 -- _register_origin, _numpy_origin, _torch_origin and
   _rust_origin. [next] is what is done with the value; None is the None of Python. *)
Definition storage_origin {A} (s : storage) (next : option nat -> code A) : code A :=
  LoadGlobal s (fun value =>
    match value with
    | None => RegisterName (storage_name s) (fun id => StoreGlobal s id (LoadGlobal s next))
    | Some _ => LoadGlobal s next
    end).

(* what is given to ArrayWrapper *)
Inductive py_kind := NumpyKind | TorchKind | OtherKind.

(* The arrays: from an ArrayWrapper, with the value of array_origin; from the library
   (ndarray, or EmptyArray); from other programs: the status and the identifier given by
   the function origin, if it gives one *)
Inductive array_made :=
| WrapperArray (object : nat) (array_origin : option nat)
| LibraryArray (name : string)
| ProgramArray (status : Z) (id : option nat).

(* equistore/data.py:145-148 -- data_origin. The status is not used. The function
   of a wrapper (equistore/data.py:178-180) fails if array_origin is None. *)
Definition data_origin {A} (a : array_made) (next : nat -> code A) : code A :=
  match a with
  | WrapperArray _ array_origin => next (match array_origin with Some id => id | None => 0 end)
  | LibraryArray name => RegisterName name next
  | ProgramArray _ id => next (match id with Some id => id | None => 0 end)
  end.

Inductive py_result :=
| Origin (id : option nat)
| NewWrapper (array_origin : option nat)  (* ArrayWrapper(array) *)
| Object (object : nat)                   (* the ArrayWrapper *)
| RustView                                (* a new ArrayWrapper with a view of a Rust array *)
| Answer (b : bool)
| UnknownOrigin (name : string)           (* ValueError: unable to handle data coming from ... *)
| UnknownArray                            (* ValueError: unknown array type *)
| WrongPointer.                           (* a pointer is used with the wrong type *)

Definition is_origin (id : nat) (value : option nat) : bool := match value with Some v => id =? v | None => false end.

(* equistore/data.py:129-137 -- eqs_array_to_python_object *)
Definition to_python (a : array_made) : code py_result :=
  data_origin a (fun origin =>
  storage_origin NumpyStorage (fun numpy =>
  storage_origin TorchStorage (fun torch =>
    if is_origin origin numpy || is_origin origin torch then
      Return (match a with WrapperArray object _ => Object object | _ => WrongPointer end)
    else
      storage_origin RustStorage (fun rust =>
        if is_origin origin rust then
          (* eqs_get_rust_array, see C120 *)
          Return (match a with LibraryArray name => if String.eqb name "rust.ndarray" then RustView else WrongPointer | _ => WrongPointer end)
        else NameOf origin (fun name => Return (UnknownOrigin name)))))).

(* equistore/data.py:140-142 -- eqs_array_was_allocated_by_python *)
Definition was_allocated_by_python (a : array_made) : code py_result :=
  data_origin a (fun origin =>
  storage_origin NumpyStorage (fun numpy =>
  storage_origin TorchStorage (fun torch => Return (Answer (is_origin origin numpy || is_origin origin torch))))).

(* equistore/data.py:162-174 -- ArrayWrapper.__init__ *)
Definition wrap (kind : py_kind) : code py_result :=
  match kind with
  | NumpyKind => storage_origin NumpyStorage (fun id => Return (NewWrapper id))
  | TorchKind => storage_origin TorchStorage (fun id => Return (NewWrapper id))
  | OtherKind => Return UnknownArray
  end.

(** * Threads *)

(* arrays which are used: the n-th ArrayWrapper, or another array *)
Inductive target := Wrapped (n : nat) | RustNdarray | RustEmpty | FromProgram (status : Z) (id : option nat).

(* what threads do; names can also be registered by other programs *)
Inductive py_op :=
| OriginOf (s : storage)
| Wrap (kind : py_kind)
| ToPython (t : target)
| Allocated (t : target)
| Register (name : string).

Record py_event := mk_event { ev_thread : nat; ev_op : py_op; ev_result : py_result }.

Record py_state := mk_py_state {
  py_registry : registry;
  py_globals : storage -> option nat;
  py_wrappers : list (option nat);
  py_threads : nat -> option (py_op * code py_result);
  py_log : list py_event;
}.

Definition array_of (s : py_state) (t : target) : option array_made :=
  match t with
  | Wrapped n => match nth_error (py_wrappers s) n with Some id => Some (WrapperArray n id) | None => None end
  | RustNdarray => Some (LibraryArray "rust.ndarray")
  | RustEmpty => Some (LibraryArray "rust.EmptyArray")
  | FromProgram status id => Some (ProgramArray status id)
  end.

Definition op_code (s : py_state) (op : py_op) : option (code py_result) :=
  match op with
  | OriginOf st => Some (storage_origin st (fun id => Return (Origin id)))
  | Wrap kind => Some (wrap kind)
  | ToPython t => option_map to_python (array_of s t)
  | Allocated t => option_map was_allocated_by_python (array_of s t)
  | Register name => Some (RegisterName name (fun id => Return (Origin (Some id))))
  end.

Definition set_storage (g : storage -> option nat) (s : storage) (id : nat) : storage -> option nat :=
  fun s' => match s, s' with
            | NumpyStorage, NumpyStorage | TorchStorage, TorchStorage | RustStorage, RustStorage => Some id
            | _, _ => g s'
            end.

Definition set_thread (threads : nat -> option (py_op * code py_result)) (i : nat) (x : option (py_op * code py_result)) :=
  fun j => if j =? i then x else threads j.

Inductive move := Start (op : py_op) | Continue.

(* one step of a thread: a call which starts, or the next part of the call *)
Definition py_step (s : py_state) (i : nat) (m : move) : py_state :=
  match py_threads s i, m with
  | None, Start op =>
      match op_code s op with
      | Some c => mk_py_state (py_registry s) (py_globals s) (py_wrappers s) (set_thread (py_threads s) i (Some (op, c))) (py_log s)
      | None => s
      end
  | Some (op, c), Continue =>
      match c with
      | Return r =>
          match r with
          | NewWrapper id =>
              mk_py_state (py_registry s) (py_globals s) (py_wrappers s ++ [id]) (set_thread (py_threads s) i None)
                (py_log s ++ [mk_event i op (Object (length (py_wrappers s)))])
          | r => mk_py_state (py_registry s) (py_globals s) (py_wrappers s) (set_thread (py_threads s) i None) (py_log s ++ [mk_event i op r])
          end
      | LoadGlobal st next =>
          mk_py_state (py_registry s) (py_globals s) (py_wrappers s) (set_thread (py_threads s) i (Some (op, next (py_globals s st)))) (py_log s)
      | StoreGlobal st id next =>
          mk_py_state (py_registry s) (set_storage (py_globals s) st id) (py_wrappers s) (set_thread (py_threads s) i (Some (op, next))) (py_log s)
      | RegisterName name next =>
          let '(r, id) := register_data_origin (py_registry s) name in
          mk_py_state r (py_globals s) (py_wrappers s) (set_thread (py_threads s) i (Some (op, next id))) (py_log s)
      | NameOf id next =>
          match get_data_origin (py_registry s) id with
          | Ok name => mk_py_state (py_registry s) (py_globals s) (py_wrappers s) (set_thread (py_threads s) i (Some (op, next name))) (py_log s)
          | _ => s
          end
      end
  | _, _ => s
  end.

Definition py_run (s : py_state) (schedule : list (nat * move)) : py_state :=
  fold_left (fun s im => py_step s (fst im) (snd im)) schedule s.

(* when equistore.data is imported: other programs might already have registered names *)
Definition py_start (r : registry) : py_state := mk_py_state r (fun _ => None) [] (fun _ => None) [].
