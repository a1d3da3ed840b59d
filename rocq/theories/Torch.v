(* The tensors of torch in equistore/data.py and equistore/io.py: which of them can be
   read to be saved. *)
From Verif Require Import Base Labels Array Block Tensor Strided Numpy.
Local Open Scope string_scope.
Local Open Scope list_scope.
Local Open Scope nat_scope.

(* torch.Tensor: the elements, as in an array of numpy, where they are, and if the
   operations are recorded to compute gradients *)
Record torch_tensor := mk_torch {
  tt_array : np_array;
  tt_device : string;
  tt_requires_grad : bool;
}.

Inductive py_array :=
| NumpyArray (a : np_array)
| TorchTensor (t : torch_tensor).

(* torch.Tensor.numpy: a view of the same elements; an exception (None) if they are not
   on the CPU, or if gradients are computed *)
Definition torch_numpy (t : torch_tensor) : option np_array :=
  if String.eqb (tt_device t) "cpu" && negb (tt_requires_grad t) then Some (tt_array t) else None.

(* torch.Tensor.cpu: the tensor itself, or a copy on the CPU. The copy is always in
   row-major order here: torch keeps some other orders, but the elements are the
   same. *)
Definition torch_cpu (m : memory) (t : torch_tensor) : memory * torch_tensor :=
  if String.eqb (tt_device t) "cpu" then (m, t)
  else
    let '(m, a) := np_new m (np_shape (tt_array t)) (np_dtype (tt_array t)) (np_elements m (tt_array t)) in
    (m, mk_torch a "cpu" (tt_requires_grad t)).

(* equistore/data.py:211-235 -- _eqs_array_data. None is an exception. *)
Definition wrapper_data (m : memory) (x : py_array) : option (list Z) :=
  match x with
  | NumpyArray a => np_data m a
  | TorchTensor t =>
      if String.eqb (tt_device t) "cpu" then None
      else
        match torch_numpy t with
        | Some a => np_data m a
        | None => None
        end
  end.

(* equistore/io.py:60-66 -- _array_to_numpy, used by save(use_numpy=True) *)
Definition array_to_numpy (m : memory) (x : py_array) : option (memory * np_array) :=
  match x with
  | NumpyArray a => Some (m, a)
  | TorchTensor t =>
      let '(m, t) := torch_cpu m t in
      match torch_numpy t with
      | Some a => Some (m, a)
      | None => None
      end
  end.

Definition shown_array (x : py_array) : np_array :=
  match x with
  | NumpyArray a => a
  | TorchTensor t => tt_array t
  end.

(* equistore/data.py:159-199 -- ArrayWrapper.eqs_array, as it is for the library: an
   exception in _eqs_array_data is the status -1 (equistore/utils.py, catch_exceptions).
   The other functions are supposed to work. *)
Definition eqs_array_of (origin : nat) (m : memory) (x : py_array) : eqs_array :=
  mk_array (ForeignArray origin) (mk_nd (np_shape (shown_array x)) (np_elements m (shown_array x))) []
    (fun op =>
       match op with
       | OpData =>
           match wrapper_data m x with
           | Some _ => Works
           | None => Fails (-1)
           end
       | _ => Works
       end).
