(* Model of the callbacks of tensors of torch, equistore/data.py:205-325. torch is not
   part of the repository: the functions below follow its documentation. *)
From Verif Require Import Base Array Strided Numpy Torch.
Local Open Scope string_scope.
Local Open Scope list_scope.
Local Open Scope nat_scope.

(* A tensor, and whether it is refused as the output of assignments when operations are
   recorded: a leaf with requires_grad, or a view of one *)
Record tracked := mk_tracked {
  tk_tensor : torch_tensor;
  tk_refused : bool;
}.

Definition tk_array (t : tracked) : np_array := tt_array (tk_tensor t).
Definition tk_device (t : tracked) : string := tt_device (tk_tensor t).
Definition tk_grad (t : tracked) : bool := tt_requires_grad (tk_tensor t).

(* torch.Tensor.__setitem__ with a list of indexes
     output[output_samples, ..., start:stop] = input[input_samples, ..., :]
   Contrary to numpy, elements are not converted to another type, and both tensors have
   to be on the same device. None is an exception. The rest is the same as for numpy
   (also the value which is kept when a sample is more than once in the output, which
   torch does not define). *)
Definition torch_move (f : np_rules) (recording : bool) (m : memory) (input output : tracked)
    (samples : list sample_mapping) (start stop : nat) : option memory :=
  if String.eqb (tk_device input) (tk_device output) && np_type_eqb (np_dtype (tk_array input)) (np_dtype (tk_array output))
     && negb (recording && tk_refused output)
  then np_move_samples f m (tk_array input) (tk_array output) samples start stop
  else None.

(* the memory, and the tensors of the ArrayWrapper objects: None after
   _eqs_array_destroy *)
Record torch_state := mk_torch_state {
  ts_memory : memory;
  ts_tensors : list (option tracked);
}.

(* The same commands as in Strided.v. [recording] is torch.is_grad_enabled(), which
   does not change here. Copies (torch.clone) are in row-major order here: torch keeps
   some other orders, but the elements are the same. *)
Definition torch_step (f : np_rules) (recording : bool) (s : torch_state) (c : command) : torch_state * response :=
  let m := ts_memory s in
  let tensors := ts_tensors s in
  match c with
  | GetShape i => (s, match live tensors i with Some t => Shape (np_shape (tk_array t)) | None => Invalid end)
  | GetData i => (s, match live tensors i with Some t => Data (np_elements m (tk_array t)) | None => Invalid end)
  | Create i shape =>
      (* equistore/data.py:267-284 *)
      match live tensors i with
      | Some t =>
          let '(m, a) := np_create m (tk_array t) shape in
          (mk_torch_state m (tensors ++ [Some (mk_tracked (mk_torch a (tk_device t) false) false)]), Done)
      | None => (s, Invalid)
      end
  | Copy i =>
      (* equistore/data.py:287-297 *)
      match live tensors i with
      | Some t =>
          let '(m, a) := np_copy m (tk_array t) in
          (mk_torch_state m (tensors ++ [Some (mk_tracked (mk_torch a (tk_device t) (recording && tk_grad t)) false)]), Done)
      | None => (s, Invalid)
      end
  | Destroy i =>
      match live tensors i with Some _ => (mk_torch_state m (set_nth tensors i None), Done) | None => (s, Invalid) end
  | Reshape i shape =>
      (* equistore/data.py:246-255: a view of the same elements, or a copy *)
      match live tensors i with
      | Some t =>
          match np_reshape f m (tk_array t) shape with
          | Some (m, a) =>
              let view := np_buffer a =? np_buffer (tk_array t) in
              (mk_torch_state m (set_nth tensors i
                 (Some (mk_tracked (mk_torch a (tk_device t) (recording && tk_grad t)) (view && tk_refused t)))), Done)
          | None => (s, Failed)
          end
      | None => (s, Invalid)
      end
  | SwapAxes i axis_1 axis_2 =>
      (* equistore/data.py:258-264 *)
      match live tensors i with
      | Some t =>
          match np_swap_axes (tk_array t) axis_1 axis_2 with
          | Some a =>
              (mk_torch_state m (set_nth tensors i
                 (Some (mk_tracked (mk_torch a (tk_device t) (recording && tk_grad t)) (tk_refused t)))), Done)
          | None => (s, Failed)
          end
      | None => (s, Invalid)
      end
  | MoveSamples o i samples start stop =>
      (* equistore/data.py:306-325 *)
      if o =? i then (s, Invalid) else
      match live tensors o, live tensors i with
      | Some output, Some input =>
          match torch_move f recording m input output samples start stop with
          | Some m =>
              (mk_torch_state m (set_nth tensors o
                 (Some (mk_tracked (mk_torch (tk_array output) (tk_device output) (tk_grad output || recording && tk_grad input))
                   (tk_refused output)))), Done)
          | None => (mk_torch_state m (set_nth tensors o None), Failed)
          end
      | _, _ => (s, Invalid)
      end
  end.

(* the state after a list of commands *)
Definition torch_run (f : np_rules) (recording : bool) (s : torch_state) (commands : list command) : torch_state :=
  fold_left (fun s c => fst (torch_step f recording s c)) commands s.

(* the tensors given to the library *)
Definition given_tensors (m : memory) (tensors : list tracked) : torch_state := mk_torch_state m (map Some tensors).
