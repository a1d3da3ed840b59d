(* Model of the callbacks of numpy arrays, equistore/data.py:205-327: arrays are
   views of some memory, which can be shared. numpy is not part of the repository:
   the functions below follow its documentation. *)
From Verif Require Import Base Array Strided.
Local Open Scope list_scope.
Local Open Scope nat_scope.

(* the type of the elements: numpy.float64, or any other type. Elements of all
   types are represented by integers. *)
Inductive np_type := Float64 | OtherType (number : nat).

Definition np_type_eqb (t1 t2 : np_type) : bool :=
  match t1, t2 with
  | Float64, Float64 => true
  | OtherType n1, OtherType n2 => n1 =? n2
  | _, _ => false
  end.

(* numpy.ndarray: the buffer which contains the elements, the position of the first
   one, the number of elements and the distance between them along each axis *)
Record np_array := mk_np {
  np_buffer : nat;
  np_offset : Z;
  np_shape : list nat;
  np_strides : list Z;
  np_dtype : np_type;
}.

(* The conversion of elements from one type to another, and whether reshape can
   give a view, with these strides, or has to make a copy. *)
Record np_rules := mk_rules {
  np_cast : np_type -> np_type -> Z -> Z;
  np_view : list nat -> list Z -> list nat -> option (list Z);
}.

Definition memory := list (list Z).

(** * Elements *)

Fixpoint np_distance (strides : list Z) (idx : list nat) : Z :=
  match strides, idx with
  | s :: strides', i :: idx' => (Z.of_nat i * s + np_distance strides' idx')%Z
  | _, _ => 0%Z
  end.

Definition np_position (a : np_array) (idx : list nat) : Z := (np_offset a + np_distance (np_strides a) idx)%Z.

Definition np_get (m : memory) (a : np_array) (idx : list nat) : Z :=
  nth (Z.to_nat (np_position a idx)) (nth (np_buffer a) m []) 0%Z.

(* the elements in logical order, as seen by Python *)
Definition np_elements (m : memory) (a : np_array) : list Z := map (np_get m a) (all_indices (np_shape a)).

(* array.flags.c_contiguous, from the last axis to the first one *)
Fixpoint np_contiguous_loop (axes : list (nat * Z)) (expected : Z) : bool :=
  match axes with
  | [] => true
  | (n, s) :: axes' =>
      if n =? 1 then np_contiguous_loop axes' expected
      else if (s =? expected)%Z then np_contiguous_loop axes' (expected * Z.of_nat n)%Z
      else false
  end.

Definition np_c_contiguous (a : np_array) : bool :=
  existsb (Nat.eqb 0) (np_shape a) || np_contiguous_loop (rev (combine (np_shape a) (np_strides a))) 1.

(** * Callbacks *)

(* a new buffer with these elements, in row-major order *)
Definition np_new (m : memory) (shape : list nat) (dtype : np_type) (elements : list Z) : memory * np_array :=
  (m ++ [elements], mk_np (length m) 0 shape (map Z.of_nat (row_major_strides shape)) dtype).

(* equistore/data.py:211-235 -- _eqs_array_data, what the library reads from the
   pointer. None is an exception. *)
Definition np_data (m : memory) (a : np_array) : option (list Z) :=
  if np_c_contiguous a && np_type_eqb (np_dtype a) Float64
  then Some (firstn (prod (np_shape a)) (skipn (Z.to_nat (np_offset a)) (nth (np_buffer a) m [])))
  else None.

(* equistore/data.py:246-255 -- _eqs_array_reshape *)
Definition np_reshape (f : np_rules) (m : memory) (a : np_array) (shape : list nat) : option (memory * np_array) :=
  if prod shape =? prod (np_shape a) then
    match np_view f (np_shape a) (np_strides a) shape with
    | Some strides => Some (m, mk_np (np_buffer a) (np_offset a) shape strides (np_dtype a))
    | None => Some (np_new m shape (np_dtype a) (np_elements m a))
    end
  else None.

(* equistore/data.py:258-264 -- _eqs_array_swap_axes, always a view *)
Definition np_swap_axes (a : np_array) (axis_1 axis_2 : nat) : option np_array :=
  if (axis_1 <? length (np_shape a)) && (axis_2 <? length (np_shape a)) then
    Some (mk_np (np_buffer a) (np_offset a) (swap_nth axis_1 axis_2 (np_shape a))
            (swap_nth axis_1 axis_2 (np_strides a)) (np_dtype a))
  else None.

(* equistore/data.py:267-284 -- _eqs_array_create: numpy.zeros *)
Definition np_create (m : memory) (a : np_array) (shape : list nat) : memory * np_array :=
  np_new m shape (np_dtype a) (repeat 0%Z (prod shape)).

(* equistore/data.py:287-297 -- _eqs_array_copy: the copy is in row-major order *)
Definition np_copy (m : memory) (a : np_array) : memory * np_array :=
  np_new m (np_shape a) (np_dtype a) (np_elements m a).

(* the value of an assignment can have more axes than the destination, if the
   first ones have a length of one *)
Fixpoint strip_axes (n : nat) (shape : list nat) : list nat :=
  match shape with
  | 1 :: shape' => if n <? length shape then strip_axes n shape' else shape
  | _ => shape
  end.

(* equistore/data.py:306-327 -- _eqs_array_move_samples_from
     output[output_samples, ..., start:stop] = input[input_samples, ..., :]
   The value is a copy. It is broadcast to the destination, with one more axis for
   the samples; the slice is reduced to the properties which exist. If a sample is
   more than once in the output, the last value is kept. None is an exception, in
   which case nothing was modified. numpy does not always check the indexes of
   arrays without elements; here they are always checked. *)
Definition np_move_samples (f : np_rules) (m : memory) (input output : np_array)
    (samples : list sample_mapping) (start stop : nat) : option memory :=
  match np_shape input, np_shape output with
  | n_in :: _ :: _, n_out :: _ :: _ =>
      let in_shape := tl (np_shape input) in
      let out_shape := tl (np_shape output) in
      let start := min start (last out_shape 0) in
      let stop := min stop (last out_shape 0) in
      let location := set_last out_shape (stop - start) in
      let destination := length samples :: location in
      let value_shape := strip_axes (length destination) (length samples :: in_shape) in
      if forallb (fun s => (sm_input s <? n_in) && (sm_output s <? n_out)) samples
         && broadcastable (rev value_shape) (rev destination)
      then
        let value := mk_nd value_shape
          (flat_map (fun s => map (fun local => np_cast f (np_dtype input) (np_dtype output) (np_get m input (sm_input s :: local)))
             (all_indices in_shape)) samples) in
        let write buffer (js : nat * sample_mapping) :=
          fold_left (fun buffer local =>
              set_nth buffer
                (Z.to_nat (np_position output (sm_output (snd js) :: set_last local (last local 0 + start))))
                (nd_get value (rev (broadcast_index (rev value_shape) (rev destination) (rev (fst js :: local))))))
            (all_indices location) buffer in
        Some (set_nth m (np_buffer output)
                (fold_left write (combine (seq 0 (length samples)) samples) (nth (np_buffer output) m [])))
      else None
  | _, _ => None
  end.

(** * Programs using arrays *)

(* the memory, and the arrays of the ArrayWrapper objects: None after
   _eqs_array_destroy *)
Record np_state := mk_np_state {
  np_memory : memory;
  np_arrays : list (option np_array);
}.

(* The same commands as in Strided.v. The data is what Python sees, and not only
   what the library can read. When move_samples_from fails the output is destroyed,
   as all the callers do. *)
Definition numpy_step (f : np_rules) (s : np_state) (c : command) : np_state * response :=
  let m := np_memory s in
  let arrays := np_arrays s in
  match c with
  | GetShape i => (s, match live arrays i with Some a => Shape (np_shape a) | None => Invalid end)
  | GetData i => (s, match live arrays i with Some a => Data (np_elements m a) | None => Invalid end)
  | Create i shape =>
      match live arrays i with
      | Some a => let '(m, a') := np_create m a shape in (mk_np_state m (arrays ++ [Some a']), Done)
      | None => (s, Invalid)
      end
  | Copy i =>
      match live arrays i with
      | Some a => let '(m, a') := np_copy m a in (mk_np_state m (arrays ++ [Some a']), Done)
      | None => (s, Invalid)
      end
  | Destroy i =>
      match live arrays i with Some _ => (mk_np_state m (set_nth arrays i None), Done) | None => (s, Invalid) end
  | Reshape i shape =>
      match live arrays i with
      | Some a =>
          match np_reshape f m a shape with
          | Some (m, a') => (mk_np_state m (set_nth arrays i (Some a')), Done)
          | None => (s, Failed)
          end
      | None => (s, Invalid)
      end
  | SwapAxes i axis_1 axis_2 =>
      match live arrays i with
      | Some a =>
          match np_swap_axes a axis_1 axis_2 with
          | Some a' => (mk_np_state m (set_nth arrays i (Some a')), Done)
          | None => (s, Failed)
          end
      | None => (s, Invalid)
      end
  | MoveSamples o i samples start stop =>
      if o =? i then (s, Invalid) else
      match live arrays o, live arrays i with
      | Some output, Some input =>
          match np_move_samples f m input output samples start stop with
          | Some m => (mk_np_state m arrays, Done)
          | None => (mk_np_state m (set_nth arrays o None), Failed)
          end
      | _, _ => (s, Invalid)
      end
  end.

(* the state after a list of commands *)
Definition numpy_run (f : np_rules) (s : np_state) (commands : list command) : np_state :=
  fold_left (fun s c => fst (numpy_step f s c)) commands s.

(* The same callback for the arrays of Array.v, stored one after the other in
   row-major order *)
Definition numpy_move (f : np_rules) (output input : eqs_array) (samples : list sample_mapping) (start stop : nat) : outcome eqs_array :=
  let stored_input := np_new [] (nd_shape (a_nd input)) Float64 (nd_data (a_nd input)) in
  let stored_output := np_new (fst stored_input) (nd_shape (a_nd output)) Float64 (nd_data (a_nd output)) in
  match np_move_samples f (fst stored_output) (snd stored_input) (snd stored_output) samples start stop with
  | Some m => Ok (with_nd output (mk_nd (nd_shape (a_nd output)) (np_elements m (snd stored_output))))
  | None => callback_error OpMoveSamples (-1)
  end.
