(* ndarray::ArrayD<f64> with its elements as they are in memory, to justify the
   model of Array.v where the elements are in logical order. The operations are
   the ones of src/data.rs:671-733; the crate (ndarray 0.15) is not part of the
   repository, see Layout.v. *)
From Coq Require Import Permutation.
From Verif Require Import Base Array.
Local Open Scope list_scope.
Local Open Scope nat_scope.

(* an array which owns its elements. The first element is always the first one of
   the buffer, since the strides are not negative. *)
Record strided := mk_strided {
  st_shape : list nat;
  st_strides : list nat;
  st_buffer : list Z;
}.

(* position in memory of the element at a multi-index *)
Fixpoint position (strides idx : list nat) : nat :=
  match strides, idx with
  | s :: strides', i :: idx' => i * s + position strides' idx'
  | _, _ => 0
  end.

Definition st_get (a : strided) (idx : list nat) : Z :=
  nth (position (st_strides a) idx) (st_buffer a) 0%Z.

(* iteration in logical order *)
Definition st_elements (a : strided) : list Z := map (st_get a) (all_indices (st_shape a)).

(* src/data.rs:684-686 -- create: Array::from_elem(shape, 0.0) *)
Definition st_create (shape : list nat) : strided :=
  mk_strided shape (default_strides shape) (repeat 0%Z (prod shape)).

(* src/data.rs:692-694 -- data: as_slice, None when it is not in standard layout *)
Definition st_data (a : strided) : option (list Z) :=
  if is_standard_layout (st_shape a) (st_strides a)
  then Some (firstn (prod (st_shape a)) (st_buffer a)) else None.

(* a view to_owned(): as_slice_memory_order().to_vec() with the same strides, or a
   copy of the elements one by one *)
Definition st_to_owned (view : strided) : strided :=
  if is_contiguous (st_shape view) (st_strides view)
  then mk_strided (st_shape view) (st_strides view) (firstn (prod (st_shape view)) (st_buffer view))
  else mk_strided (st_shape view) (default_strides (st_shape view)) (st_elements view).

(* to_shape: a view of the same elements, or an array in row-major order; None
   is an error *)
Definition st_to_shape (shape : list nat) (a : strided) : option strided :=
  if prod shape =? prod (st_shape a) then
    if prod (st_shape a) =? 0 then Some (mk_strided shape (default_strides shape) (st_buffer a))
    else
      match reshape_dim (st_shape a) (st_strides a) shape with
      | inl strides => Some (mk_strided shape strides (st_buffer a))
      | inr IncompatibleShape => None
      | inr IncompatibleLayout => Some (mk_strided shape (default_strides shape) (st_elements a))
      end
  else None.

(* src/data.rs:700-704 -- reshape: the array, and whether the call returned.
   std::mem::take leaves ArrayD::default(), one axis of length zero. *)
Definition st_reshape (shape : list nat) (a : strided) : strided * bool :=
  match st_to_shape shape a with
  | Some view => (st_to_owned view, true)
  | None => (st_create [0], false)
  end.

(* src/data.rs:706-708 -- swap_axes: the elements do not move *)
Definition st_swap_axes (axis_1 axis_2 : nat) (a : strided) : option strided :=
  if (axis_1 <? length (st_shape a)) && (axis_2 <? length (st_shape a)) then
    Some (mk_strided (swap_nth axis_1 axis_2 (st_shape a)) (swap_nth axis_1 axis_2 (st_strides a)) (st_buffer a))
  else None.

(* src/data.rs:722-732 -- one iteration of move_samples_from: the elements of the
   slice are written one by one. None when ndarray panics. *)
Definition st_move_one (start stop : nat) (input output : strided) (m : sample_mapping) : option strided :=
  match st_shape input, st_shape output with
  | n_in :: in_shape, n_out :: out_shape =>
      let location := set_last out_shape (stop - start) in
      if (sm_input m <? n_in) && (sm_output m <? n_out)
         && (start <=? last out_shape 0) && (stop <=? last out_shape 0)
         && broadcastable (rev in_shape) (rev location)
      then
        Some (mk_strided (st_shape output) (st_strides output)
          (fold_left (fun buffer local =>
             set_nth buffer
               (position (st_strides output) (sm_output m :: set_last local (last local 0 + start)))
               (st_get input (sm_input m :: rev (broadcast_index (rev in_shape) (rev location) (rev local)))))
             (all_indices location) (st_buffer output)))
      else None
  | _, _ => None
  end.

Fixpoint st_move_loop (start stop : nat) (input output : strided) (samples : list sample_mapping) : option strided :=
  match samples with
  | [] => Some output
  | m :: samples' =>
      match st_move_one start stop input output m with
      | Some output' => st_move_loop start stop input output' samples'
      | None => None
      end
  end.

(* src/data.rs:710-733 -- move_samples_from *)
Definition st_move_samples (input output : strided) (samples : list sample_mapping) (start stop : nat) : option strided :=
  if length (st_shape output) <? 2 then None
  else st_move_loop start stop input output samples.

(** * Programs using arrays *)

Inductive command :=
| GetShape (i : nat) | GetData (i : nat)
| Create (i : nat) (shape : list nat) | Copy (i : nat) | Destroy (i : nat)
| Reshape (i : nat) (shape : list nat) | SwapAxes (i axis_1 axis_2 : nat)
| MoveSamples (output input : nat) (samples : list sample_mapping) (start stop : nat).

(* what the program sees *)
Inductive response :=
| Shape (shape : list nat) | Data (data : list Z) | Done | Failed | Invalid.

(* a program chooses each command from the previous responses *)
Inductive client := Stop | Call (c : command) (next : response -> client).

Fixpoint run {S} (step : S -> command -> S * response) (p : client) (s : S) : list response :=
  match p with
  | Stop => []
  | Call c next => let '(s', r) := step s c in r :: run step (next r) s'
  end.

(* live arrays; None after Destroy *)
Definition live {A} (arrays : list (option A)) (i : nat) : option A :=
  match nth_error arrays i with Some (Some a) => Some a | _ => None end.

(* the arrays as they are in memory. When move_samples_from fails the output is
   destroyed, as all the callers do; an array is not moved to itself, which Rust
   does not allow. *)
Definition memory_step (arrays : list (option strided)) (c : command) : list (option strided) * response :=
  match c with
  | GetShape i => (arrays, match live arrays i with Some a => Shape (st_shape a) | None => Invalid end)
  | GetData i =>
      (arrays, match live arrays i with
               | Some a => match st_data a with Some data => Data data | None => Failed end
               | None => Invalid
               end)
  | Create i shape =>
      match live arrays i with Some _ => (arrays ++ [Some (st_create shape)], Done) | None => (arrays, Invalid) end
  | Copy i =>
      match live arrays i with Some a => (arrays ++ [Some a], Done) | None => (arrays, Invalid) end
  | Destroy i =>
      match live arrays i with Some _ => (set_nth arrays i None, Done) | None => (arrays, Invalid) end
  | Reshape i shape =>
      match live arrays i with
      | Some a => let '(a', done) := st_reshape shape a in (set_nth arrays i (Some a'), if done then Done else Failed)
      | None => (arrays, Invalid)
      end
  | SwapAxes i axis_1 axis_2 =>
      match live arrays i with
      | Some a =>
          match st_swap_axes axis_1 axis_2 a with
          | Some a' => (set_nth arrays i (Some a'), Done)
          | None => (arrays, Failed)
          end
      | None => (arrays, Invalid)
      end
  | MoveSamples o i samples start stop =>
      if o =? i then (arrays, Invalid) else
      match live arrays o, live arrays i with
      | Some output, Some input =>
          match st_move_samples input output samples start stop with
          | Some output' => (set_nth arrays o (Some output'), Done)
          | None => (set_nth arrays o None, Failed)
          end
      | _, _ => (arrays, Invalid)
      end
  end.

(* the same with the functions of Array.v *)
Definition array_step (arrays : list (option eqs_array)) (c : command) : list (option eqs_array) * response :=
  match c with
  | GetShape i =>
      (arrays, match live arrays i with
               | Some a => match array_shape a with Ok shape => Shape shape | _ => Failed end
               | None => Invalid
               end)
  | GetData i =>
      (arrays, match live arrays i with
               | Some a => match array_data a with Ok data => Data data | _ => Failed end
               | None => Invalid
               end)
  | Create i shape =>
      match live arrays i with
      | Some a => match array_create a shape with Ok a' => (arrays ++ [Some a'], Done) | _ => (arrays, Failed) end
      | None => (arrays, Invalid)
      end
  | Copy i =>
      match live arrays i with
      | Some a => match array_clone a with Ok a' => (arrays ++ [Some a'], Done) | _ => (arrays, Failed) end
      | None => (arrays, Invalid)
      end
  | Destroy i =>
      match live arrays i with Some _ => (set_nth arrays i None, Done) | None => (arrays, Invalid) end
  | Reshape i shape =>
      match live arrays i with
      | Some a =>
          let '(a', result) := array_reshape a shape in
          (set_nth arrays i (Some a'), match result with Ok _ => Done | _ => Failed end)
      | None => (arrays, Invalid)
      end
  | SwapAxes i axis_1 axis_2 =>
      match live arrays i with
      | Some a =>
          let '(a', result) := array_swap_axes a axis_1 axis_2 in
          (set_nth arrays i (Some a'), match result with Ok _ => Done | _ => Failed end)
      | None => (arrays, Invalid)
      end
  | MoveSamples o i samples start stop =>
      if o =? i then (arrays, Invalid) else
      match live arrays o, live arrays i with
      | Some output, Some input =>
          match array_move_samples_from output input samples start stop with
          | Ok output' => (set_nth arrays o (Some output'), Done)
          | _ => (set_nth arrays o None, Failed)
          end
      | _, _ => (arrays, Invalid)
      end
  end.

(** * Relation with Array.v *)

(* each element of the buffer is the one of exactly one multi-index *)
Definition no_gap (a : strided) : Prop :=
  length (st_strides a) = length (st_shape a)
  /\ Permutation (map (position (st_strides a)) (all_indices (st_shape a))) (seq 0 (length (st_buffer a))).

(* the same array in the model of Array.v *)
Definition as_array (a : strided) : eqs_array :=
  mk_array RustNdarray (mk_nd (st_shape a) (st_elements a)) (st_strides a) rust_callbacks.
