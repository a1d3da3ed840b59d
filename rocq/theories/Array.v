(* Model of the array interface of src/data.rs: eqs_array_t, its Rust
   implementations (ndarray::ArrayD<f64> and EmptyArray), and well-behaved
   foreign implementations whose callbacks can fail. *)
From Verif Require Import Base.
From Verif Require Export Layout.
Local Open Scope string_scope.
Local Open Scope list_scope.
Local Open Scope nat_scope.

(** * Logical n-dimensional arrays (ndarray::ArrayD<f64>)

    An array is its shape and its elements in logical row-major order. Elements
    are 64-bit patterns. The memory layout is separate, see [a_strides] below;
    Strided.v has the elements as they are in memory. *)
Record ndarray := mk_nd {
  nd_shape : list nat;
  nd_data : list Z;
}.

(* row-major position of a multi-index *)
Fixpoint ravel (shape idx : list nat) : nat :=
  match shape, idx with
  | _ :: shape', i :: idx' => i * prod shape' + ravel shape' idx'
  | _, _ => 0
  end.

(* all the multi-indices of a shape, in row-major order *)
Fixpoint all_indices (shape : list nat) : list (list nat) :=
  match shape with
  | [] => [[]]
  | n :: r => flat_map (fun i => map (cons i) (all_indices r)) (seq 0 n)
  end.

(* element at a multi-index; the default is only used on indices which are not
   valid for the array *)
Definition nd_get (a : ndarray) (idx : list nat) : Z :=
  nth (ravel (nd_shape a) idx) (nd_data a) 0%Z.

Definition nd_tabulate (shape : list nat) (f : list nat -> Z) : ndarray :=
  mk_nd shape (map f (all_indices shape)).

(* src/data.rs:684-686 -- ndarray::Array::from_elem(shape, 0.0) *)
Definition nd_zeros (shape : list nat) : ndarray :=
  mk_nd shape (repeat 0%Z (prod shape)).

(* src/data.rs:706-708 -- ndarray swap_axes, None when an axis is out of bounds
   (ndarray panics) *)
Definition nd_swap_axes (axis_1 axis_2 : nat) (a : ndarray) : option ndarray :=
  if (axis_1 <? length (nd_shape a)) && (axis_2 <? length (nd_shape a)) then
    Some (nd_tabulate (swap_nth axis_1 axis_2 (nd_shape a))
                      (fun idx => nd_get a (swap_nth axis_1 axis_2 idx)))
  else None.

(* ndarray to_shape: row-major logical order is kept, None when the number of
   elements differs *)
Definition nd_to_shape (shape : list nat) (a : ndarray) : option ndarray :=
  if prod shape =? length (nd_data a) then Some (mk_nd shape (nd_data a)) else None.

(* ndarray::ArrayD::default(): one axis of length zero *)
Definition nd_default : ndarray := mk_nd [0] [].

(* ndarray broadcasting, on reversed shapes: each trailing axis of the source
   is equal to the destination axis or has length one *)
Fixpoint broadcastable (source destination : list nat) : bool :=
  match source, destination with
  | [], _ => true
  | s :: source', d :: destination' => ((s =? d) || (s =? 1)) && broadcastable source' destination'
  | _ :: _, [] => false
  end.

(* the (reversed) index in the source for a (reversed) index of the destination *)
Fixpoint broadcast_index (source destination idx : list nat) : list nat :=
  match source, destination, idx with
  | s :: source', d :: destination', i :: idx' =>
      (if s =? d then i else 0) :: broadcast_index source' destination' idx'
  | _, _, _ => []
  end.

(* src/data.rs:167-175 -- eqs_sample_mapping_t *)
Record sample_mapping := mk_mapping {
  sm_input : nat;
  sm_output : nat;
}.

(* last axis of a shape replaced *)
Definition set_last (shape : list nat) (n : nat) : list nat :=
  removelast shape ++ [n].

(* src/data.rs:722-732 -- one iteration of the loop in move_samples_from:
     output[sample.output, ..., start..stop].assign(&input[sample.input])
   None when ndarray panics: index or slice out of bounds, or shapes which can
   not be broadcast. *)
Definition nd_move_one (start stop : nat) (input output : ndarray) (m : sample_mapping)
  : option ndarray :=
  match nd_shape input, nd_shape output with
  | n_in :: in_shape, n_out :: out_shape =>
      let n_properties := last out_shape 0 in
      let location := set_last out_shape (stop - start) in
      if (sm_input m <? n_in) && (sm_output m <? n_out)
         && (start <=? n_properties) && (stop <=? n_properties)
         && broadcastable (rev in_shape) (rev location)
      then
        Some (nd_tabulate (nd_shape output) (fun idx =>
          let rest := tl idx in
          let property := last rest 0 in
          if (hd 0 idx =? sm_output m) && (start <=? property) && (property <? stop)
          then
            let local := set_last rest (property - start) in
            nd_get input (sm_input m
              :: rev (broadcast_index (rev in_shape) (rev location) (rev local)))
          else nd_get output idx))
      else None
  | _, _ => None
  end.

(* src/data.rs:710-733 -- move_samples_from for ndarray. `self.shape().len() - 2`
   requires two axes; (with fewer axes a release build would only panic later,
   when using the wrapped axis number). *)
Fixpoint nd_move_loop (start stop : nat) (input output : ndarray) (samples : list sample_mapping)
  : option ndarray :=
  match samples with
  | [] => Some output
  | m :: samples' =>
      match nd_move_one start stop input output m with
      | Some output' => nd_move_loop start stop input output' samples'
      | None => None
      end
  end.

Definition nd_move_samples (input output : ndarray) (samples : list sample_mapping) (start stop : nat)
  : option ndarray :=
  if length (nd_shape output) <? 2 then None
  else nd_move_loop start stop input output samples.

(** * eqs_array_t *)

(* Which implementation is behind the vtable. The origin identifier registered
   by each implementation is represented by the kind itself. *)
Inductive array_kind :=
| RustNdarray
| RustEmptyArray
| ForeignArray (origin : nat).

Definition kind_eqb (k1 k2 : array_kind) : bool :=
  match k1, k2 with
  | RustNdarray, RustNdarray => true
  | RustEmptyArray, RustEmptyArray => true
  | ForeignArray o1, ForeignArray o2 => o1 =? o2
  | _, _ => false
  end.

Inductive array_op :=
| OpOrigin | OpData | OpShape | OpReshape | OpSwapAxes | OpCreate | OpCopy | OpMoveSamples.

Definition op_name (op : array_op) : string :=
  match op with
  | OpOrigin => "origin" | OpData => "data" | OpShape => "shape" | OpReshape => "reshape"
  | OpSwapAxes => "swap_axes" | OpCreate => "create" | OpCopy => "copy"
  | OpMoveSamples => "move_samples_from"
  end.

(* What a callback of a foreign array does: work as documented, be a NULL
   function pointer, or return a non-zero status (a status of zero is
   success). *)
Inductive callback := Works | Missing | Fails (status : Z).

(* src/data.rs:59-165 -- eqs_array_t. The strides are the ones of an ndarray of Rust,
   or of numpy (PyIo.v); they have no meaning for other arrays. *)
Record eqs_array := mk_array {
  a_kind : array_kind;
  a_nd : ndarray;
  a_strides : list nat;
  a_callbacks : array_op -> callback;
}.

(* the Rust implementations provide all the callbacks (src/data.rs:218-234) *)
Definition rust_callbacks : array_op -> callback := fun _ => Works.
(* an ndarray in standard layout: ndarray::Array::from_elem, from_shape_vec *)
Definition rust_ndarray (a : ndarray) : eqs_array :=
  mk_array RustNdarray a (default_strides (nd_shape a)) rust_callbacks.
Definition rust_empty_array (shape : list nat) : eqs_array :=
  mk_array RustEmptyArray (mk_nd shape []) [] rust_callbacks.

(* other elements, with the same strides *)
Definition with_nd (a : eqs_array) (nd : ndarray) : eqs_array :=
  mk_array (a_kind a) nd (a_strides a) (a_callbacks a).

Definition with_layout (a : eqs_array) (nd : ndarray) (strides : list nat) : eqs_array :=
  mk_array (a_kind a) nd strides (a_callbacks a).

(* src/c_api/status.rs:20 -- EQS_INTERNAL_ERROR, the status returned by the
   rust_array_xxx callbacks when the Rust implementation panics *)
Definition internal_error_status : Z := 255.

(* "calling eqs_array_t.xxx failed" *)
Definition callback_error {A} (op : array_op) (status : Z) : outcome A :=
  Err (External status ("calling eqs_array_t." +++ op_name op +++ " failed")).

(* common part of src/data.rs:272-452: check that the callback is set, call it,
   and check its status *)
Definition call {A} (a : eqs_array) (op : array_op) (body : outcome A) : outcome A :=
  match a_kind a with
  | ForeignArray _ =>
      match a_callbacks a op with
      | Works => body
      | Missing => Panic ("eqs_array_t." +++ op_name op +++ " function is NULL")
      | Fails status => if (status =? 0)%Z then body else callback_error op status
      end
  | _ => body
  end.

(* src/data.rs:272-287 -- origin *)
Definition array_origin (a : eqs_array) : outcome array_kind :=
  call a OpOrigin (Ok (a_kind a)).

(* src/data.rs:323-348 -- shape *)
Definition array_shape (a : eqs_array) : outcome (list nat) :=
  call a OpShape (Ok (nd_shape (a_nd a))).

(* src/data.rs:290-320 -- data. EmptyArray::data panics (src/data.rs:767-769),
   which the callback reports as an internal error, and so does ndarray when the
   elements are not in row-major order in memory (src/data.rs:692-694). *)
Definition array_data (a : eqs_array) : outcome (list Z) :=
  let? _ := array_shape a in
  call a OpData
    match a_kind a with
    | RustEmptyArray => callback_error OpData internal_error_status
    | RustNdarray =>
        if is_standard_layout (nd_shape (a_nd a)) (a_strides a) then Ok (nd_data (a_nd a))
        else callback_error OpData internal_error_status
    | ForeignArray _ => Ok (nd_data (a_nd a))
    end.

(* the strides after to_shape and to_owned, which are always defined for arrays of
   the same size *)
Definition reshaped_strides (a : eqs_array) (shape : list nat) : list nat :=
  match to_shape_strides (nd_shape (a_nd a)) (a_strides a) shape with
  | Some strides => strides
  | None => []
  end.

(* src/data.rs:351-369 -- reshape; src/data.rs:700-704 for ndarray (the array is
   taken out of `self` before the sizes are checked), src/data.rs:783-785 for
   EmptyArray. A foreign array with the wrong size is left unchanged and reports
   status -1. *)
Definition array_reshape (a : eqs_array) (shape : list nat) : eqs_array * outcome unit :=
  match a_kind a with
  | RustNdarray =>
      match nd_to_shape shape (a_nd a) with
      | Some nd => (with_layout a nd (reshaped_strides a shape), Ok tt)
      | None =>
          (with_layout a nd_default (default_strides (nd_shape nd_default)),
           callback_error OpReshape internal_error_status)
      end
  | RustEmptyArray => (with_nd a (mk_nd shape []), Ok tt)
  | ForeignArray _ =>
      match call a OpReshape (Ok tt) with
      | Ok _ =>
          match nd_to_shape shape (a_nd a) with
          | Some nd => (with_nd a nd, Ok tt)
          | None => (a, callback_error OpReshape (-1))
          end
      | other => (a, other)
      end
  end.

(* src/data.rs:372-390 -- swap_axes; src/data.rs:706-708 for ndarray,
   src/data.rs:787-789 for EmptyArray *)
Definition array_swap_axes (a : eqs_array) (axis_1 axis_2 : nat) : eqs_array * outcome unit :=
  match a_kind a with
  | RustNdarray =>
      match nd_swap_axes axis_1 axis_2 (a_nd a) with
      | Some nd => (with_layout a nd (swap_nth axis_1 axis_2 (a_strides a)), Ok tt)
      | None => (a, callback_error OpSwapAxes internal_error_status)
      end
  | RustEmptyArray =>
      let shape := nd_shape (a_nd a) in
      if (axis_1 <? length shape) && (axis_2 <? length shape)
      then (with_nd a (mk_nd (swap_nth axis_1 axis_2 shape) []), Ok tt)
      else (a, callback_error OpSwapAxes internal_error_status)
  | ForeignArray _ =>
      match call a OpSwapAxes (Ok tt) with
      | Ok _ =>
          match nd_swap_axes axis_1 axis_2 (a_nd a) with
          | Some nd => (with_nd a nd, Ok tt)
          | None => (a, callback_error OpSwapAxes (-1))
          end
      | other => (a, other)
      end
  end.

(* src/data.rs:393-414 -- create; src/data.rs:684-686 for ndarray,
   src/data.rs:771-773 for EmptyArray. A foreign array creates an array of the
   same kind, filled with zeros, with the same callbacks. *)
Definition array_create (a : eqs_array) (shape : list nat) : outcome eqs_array :=
  match a_kind a with
  | RustEmptyArray => Ok (rust_empty_array shape)
  | _ => call a OpCreate (Ok (with_layout a (nd_zeros shape) (default_strides shape)))
  end.

(* src/data.rs:426-452 -- move_samples_from. The new value of the output array
   is returned; when the call fails every caller drops the output, so its
   partially written content is not modelled.
   - src/data.rs:642-661: the Rust callback casts the input pointer to a Rust
     array without checking, which is undefined behaviour for foreign inputs;
   - src/data.rs:721: a Rust input which is not an ndarray panics;
   - src/data.rs:791-793: EmptyArray always panics;
   - a foreign array is only specified for inputs of its own origin. *)
Definition array_move_samples_from
    (output input : eqs_array) (samples : list sample_mapping) (start stop : nat)
  : outcome eqs_array :=
  match a_kind output, a_kind input with
  | RustNdarray, RustNdarray =>
      match nd_move_samples (a_nd input) (a_nd output) samples start stop with
      | Some nd => Ok (with_nd output nd)
      | None => callback_error OpMoveSamples internal_error_status
      end
  | RustNdarray, RustEmptyArray
  | RustEmptyArray, RustNdarray
  | RustEmptyArray, RustEmptyArray => callback_error OpMoveSamples internal_error_status
  | ForeignArray o1, ForeignArray o2 =>
      if o1 =? o2 then
        call output OpMoveSamples
          match nd_move_samples (a_nd input) (a_nd output) samples start stop with
          | Some nd => Ok (with_nd output nd)
          | None => callback_error OpMoveSamples (-1)
          end
      else Undefined "move_samples_from on arrays from different origins"
  | _, _ => Undefined "move_samples_from on arrays from different origins"
  end.

(* src/data.rs:202-213 -- impl Clone for eqs_array_t; src/data.rs:688-690 for
   ndarray and 775-777 for EmptyArray. Failures are panics. *)
Definition array_clone (a : eqs_array) : outcome eqs_array :=
  match a_kind a with
  | ForeignArray _ =>
      match a_callbacks a OpCopy with
      | Works => Ok a
      | Missing => Panic "function eqs_array_t.copy is not set"
      | Fails status => if (status =? 0)%Z then Ok a else Panic "calling eqs_array_t.copy failed"
      end
  | _ => Ok a
  end.
