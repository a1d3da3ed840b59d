(* Specification vocabulary: the shape of arrays, for Python and for the library.

   Only the data types and the steps of the model are used. *)
From Verif Require Import Base Array Strided Spec Numpy Wrapper.
Local Open Scope list_scope.
Local Open Scope nat_scope.

(* the answer to an event *)
Definition asked (view : view_rule) (h : py_heap) (e : wrapper_event) : wrapper_answer := snd (wrapper_step view h e).

Definition then_heap (view : view_rule) (h : py_heap) (e : wrapper_event) : py_heap := fst (wrapper_step view h e).

(* storage.array *)
Definition array_is (h : py_heap) (w : nat) (o : array_object) : Prop :=
  exists wr i, nth_error (hp_wrappers h) w = Some wr /\ wr_array wr = Some i /\ nth_error (hp_objects h) i = Some o.

(* the documentation of numpy: the elements of a view are the same ones in row-major
   order *)
Definition keeps_the_order (view : view_rule) : Prop :=
  forall shape strides shape' strides',
    length strides = length shape -> prod shape' = prod shape ->
    view shape strides shape' = Some strides' ->
    length strides' = length shape'
    /\ map (np_distance strides') (all_indices shape') = map (np_distance strides) (all_indices shape).

(* the program does not use array.shape = ... *)
Definition never_sets_shapes (events : list wrapper_event) : Prop := forall o shape, ~ In (SetShape o shape) events.

(* array.dtype = ... is only used with types of the same number of bytes *)
Definition keeps_item_sizes (view : view_rule) (events : list wrapper_event) : Prop :=
  forall before i t after o,
    events = before ++ SetType i t :: after -> nth_error (hp_objects (wrapper_run view before)) i = Some o ->
    item_bytes t = item_bytes (ob_type o).

(* the [n] bytes at this position are in the buffer *)
Definition bytes_exist (h : py_heap) (buffer : nat) (position : Z) (n : nat) : Prop :=
  exists size, nth_error (hp_sizes h) buffer = Some size /\ (0 <= position)%Z /\ (position + Z.of_nat n <= Z.of_nat size)%Z.

(* the functions of the wrapper [w] which give it another array *)
Definition gives_another_array (e : wrapper_event) (w : nat) : Prop :=
  match e with
  | DoReshape w' _ | DoSwapAxes w' _ _ => w' = w
  | _ => False
  end.

(* the same list, with two elements exchanged *)
Definition exchanged (x y : nat) (l l' : list nat) : Prop :=
  forall k, nth_error l' k = nth_error l (if k =? x then y else if k =? y then x else k).
