(* ArrayWrapper of equistore/data.py (lines 159-203) remembers the shape its array had
   when it was created, while Python can change the array in place. Arrays are the
   objects of Python here, and not only their content as in Numpy.v: several
   variables can refer to the same one. Elements are not described, only where they
   are. Only arrays of numpy are described; numpy is not part of the repository, and
   the functions on arrays follow its documentation. *)
From Verif Require Import Base Array Strided Numpy.
Local Open Scope list_scope.
Local Open Scope nat_scope.

(* the type of elements: numpy.float64, or another type with its number of bytes *)
Inductive item_type := Double | OtherItem (bytes number : nat).

Definition item_bytes (t : item_type) : nat := match t with Double => 8 | OtherItem bytes _ => bytes end.

(* numpy.ndarray, with positions and distances in bytes *)
Record array_object := mk_object {
  ob_buffer : nat;
  ob_start : Z;
  ob_shape : list nat;
  ob_strides : list Z;
  ob_type : item_type;
}.

(* ArrayWrapper: .array (None after _eqs_array_destroy) and ._shape *)
Record wrapper := mk_wrapper {
  wr_array : option nat;
  wr_shape : list nat;
}.

Record py_heap := mk_heap {
  hp_sizes : list nat;                (* the number of bytes of each buffer *)
  hp_objects : list array_object;
  hp_wrappers : list wrapper;
}.

(* what numpy answers when a shape is changed: the distances of a view of the same
   elements, or None if there is no such view *)
Definition view_rule := list nat -> list Z -> list nat -> option (list Z).

(** * Arrays of numpy *)

Definition ob_address (o : array_object) (idx : list nat) : Z := (ob_start o + np_distance (ob_strides o) idx)%Z.

(* are all the elements in the buffer? *)
Definition ob_inside (sizes : list nat) (o : array_object) : bool :=
  (length (ob_strides o) =? length (ob_shape o))
  && match nth_error sizes (ob_buffer o) with
     | Some size =>
         forallb (fun idx => (0 <=? ob_address o idx)%Z
                             && (ob_address o idx + Z.of_nat (item_bytes (ob_type o)) <=? Z.of_nat size)%Z)
           (all_indices (ob_shape o))
     | None => false
     end.

(* array.data.c_contiguous *)
Definition ob_c_contiguous (o : array_object) : bool :=
  existsb (Nat.eqb 0) (ob_shape o)
  || np_contiguous_loop (rev (combine (ob_shape o) (ob_strides o))) (Z.of_nat (item_bytes (ob_type o))).

(* numpy.zeros, array.copy(): a new buffer, in row-major order *)
Definition new_object (buffer : nat) (shape : list nat) (t : item_type) : array_object :=
  mk_object buffer 0 shape (map (fun s => Z.of_nat (s * item_bytes t)) (row_major_strides shape)) t.

(* array.shape = shape *)
Definition change_shape (view : view_rule) (o : array_object) (shape : list nat) : option array_object :=
  if prod shape =? prod (ob_shape o) then
    match view (ob_shape o) (ob_strides o) shape with
    | Some strides => Some (mk_object (ob_buffer o) (ob_start o) shape strides (ob_type o))
    | None => None
    end
  else None.

(* array.strides = strides, with the verification that elements are in the buffer *)
Definition change_strides (sizes : list nat) (o : array_object) (strides : list Z) : option array_object :=
  let o' := mk_object (ob_buffer o) (ob_start o) (ob_shape o) strides (ob_type o) in
  if ob_inside sizes o' then Some o' else None.

(* array.dtype = t: with another number of bytes, the elements of the last axis have
   to be one after the other, and the length of this axis changes *)
Definition change_type (o : array_object) (t : item_type) : option array_object :=
  let before := item_bytes (ob_type o) in
  let after := item_bytes t in
  if after =? before then Some (mk_object (ob_buffer o) (ob_start o) (ob_shape o) (ob_strides o) t)
  else
    match rev (ob_shape o), rev (ob_strides o) with
    | n :: shape, s :: strides =>
        if (s =? Z.of_nat before)%Z && negb (after =? 0) && (n * before mod after =? 0) then
          Some (mk_object (ob_buffer o) (ob_start o) (rev (n * before / after :: shape))
                  (rev (Z.of_nat after :: strides)) t)
        else None
    | _, _ => None
    end.

(** * Programs *)

Inductive wrapper_event :=
(* statements of Python: numpy.zeros; a view of an array (slice, transpose...); the
   changes in place; ArrayWrapper(array) *)
| NewArray (shape : list nat) (t : item_type)
| ViewOf (o : nat) (start : Z) (shape : list nat) (strides : list Z)
| SetShape (o : nat) (shape : list nat)
| SetStrides (o : nat) (strides : list Z)
| SetType (o : nat) (t : item_type)
| Wrap (o : nat)
(* functions of the wrapper called by the library. _eqs_array_move_samples_from only
   changes elements. *)
| AskShape (w : nat)
| AskData (w : nat)
| DoReshape (w : nat) (shape : list nat)
| DoSwapAxes (w axis_1 axis_2 : nat)
| DoCreate (w : nat) (shape : list nat)
| DoCopy (w : nat)
| DoDestroy (w : nat).

Inductive wrapper_answer :=
| Finished
| Raised                              (* an exception, or no such object *)
| ShapeIs (shape : list nat)
| PointerTo (buffer : nat) (start : Z).

Definition with_object (h : py_heap) (i : nat) (o : option array_object) : py_heap * wrapper_answer :=
  match o with
  | Some o => (mk_heap (hp_sizes h) (set_nth (hp_objects h) i o) (hp_wrappers h), Finished)
  | None => (h, Raised)
  end.

(* the array of a wrapper, None if it was destroyed *)
Definition wrapped (h : py_heap) (w : nat) : option (wrapper * array_object) :=
  match nth_error (hp_wrappers h) w with
  | Some wr =>
      match wr_array wr with
      | Some i => option_map (pair wr) (nth_error (hp_objects h) i)
      | None => None
      end
  | None => None
  end.

(* storage.array = array; storage._shape = shape, where the array is a new object *)
Definition replace_array (h : py_heap) (w : nat) (o : array_object) (shape : list nat) : py_heap :=
  mk_heap (hp_sizes h) (hp_objects h ++ [o])
    (set_nth (hp_wrappers h) w (mk_wrapper (Some (length (hp_objects h))) shape)).

(* ArrayWrapper(array), where the array is a new object with a new buffer *)
Definition wrap_new (h : py_heap) (shape : list nat) (t : item_type) : py_heap :=
  mk_heap (hp_sizes h ++ [prod shape * item_bytes t]) (hp_objects h ++ [new_object (length (hp_sizes h)) shape t])
    (hp_wrappers h ++ [mk_wrapper (Some (length (hp_objects h))) shape]).

Definition wrapper_step (view : view_rule) (h : py_heap) (e : wrapper_event) : py_heap * wrapper_answer :=
  match e with
  | NewArray shape t =>
      (mk_heap (hp_sizes h ++ [prod shape * item_bytes t]) (hp_objects h ++ [new_object (length (hp_sizes h)) shape t])
         (hp_wrappers h), Finished)
  | ViewOf i start shape strides =>
      match nth_error (hp_objects h) i with
      | Some o =>
          let o' := mk_object (ob_buffer o) start shape strides (ob_type o) in
          if ob_inside (hp_sizes h) o' then (mk_heap (hp_sizes h) (hp_objects h ++ [o']) (hp_wrappers h), Finished)
          else (h, Raised)
      | None => (h, Raised)
      end
  | SetShape i shape =>
      match nth_error (hp_objects h) i with
      | Some o => with_object h i (change_shape view o shape)
      | None => (h, Raised)
      end
  | SetStrides i strides =>
      match nth_error (hp_objects h) i with
      | Some o => with_object h i (change_strides (hp_sizes h) o strides)
      | None => (h, Raised)
      end
  | SetType i t =>
      match nth_error (hp_objects h) i with
      | Some o => with_object h i (change_type o t)
      | None => (h, Raised)
      end
  (* equistore/data.py:162-164 *)
  | Wrap i =>
      match nth_error (hp_objects h) i with
      | Some o => (mk_heap (hp_sizes h) (hp_objects h) (hp_wrappers h ++ [mk_wrapper (Some i) (ob_shape o)]), Finished)
      | None => (h, Raised)
      end
  (* equistore/data.py:238-243 -- _eqs_array_shape *)
  | AskShape w =>
      (h, match nth_error (hp_wrappers h) w with Some wr => ShapeIs (wr_shape wr) | None => Raised end)
  (* equistore/data.py:210-235 -- _eqs_array_data *)
  | AskData w =>
      (h, match wrapped h w with
          | Some (_, o) =>
              if ob_c_contiguous o then
                match ob_type o with Double => PointerTo (ob_buffer o) (ob_start o) | OtherItem _ _ => Raised end
              else Raised
          | None => Raised
          end)
  (* equistore/data.py:246-255 -- _eqs_array_reshape: a view, or a copy *)
  | DoReshape w shape =>
      match wrapped h w with
      | Some (_, o) =>
          if prod shape =? prod (ob_shape o) then
            match change_shape view o shape with
            | Some o' => (replace_array h w o' shape, Finished)
            | None =>
                (replace_array (mk_heap (hp_sizes h ++ [prod shape * item_bytes (ob_type o)]) (hp_objects h) (hp_wrappers h))
                   w (new_object (length (hp_sizes h)) shape (ob_type o)) shape, Finished)
            end
          else (h, Raised)
      | None => (h, Raised)
      end
  (* equistore/data.py:258-264 -- _eqs_array_swap_axes: a view *)
  | DoSwapAxes w axis_1 axis_2 =>
      match wrapped h w with
      | Some (_, o) =>
          if (axis_1 <? length (ob_shape o)) && (axis_2 <? length (ob_shape o)) then
            let shape := swap_nth axis_1 axis_2 (ob_shape o) in
            (replace_array h w
               (mk_object (ob_buffer o) (ob_start o) shape (swap_nth axis_1 axis_2 (ob_strides o)) (ob_type o)) shape,
             Finished)
          else (h, Raised)
      | None => (h, Raised)
      end
  (* equistore/data.py:267-284 -- _eqs_array_create *)
  | DoCreate w shape =>
      match wrapped h w with
      | Some (_, o) => (wrap_new h shape (ob_type o), Finished)
      | None => (h, Raised)
      end
  (* equistore/data.py:287-297 -- _eqs_array_copy *)
  | DoCopy w =>
      match wrapped h w with
      | Some (_, o) => (wrap_new h (ob_shape o) (ob_type o), Finished)
      | None => (h, Raised)
      end
  (* equistore/data.py:300-303 -- _eqs_array_destroy *)
  | DoDestroy w =>
      match nth_error (hp_wrappers h) w with
      | Some wr => (mk_heap (hp_sizes h) (hp_objects h) (set_nth (hp_wrappers h) w (mk_wrapper None (wr_shape wr))), Finished)
      | None => (h, Raised)
      end
  end.

Definition wrapper_run (view : view_rule) (events : list wrapper_event) : py_heap :=
  fold_left (fun h e => fst (wrapper_step view h e)) events (mk_heap [] [] []).
