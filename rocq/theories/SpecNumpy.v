(* Specification vocabulary, part 9: arrays of numpy.

   Only the data types of the model are used. *)
From Verif Require Import Base Labels Array Strided Spec SpecTensor Block Tensor Numpy.
Local Open Scope list_scope.
Local Open Scope nat_scope.

(* The elements are inside of the buffer. They can be in any order, shared with
   other arrays, and an element can be in the array more than once. *)
Definition in_memory (m : memory) (a : np_array) : Prop :=
  length (np_strides a) = length (np_shape a)
  /\ exists buffer, nth_error m (np_buffer a) = Some buffer
     /\ forall idx, in_bounds (np_shape a) idx -> (0 <= np_position a idx < Z.of_nat (length buffer))%Z.

(* no element is in the array more than once *)
Definition apart_elements (a : np_array) : Prop :=
  forall idx idx', in_bounds (np_shape a) idx -> in_bounds (np_shape a) idx' ->
    np_position a idx = np_position a idx' -> idx = idx'.

(* the documentation of numpy: converting an element to its own type does not
   change it, and reshape keeps the elements in row-major order *)
Definition follows_numpy (f : np_rules) : Prop :=
  (forall t z, np_cast f t t z = z)
  /\ forall shape strides shape' strides',
       length strides = length shape -> prod shape' = prod shape ->
       np_view f shape strides shape' = Some strides' ->
       length strides' = length shape'
       /\ map (np_distance strides') (all_indices shape') = map (np_distance strides) (all_indices shape).

(* the same array, in the model of Array.v: the elements seen by Python *)
Definition shown (origin : nat) (m : memory) (a : np_array) (b : eqs_array) : Prop :=
  a_kind b = ForeignArray origin
  /\ a_nd b = mk_nd (np_shape a) (np_elements m a)
  /\ forall op, a_callbacks b op = Works.

(* moves as the library makes them: to an array it created (the first [n] arrays
   are the ones given to the library), with all the properties of the input and
   the same components *)
Definition same_components (input output : list nat) (start stop : nat) : Prop :=
  exists n_in n_out components np P,
    input = n_in :: components ++ [np] /\ output = n_out :: components ++ [P]
    /\ stop = start + np /\ stop <= P.

Definition regular_command (n : nat) (arrays : list (option eqs_array)) (c : command) : Prop :=
  match c with
  | MoveSamples o i samples start stop =>
      n <= o
      /\ forall output input, live arrays o = Some output -> live arrays i = Some input ->
         same_components (shape_of input) (shape_of output) start stop
  | _ => True
  end.

Fixpoint regular (n : nat) (p : client) (arrays : list (option eqs_array)) : Prop :=
  match p with
  | Stop => True
  | Call c next =>
      regular_command n arrays c
      /\ regular n (next (snd (array_step arrays c))) (fst (array_step arrays c))
  end.

(* no array given to the library is the output of a move *)
Definition not_moved_to (n : nat) (c : command) : Prop :=
  match c with
  | MoveSamples o _ _ _ _ => n <= o
  | _ => True
  end.

(* and the arrays created by the library are only used for moves, as in
   keys_to_samples and keys_to_properties *)
Definition only_moved (n : nat) (c : command) : Prop :=
  match c with
  | MoveSamples o _ _ _ _ => n <= o
  | Reshape i _ | SwapAxes i _ _ => i < n
  | _ => True
  end.

(* the elements are one after the other in memory, in row-major order *)
Definition one_after_the_other (a : np_array) : Prop :=
  forall idx, in_bounds (np_shape a) idx -> np_position a idx = (np_offset a + Z.of_nat (offset (np_shape a) idx))%Z.

(** * Tensor maps with numpy arrays *)

Definition numpy_array (origin : nat) (a : eqs_array) : Prop :=
  a_kind a = ForeignArray origin /\ forall op, a_callbacks a op = Works.

Definition numpy_tensor (origin : nat) (t : TensorMap) : Prop :=
  forall b, In b (tm_blocks t) ->
    numpy_array origin (bb_data (tb_values b))
    /\ forall q g, In (q, g) (tb_gradients b) -> numpy_array origin (bb_data g).

(* [move] is what numpy does, at least for the moves above: for all the ways to
   store the elements in memory, if the output does not share its memory with the
   input, and if both have the same type *)
Definition acts_as_numpy (f : np_rules) (origin : nat)
    (move : eqs_array -> eqs_array -> list sample_mapping -> nat -> nat -> outcome eqs_array) : Prop :=
  forall m a b input output samples start stop,
    in_memory m a -> in_memory m b -> apart_elements b -> np_buffer a <> np_buffer b -> np_dtype a = np_dtype b ->
    shown origin m a input -> shown origin m b output ->
    same_components (np_shape a) (np_shape b) start stop ->
    move output input samples start stop
    = match np_move_samples f m a b samples start stop with
      | Some m' => Ok (with_nd output (mk_nd (np_shape b) (np_elements m' b)))
      | None => callback_error OpMoveSamples (-1)
      end.
