(* What src/data.rs:144-165 says about move_samples_from, for the calls which are made *)
From Verif Require Import Base Labels Array Block Tensor Callbacks SpecCallbacks.
Local Open Scope string_scope.
Local Open Scope list_scope.
Local Open Scope nat_scope.

(* the shape of the input and output arrays allow
   array[samples[i].output, ..., property_start:property_end] = input[samples[i].input, ..., :]
   and all the samples of the input are moved, to different samples of the output *)
Definition right_move (input output : list nat) (samples : list sample_mapping) (start stop : nat) : Prop :=
  (exists n_in n_out components n_properties P,
    input = n_in :: components ++ [n_properties] /\ output = n_out :: components ++ [P]
    /\ stop = start + n_properties /\ stop <= P
    /\ map sm_input samples = seq 0 n_in
    /\ Forall (fun m => sm_output m < n_out) samples)
  /\ NoDup (map sm_output samples).

(* the array [o] was made by `create`, called on the array [a] with this shape, and
   still exists *)
Definition made_by (before : trace) (o a : nat) (shape : list nat) : Prop :=
  exists before_1 an before_2, before = before_1 ++ (QCreate a shape, an) :: before_2
    /\ works an = true /\ an_new an = o
    /\ Forall (fun '(c, an) => created c an <> Some o /\ c <> QDestroy o) before_2.

(* The guarantee: [arrays] are the arrays of the tensor map, [shape] are their shapes *)
Definition good_moves (arrays : list nat) (shape : nat -> list nat) (tr : trace) : Prop :=
  forall before o i samples start stop an after, tr = before ++ (QMove o i samples start stop, an) :: after ->
    In i arrays
    /\ exists a output, In a arrays /\ made_by before o a output /\ right_move (shape i) output samples start stop.

(* the functions give the shape of the arrays of the tensor map when they work *)
Definition honest (arrays : list nat) (shape : nat -> list nat) (tr : trace) : Prop :=
  Forall (fun '(c, an) => forall a, c = QShape a -> In a arrays -> works an = true -> an_shape an = shape a) tr.
