(* Specification vocabulary: what saving asks to arrays *)
From Verif Require Import Base Labels Array Block Tensor Npy Io Spec SpecTensor SpecIo Saving Callbacks CallbacksStore SaveCalls.
Local Open Scope string_scope.
Local Open Scope list_scope.
Local Open Scope nat_scope.

(* all the calls, in order, and what was answered *)
Definition answers := list (read_call * given).

Inductive reads {A} : reading A -> answers -> A -> Prop :=
| reads_give a : reads (Give a) [] a
| reads_query c k g tr a : reads (k g) tr a -> reads (Query c k) ((c, g) :: tr) a.

(* the first call of `shape` is for the header of the file, the second one for the
   number of elements to read *)
Definition calls_for (a : nat) : list read_call := [RShape a; RShape a; RData a].

Definition call_failed (g : given) : Prop := gv_null g = true \/ gv_status g <> 0%Z.

(* what the user gets when a function of arrays fails *)
Definition reported (c : read_call) (g : given) (r : outcome unit) : Prop :=
  let name := match c with RShape _ => "shape" | RData _ => "data" end in
  if gv_null g then r = Panic ("eqs_array_t." +++ name +++ " function is NULL")
  else r = Err (External (gv_status g) ("calling eqs_array_t." +++ name +++ " failed")).

(* an array which can be read, and whose functions gave these answers: always the same
   shape, and the elements at the pointer *)
Definition answered (tr : answers) (a : nat) (array : eqs_array) : Prop :=
  array_shape array = Ok (nd_shape (a_nd array)) /\ array_data array = Ok (nd_data (a_nd array))
  /\ (forall g, In (RShape a, g) tr -> gv_shape g = nd_shape (a_nd array))
  /\ (forall g memory, In (RData a, g) tr -> gv_memory g = Some memory ->
      firstn (elements (nd_shape (a_nd array))) memory = nd_data (a_nd array))
  /\ storable (nd_shape (a_nd array)).

(* the answers of arrays in memory *)
Definition array_answers (array : eqs_array) (c : read_call) : given :=
  let failed (e : error) := match e with External status _ => mk_given false status [] None | _ => mk_given true 0 [] None end in
  match c with
  | RShape _ =>
      match array_shape array with
      | Ok shape => mk_given false 0 shape None
      | Err e => failed e
      | _ => mk_given true 0 [] None
      end
  | RData _ =>
      match array_data array with
      | Ok data => mk_given false 0 [] (Some data)
      | Err e => failed e
      | _ => mk_given true 0 [] None
      end
  end.

Definition read_array (c : read_call) : nat := match c with RShape a | RData a => a end.

Definition answers_of (s : store) (tr : answers) : Prop :=
  Forall (fun cg => snd cg = array_answers (s_array s (read_array (fst cg))) (fst cg)) tr.
