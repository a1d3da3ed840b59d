(* Which exception should be the cause of errors *)
From Verif Require Import Base Labels Array Block Tensor Callbacks SpecCallbacks PyErrors.
Local Open Scope list_scope.
Local Open Scope nat_scope.

(* one call of the library: the functions of arrays it calls, and its result *)
Definition done_call := (lib_call * py_trace * outcome unit)%type.

Definition possible (d : done_call) : Prop :=
  let '(c, tr, r) := d in
  NoDup (call_given c) /\ new_arrays (call_given c) (answers tr) /\ call_runs c (answers tr) r.

(* the exception raised by a function during the call *)
Fixpoint raised (tr : py_trace) : option nat :=
  match tr with
  | [] => None
  | (c, Raises e) :: tr => if is_destroy c then raised tr else Some e
  | _ :: tr => raised tr
  end.

(* there is an error if the call failed, and its cause is the exception raised by the
   functions during this call *)
Definition expected (d : done_call) : option (option nat) :=
  let '(c, tr, r) := d in
  if (code_of r =? 0)%Z then None else Some (raised tr).

Definition all_events (thread : nat) (program : list done_call) : list (nat * event) :=
  flat_map (fun '(c, tr, r) => map (pair thread) (call_events c tr r)) program.

(* only Exceptions, and never when destroying arrays *)
Definition only_exceptions (tr : py_trace) : Prop :=
  Forall (fun '(c, q) => match q with Interrupted _ => False | Raises _ => is_destroy c = false | Replies _ => True end) tr.

(* functions which return a status: no exception when looking at the shape or origin of
   the arrays made by the library (and they do not copy arrays) *)
Definition kept_status (c : lib_call) (tr : py_trace) : Prop :=
  by_pointer c = true \/
  Forall (fun '(x, q) => match q, x with Raises _, QShape a => In a (call_given c) | Raises _, QOrigin a => In a (call_given c) | Raises _, QCopy _ => False | _, _ => True end) tr.

(* two threads *)
Inductive interleaved {A} : list A -> list A -> list A -> Prop :=
| interleaved_nil : interleaved [] [] []
| interleaved_left x l1 l2 l : interleaved l1 l2 l -> interleaved (x :: l1) l2 (x :: l)
| interleaved_right x l1 l2 l : interleaved l1 l2 l -> interleaved l1 (x :: l2) (x :: l).
