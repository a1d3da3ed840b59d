(* Exceptions in the Python functions of arrays: C95 *)
From Verif Require Import Base Labels Array Block Tensor Callbacks SpecCallbacks CallbacksStore PyErrors SpecPyErrors PyErrorsFacts Examples
  ExamplesCallbacks ExamplesPyErrors.
Local Open Scope string_scope.
Local Open Scope list_scope.
Local Open Scope nat_scope.

(* C95, partial: the cause of each error is the exception raised during the same call,
   and there is none if nothing was raised. The program has one thread, only raises
   Exceptions, not when arrays are destroyed, and not when the library looks at the shape
   or origin of an array it made in a function which returns a status. *)
Theorem C95_cause_partial thread program :
  Forall possible program ->
  Forall (fun '(c, tr, _) => only_exceptions tr /\ kept_status c tr) program ->
  py_results None (all_events thread program) = map (fun d => (thread, expected d)) program.
Proof. exact (single_thread thread program). Qed.
Print Assumptions C95_cause_partial.

Example C95_example : Forall possible ex_program /\
  Forall (fun '(c, tr, _) => only_exceptions tr /\ kept_status c tr) ex_program /\
  py_results None (all_events 0 ex_program) = [(0, Some (Some 3)); (0, Some None); (0, Some (Some 5))].
Proof. exact ex_program_right. Qed.

(* each condition is needed *)
Theorem C95_panic_refuted : Forall possible ex_panic_program /\ Forall (fun '(_, tr, _) => only_exceptions tr) ex_panic_program /\
  map expected ex_panic_program = [Some (Some 3); Some None] /\
  py_results None (all_events 0 ex_panic_program) = [(0, Some None); (0, Some (Some 3))].
Proof. exact ex_panic_wrong. Qed.
Print Assumptions C95_panic_refuted.

Theorem C95_threads_refuted : exists program1 program2 events,
  Forall possible (program1 ++ program2) /\
  Forall (fun '(c, tr, _) => only_exceptions tr /\ kept_status c tr) (program1 ++ program2) /\
  interleaved (all_events 1 program1) (all_events 2 program2) events /\
  map expected program1 = [Some (Some 3)] /\ map expected program2 = [Some (Some 5)] /\
  py_results None events = [(1, Some (Some 5)); (2, Some None)].
Proof. exact ex_threads_wrong. Qed.
Print Assumptions C95_threads_refuted.

Theorem C95_interrupts_refuted : exists t' tr,
  call_runs ex_call_samples (answers tr) (Ok tt) /\ runs ex_to_samples (answers tr) (t', Ok tt) /\
  new_arrays (tensor_arrays ex_pointers) (answers tr) /\
  Forall (fun '(c, q) => match c with QMove _ _ _ _ _ => exists an, q = Interrupted an | _ => True end) tr /\
  (exists o i m x y q, In (QMove o i m x y, q) tr) /\
  py_results None (all_events 0 [(ex_call_samples, tr, Ok tt)]) = [(0, None)].
Proof. exact ex_interrupted. Qed.
Print Assumptions C95_interrupts_refuted.

Theorem C95_destroy_refuted : possible ex_destroy_call /\ kept_status ex_call_samples ex_destroy_trace /\
  Forall (fun '(_, q) => forall an, q <> Interrupted an) ex_destroy_trace /\
  expected ex_destroy_call = Some (Some 3) /\
  py_results None (all_events 0 [ex_destroy_call]) = [(0, Some (Some 9))].
Proof. exact ex_destroy_wrong. Qed.
Print Assumptions C95_destroy_refuted.
