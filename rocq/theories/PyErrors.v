(* Model of equistore/status.py and of catch_exceptions in equistore/utils.py: how
   exceptions of the Python functions of arrays are given back *)
From Verif Require Import Base Labels Array Block Tensor Callbacks SpecCallbacks.
From Verif Require CApi.
Local Open Scope string_scope.
Local Open Scope list_scope.
Local Open Scope nat_scope.

(* How a Python function of an array ends: it returns, it raises an Exception, or it
   raises something which is not an Exception (KeyboardInterrupt, SystemExit).
   Exceptions are numbers. *)
Inductive reply :=
| Replies (an : answer)
| Raises (e : nat)
| Interrupted (an : answer).

(* equistore/utils.py:29-38 -- catch_exceptions. What `except Exception` does not
   catch goes to ctypes, which prints it; the value returned to C was not set, it can be
   anything. *)
Definition reply_answer (q : reply) : answer :=
  match q with
  | Replies an => mk_answer false 0 (an_origin an) (an_shape an) (an_new an)
  | Raises _ => mk_answer false (-1) 0 [] 0
  | Interrupted an => mk_answer false (an_status an) (an_origin an) (an_shape an) (an_new an)
  end.

Definition py_trace := list (call * reply).
Definition answers (tr : py_trace) : trace := map (fun '(c, q) => (c, reply_answer q)) tr.

(* the functions of the library which use arrays, called from Python *)
Inductive lib_call :=
| LBlock (a : nat) (samples : Labels) (components : list Labels) (properties : Labels)
| LGradient (b : TensorBlock) (parameter : string) (a : nat) (samples : Labels) (components : list Labels)
| LCopy (b : TensorBlock)
| LTensor (keys : Labels) (blocks : list TensorBlock)
| LComponents (t : TensorMap) (variables : list string)
| LSamples (p : profile) (t : TensorMap) (keys : Labels) (sort : bool)
| LProperties (p : profile) (t : TensorMap) (keys : Labels) (sort : bool).

(* equistore/block.py:63-73, 81 and tensor.py:58-66 -- these functions return a pointer,
   which is given to _check_pointer. Others return a status, ctypes gives it to
   _check_status (equistore/_c_api.py) *)
Definition by_pointer (c : lib_call) : bool :=
  match c with LBlock _ _ _ _ | LCopy _ | LTensor _ _ => true | _ => false end.

Definition no_value {A} (r : outcome A) : outcome unit :=
  match r with Ok _ => Ok tt | Err e => Err e | Panic m => Panic m | Undefined m => Undefined m end.

Definition call_runs (c : lib_call) (tr : trace) (r : outcome unit) : Prop :=
  match c with
  | LBlock a samples components properties => exists x, runs (p_block_new a samples components properties) tr x /\ r = no_value x
  | LGradient b parameter a samples components => exists b', runs (p_add_gradient b parameter a samples components) tr (b', r)
  | LCopy b => exists x, runs (p_block_clone b) tr x /\ r = no_value x
  | LTensor keys blocks => exists x, runs (p_tensor_new keys blocks) tr x /\ r = no_value x
  | LComponents t variables => exists t', runs (p_components_to_properties t variables) tr (t', r)
  | LSamples p t keys sort => exists t', runs (p_keys_to_samples p t keys sort) tr (t', r)
  | LProperties p t keys sort => exists t', runs (p_keys_to_properties p t keys sort) tr (t', r)
  end.

(* the arrays which exist before the call *)
Definition call_given (c : lib_call) : list nat :=
  match c with
  | LBlock a _ _ _ => [a]
  | LGradient b _ a _ _ => a :: block_arrays b
  | LCopy b => block_arrays b
  | LTensor _ blocks => blocks_arrays blocks
  | LComponents t _ | LSamples _ t _ _ | LProperties _ t _ _ => tensor_arrays t
  end.

(* src/c_api/status.rs:72-80 -- catch_unwind, without the message *)
Definition code_of (r : outcome unit) : Z :=
  match r with Ok _ => 0 | Err e => CApi.error_code e | Panic _ => 255 | Undefined _ => 255 end.

(* what happens to LAST_EXCEPTION *)
Inductive event :=
| Save (e : nat)
| Check (pointer : bool) (code : Z).

(* equistore/utils.py:33-35 -- during a call *)
Definition saved (tr : py_trace) : list event :=
  flat_map (fun '(_, q) => match q with Raises e => [Save e] | _ => [] end) tr.

Definition call_events (c : lib_call) (tr : py_trace) (r : outcome unit) : list event :=
  saved tr ++ [Check (by_pointer c) (code_of r)].

(* equistore/status.py:28-53 -- _check_status and _check_pointer: the new LAST_EXCEPTION,
   and the cause of the EquistoreError if one is raised *)
Definition check (last : option nat) (pointer : bool) (code : Z) : option nat * option (option nat) :=
  if pointer then
    if (code =? 0)%Z then (last, None) else (None, Some last)
  else
    if (code =? 0)%Z then (last, None)
    else if (0 <? code)%Z then (last, Some None)
    else (None, Some last).

(* The results of calls, for threads which are numbers. LAST_EXCEPTION is the same
   variable in all of them. *)
Fixpoint py_results (last : option nat) (events : list (nat * event)) : list (nat * option (option nat)) :=
  match events with
  | [] => []
  | (thread, Save e) :: events => py_results (Some e) events
  | (thread, Check pointer code) :: events =>
      let '(last, result) := check last pointer code in (thread, result) :: py_results last events
  end.
