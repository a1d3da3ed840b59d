(* Model of TensorBlock.__deepcopy__ (equistore/block.py:98-129) and of the garbage
   collector of Python, with copies made by any number of threads.

   The objects which hold the copied arrays (ArrayWrapper, equistore/data.py:159-202) are
   made by _eqs_array_copy (equistore/data.py:287-297), which eqs_block_copy calls. They
   refer to themselves through eqs_array.ptr, so that they stay until the garbage collector
   runs, and they are freed then unless the copy has taken a reference to them. The library
   only has their address.

   A step is what one thread does while it holds the global interpreter lock: ctypes
   releases it around eqs_block_copy, and the other threads can run between any two
   steps. *)
From Verif Require Import Base.
Local Open Scope string_scope.
Local Open Scope list_scope.
Local Open Scope nat_scope.

(* Where a thread is in __deepcopy__. [reset] is reset_gc; [todo] are the arrays of the
   block which were not copied yet, true for the ones allocated by Python; objects are
   given by their number. *)
Inductive place :=
| Before
| Disabling
| Copying (reset : bool) (todo : list bool) (made : list nat)
| Taking (reset : bool) (todo taken : list nat)
| Enabling (taken : list nat)
| Finished (taken : list nat)
| Undoing (todo taken : list nat) (* an exception: the arrays are destroyed *)
| Raised.

(* a thread, which copies a block with these arrays *)
Record copier := mk_copier {
  co_arrays : list bool;
  co_place : place;
}.

Record collector := mk_collector {
  gc_enabled : bool;
  gc_next : nat; (* number of the next object *)
  gc_freed : list nat;
  gc_threads : list copier;
}.

(* the objects to which something in this thread refers *)
Definition referenced (p : place) : list nat :=
  match p with
  | Taking _ _ taken | Enabling taken | Finished taken | Undoing _ taken => taken
  | _ => []
  end.

(* a collection: all the objects without references are freed *)
Definition collect (s : collector) : collector :=
  let kept := flat_map (fun t => referenced (co_place t)) (gc_threads s) in
  mk_collector (gc_enabled s) (gc_next s)
    (gc_freed s ++ filter (fun o => negb (existsb (Nat.eqb o) kept)) (seq 0 (gc_next s))) (gc_threads s).

(* the events: a thread does its next step, or raises an exception there; automatic
   collections (only when the collector is enabled), and gc.collect() *)
Inductive event :=
| Step (thread : nat)
| Raise (thread : nat)
| Automatic
| Explicit.

(* _object_from_ptr (equistore/data.py:205-207) *)
Definition use (s : collector) (o : nat) : outcome unit :=
  if existsb (Nat.eqb o) (gc_freed s) then Undefined "object used after it was freed" else Ok tt.

(* what the next step of a thread changes: whether the collector is enabled, the next
   object, and the place of the thread *)
Definition next_step (s : collector) (t : copier) : outcome (bool * nat * place) :=
  match co_place t with
  (* equistore/block.py:102-106 -- if gc.isenabled() *)
  | Before => Ok (gc_enabled s, gc_next s, if gc_enabled s then Disabling else Copying false (co_arrays t) [])
  (* equistore/block.py:103 -- gc.disable() *)
  | Disabling => Ok (false, gc_next s, Copying true (co_arrays t) [])
  (* equistore/block.py:108 -- eqs_block_copy: one call of _eqs_array_copy for each array *)
  | Copying reset (python :: todo) made =>
      Ok (if python then (gc_enabled s, S (gc_next s), Copying reset todo (made ++ [gc_next s]))
          else (gc_enabled s, gc_next s, Copying reset todo made))
  | Copying reset [] made => Ok (gc_enabled s, gc_next s, Taking reset made [])
  (* equistore/block.py:113-124 -- copy._values and copy._gradients *)
  | Taking reset (o :: todo) taken =>
      let? _ := use s o in Ok (gc_enabled s, gc_next s, Taking reset todo (taken ++ [o]))
  | Taking reset [] taken => Ok (gc_enabled s, gc_next s, if reset then Enabling taken else Finished taken)
  (* equistore/block.py:126-127 -- gc.enable() *)
  | Enabling taken => Ok (true, gc_next s, Finished taken)
  (* Drop of the arrays in eqs_block_copy, or TensorBlock.__del__ of the copy:
     _eqs_array_destroy (equistore/data.py:300-303) for each array *)
  | Undoing (o :: todo) taken => let? _ := use s o in Ok (gc_enabled s, gc_next s, Undoing todo taken)
  | Undoing [] _ => Ok (gc_enabled s, gc_next s, Raised)
  | Finished taken => Ok (gc_enabled s, gc_next s, Finished taken)
  | Raised => Ok (gc_enabled s, gc_next s, Raised)
  end.

(* an exception: array.copy() fails, KeyboardInterrupt, ... There is no try: the collector
   stays as it is. *)
Definition raise_at (p : place) : place :=
  match p with
  | Before | Disabling => Raised
  | Copying _ _ made => Undoing made []
  | Taking _ todo taken => Undoing (taken ++ todo) taken
  | Enabling taken => Undoing taken taken
  | other => other
  end.

Definition set_place (s : collector) (thread : nat) (t : copier) (p : place) : list copier :=
  set_nth (gc_threads s) thread (mk_copier (co_arrays t) p).

Definition happens (s : collector) (e : event) : outcome collector :=
  match e with
  | Step thread =>
      match nth_error (gc_threads s) thread with
      | Some t =>
          let? (enabled, next, p) := next_step s t in
          Ok (mk_collector enabled next (gc_freed s) (set_place s thread t p))
      | None => Ok s
      end
  | Raise thread =>
      match nth_error (gc_threads s) thread with
      | Some t => Ok (mk_collector (gc_enabled s) (gc_next s) (gc_freed s) (set_place s thread t (raise_at (co_place t))))
      | None => Ok s
      end
  | Automatic => Ok (if gc_enabled s then collect s else s)
  | Explicit => Ok (collect s)
  end.

(* an execution *)
Fixpoint execution (s : collector) (events : list event) : outcome collector :=
  match events with
  | [] => Ok s
  | e :: rest => let? s := happens s e in execution s rest
  end.

(* all the threads are about to copy a block *)
Definition collector_start (enabled : bool) (blocks : list (list bool)) : collector :=
  mk_collector enabled 0 [] (map (fun arrays => mk_copier arrays Before) blocks).
