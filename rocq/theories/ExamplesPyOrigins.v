(* Concrete threads using the origins of equistore/data.py *)
From Verif Require Import Base Origin PyOrigins SpecPyOrigins PyOriginsFacts.
Local Open Scope string_scope.
Local Open Scope list_scope.
Local Open Scope nat_scope.

Definition steps_of (i n : nat) : list (nat * move) := repeat (i, Continue) n.
Definition call_of (i : nat) (op : py_op) : list (nat * move) := (i, Start op) :: steps_of i 13.

(* another program already registered a name *)
Definition ex_registry : registry := registry_start ++ ["fortran.array"].

Lemma ex_registry_ok : registry_ok ex_registry.
Proof. split; [|reflexivity]. repeat constructor; cbn; intuition discriminate. Qed.

(* two threads find that _NUMPY_STORAGE_ORIGIN is None before any of them sets it, and
   both register the name; another thread registers another name in between *)
Definition ex_race : list (nat * move) :=
  [(0, Start (OriginOf NumpyStorage)); (1, Start (Wrap NumpyKind)); (0, Continue); (1, Continue)]
  ++ call_of 2 (Register "cuda.array") ++ [(0, Continue); (1, Continue); (1, Continue); (0, Continue)] ++ steps_of 1 2 ++ steps_of 0 2
  ++ call_of 0 (ToPython (Wrapped 0)) ++ call_of 1 (ToPython RustNdarray) ++ call_of 2 (ToPython RustEmpty)
  ++ call_of 0 (ToPython (FromProgram 0 (Some 1))) ++ call_of 1 (ToPython (FromProgram (-1) None)) ++ call_of 2 (Allocated (Wrapped 0))
  ++ call_of 0 (Allocated RustNdarray) ++ call_of 1 (OriginOf NumpyStorage) ++ call_of 2 (OriginOf RustStorage) ++ call_of 2 (Wrap OtherKind).

Lemma ex_race_log : map (fun e => (ev_thread e, ev_op e, ev_result e)) (py_log (py_run (py_start ex_registry) ex_race))
  = [(2, Register "cuda.array", Origin (Some 2)); (1, Wrap NumpyKind, Object 0); (0, OriginOf NumpyStorage, Origin (Some 3));
     (0, ToPython (Wrapped 0), Object 0); (1, ToPython RustNdarray, RustView); (2, ToPython RustEmpty, UnknownOrigin "rust.EmptyArray");
     (0, ToPython (FromProgram 0 (Some 1)), UnknownOrigin "fortran.array");
     (1, ToPython (FromProgram (-1) None), UnknownOrigin "unregistered origin"); (2, Allocated (Wrapped 0), Answer true);
     (0, Allocated RustNdarray, Answer false); (1, OriginOf NumpyStorage, Origin (Some 3)); (2, OriginOf RustStorage, Origin (Some 5));
     (2, Wrap OtherKind, UnknownArray)].
Proof. vm_compute. reflexivity. Qed.

(* another thread starts a call, which does not end *)
Definition ex_between : list (nat * move) := (1, Start (Allocated RustNdarray)) :: (0, Continue) :: (1, Continue) :: steps_of 0 14.

Lemma ex_between_ok : let s := py_run (py_start ex_registry) ex_race in
  py_threads s 0 = None /\ (forall op, ~ In (0, Start op) ex_between) /\ 15 <= own_steps 0 ex_between
  /\ py_threads (py_run s ((0, Start (OriginOf TorchStorage)) :: ex_between)) 1 <> None.
Proof.
  split; [vm_compute; reflexivity|]. split; [intros op H; cbn in H; intuition discriminate|]. split; [vm_compute; repeat constructor|].
  vm_compute. discriminate.
Qed.

(* another program uses the name of the arrays of numpy; its function origin can even
   fail *)
Definition ex_same_name : list (nat * move) :=
  call_of 0 (Register "equistore.data.numpy") ++ call_of 0 (ToPython (FromProgram 0 (Some 1))) ++ call_of 0 (ToPython (FromProgram (-1) (Some 1))).

Lemma same_name_refuted : exists r schedule e id,
  registry_ok r /\ In e (py_log (py_run (py_start r) schedule)) /\ ev_op e = ToPython (FromProgram 0 (Some id)) /\ ev_result e = WrongPointer.
Proof.
  exists registry_start, ex_same_name, (mk_event 0 (ToPython (FromProgram 0 (Some 1))) WrongPointer), 1.
  split; [split; [repeat constructor; auto|reflexivity]|]. split; [vm_compute; tauto|]. split; reflexivity.
Qed.

Lemma failure_refuted : exists r schedule e status id,
  registry_ok r /\ In e (py_log (py_run (py_start r) schedule)) /\ status <> 0%Z
  /\ ev_op e = ToPython (FromProgram status (Some id)) /\ ev_result e = WrongPointer.
Proof.
  exists registry_start, ex_same_name, (mk_event 0 (ToPython (FromProgram (-1) (Some 1))) WrongPointer), (-1)%Z, 1.
  split; [split; [repeat constructor; auto|reflexivity]|]. split; [vm_compute; tauto|]. split; [discriminate|]. split; reflexivity.
Qed.
