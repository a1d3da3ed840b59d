(* Properties C136 and C137: the origins of arrays in Python *)
From Verif Require Import Base Origin PyOrigins SpecPyOrigins PyOriginsFacts ExamplesPyOrigins.
Local Open Scope string_scope.
Local Open Scope list_scope.
Local Open Scope nat_scope.

(* C136: _numpy_origin(), _torch_origin() and _rust_origin() give the identifier of their
   own name, whatever the other threads do *)
Theorem C136_own_name :
  forall r schedule e s,
    registry_ok r ->
    let final := py_run (py_start r) schedule in
    In e (py_log final) -> ev_op e = OriginOf s ->
    exists id, ev_result e = Origin (Some id) /\ get_data_origin (py_registry final) id = Ok (storage_name s).
Proof. exact origins_cached. Qed.
Print Assumptions C136_own_name.

(* C136: they always give the same identifier in all threads, they give different
   ones, and never 0 *)
Theorem C136_always_the_same :
  forall r schedule e1 e2 s1 s2,
    registry_ok r ->
    let final := py_run (py_start r) schedule in
    In e1 (py_log final) -> In e2 (py_log final) -> ev_op e1 = OriginOf s1 -> ev_op e2 = OriginOf s2 ->
    exists id1 id2, ev_result e1 = Origin (Some id1) /\ ev_result e2 = Origin (Some id2) /\ (id1 = id2 <-> s1 = s2) /\ id1 <> 0.
Proof. exact origins_agree. Qed.
Print Assumptions C136_always_the_same.

(* C136: another name, registered by any thread at any time, has another identifier *)
Theorem C136_other_names :
  forall r schedule e1 e2 s name,
    registry_ok r ->
    let final := py_run (py_start r) schedule in
    In e1 (py_log final) -> In e2 (py_log final) -> ev_op e1 = OriginOf s -> ev_op e2 = Register name ->
    exists id1 id2, ev_result e1 = Origin (Some id1) /\ ev_result e2 = Origin (Some id2) /\ (id1 = id2 <-> storage_name s = name).
Proof. exact register_agrees. Qed.
Print Assumptions C136_other_names.

(* C136: no thread waits for another one: each call ends after at most 15 of its own
   steps *)
Theorem C136_calls_end :
  forall r before i op schedule,
    registry_ok r ->
    let s := py_run (py_start r) before in
    py_threads s i = None -> (forall op', ~ In (i, Start op') schedule) -> 15 <= own_steps i schedule ->
    py_threads (py_run s ((i, Start op) :: schedule)) i = None.
Proof. exact calls_end. Qed.
Print Assumptions C136_calls_end.

(* two threads register the name of numpy at the same time *)
Example C136_example :
  registry_ok ex_registry
  /\ map (fun e => (ev_thread e, ev_op e, ev_result e)) (py_log (py_run (py_start ex_registry) ex_race))
     = [(2, Register "cuda.array", Origin (Some 2)); (1, Wrap NumpyKind, Object 0); (0, OriginOf NumpyStorage, Origin (Some 3));
        (0, ToPython (Wrapped 0), Object 0); (1, ToPython RustNdarray, RustView); (2, ToPython RustEmpty, UnknownOrigin "rust.EmptyArray");
        (0, ToPython (FromProgram 0 (Some 1)), UnknownOrigin "fortran.array");
        (1, ToPython (FromProgram (-1) None), UnknownOrigin "unregistered origin"); (2, Allocated (Wrapped 0), Answer true);
        (0, Allocated RustNdarray, Answer false); (1, OriginOf NumpyStorage, Origin (Some 3)); (2, OriginOf RustStorage, Origin (Some 5));
        (2, Wrap OtherKind, UnknownArray)].
Proof. split; [exact ex_registry_ok|exact ex_race_log]. Qed.

(* the other thread runs in between *)
Example C136_calls_end_example :
  let s := py_run (py_start ex_registry) ex_race in
  py_threads s 0 = None /\ (forall op, ~ In (0, Start op) ex_between) /\ 15 <= own_steps 0 ex_between
  /\ py_threads (py_run s ((0, Start (OriginOf TorchStorage)) :: ex_between)) 1 <> None.
Proof. exact ex_between_ok. Qed.

(* C137. The full statement also says that arrays of other programs always give a
   ValueError. This is false: see the theorems below. *)
Theorem C137_objects_partial :
  forall r schedule e,
    registry_ok r -> In e (py_log (py_run (py_start r) schedule)) ->
    match ev_op e with
    | ToPython (Wrapped n) => ev_result e = Object n
    | ToPython RustNdarray => ev_result e = RustView
    | ToPython RustEmpty => ev_result e = UnknownOrigin "rust.EmptyArray"
    | Allocated (Wrapped n) => ev_result e = Answer true
    | Allocated RustNdarray | Allocated RustEmpty => ev_result e = Answer false
    | _ => True
    end.
Proof. exact objects_found. Qed.
Print Assumptions C137_objects_partial.

(* C137: ArrayWrapper(array) is made for arrays of numpy and torch, and raises ValueError
   for others *)
Theorem C137_wrappers :
  forall r schedule e kind,
    registry_ok r -> In e (py_log (py_run (py_start r) schedule)) -> ev_op e = Wrap kind ->
    match kind with OtherKind => ev_result e = UnknownArray | _ => exists n, ev_result e = Object n end.
Proof. exact wrapper_made. Qed.
Print Assumptions C137_wrappers.

(* C137: the function origin of an ArrayWrapper gives the identifier of the name for the
   kind of its array, also for other programs *)
Theorem C137_wrapper_origin :
  forall r schedule e kind n,
    registry_ok r ->
    let final := py_run (py_start r) schedule in
    In e (py_log final) -> ev_op e = Wrap kind -> ev_result e = Object n ->
    exists id, array_of final (Wrapped n) = Some (WrapperArray n (Some id)) /\ get_data_origin (py_registry final) id = Ok (kind_origin kind).
Proof. exact wrapper_origin. Qed.
Print Assumptions C137_wrapper_origin.

(* C137: arrays of other programs are used as objects of Python, or as arrays of Rust,
   exactly if they give the identifier of one of the three names; otherwise there is a
   ValueError with the name of their origin. The status of the function does not
   matter. *)
Theorem C137_other_arrays :
  forall r schedule e status value,
    registry_ok r ->
    let final := py_run (py_start r) schedule in
    In e (py_log final) -> ev_op e = ToPython (FromProgram status value) ->
    (ev_result e = WrongPointer <-> exists s, nth_error (py_registry final) (given_id value) = Some (storage_name s))
    /\ (ev_result e <> WrongPointer -> exists name, ev_result e = UnknownOrigin name
          /\ (nth_error (py_registry final) (given_id value) = Some name \/ name = "unregistered origin")).
Proof. exact program_arrays. Qed.
Print Assumptions C137_other_arrays.

(* C137: and the same for eqs_array_was_allocated_by_python *)
Theorem C137_other_arrays_allocated :
  forall r schedule e status value,
    registry_ok r ->
    let final := py_run (py_start r) schedule in
    In e (py_log final) -> ev_op e = Allocated (FromProgram status value) ->
    exists b, ev_result e = Answer b
      /\ (b = true <-> exists s, s <> RustStorage /\ nth_error (py_registry final) (given_id value) = Some (storage_name s)).
Proof. exact program_allocated. Qed.
Print Assumptions C137_other_arrays_allocated.

Example C137_example :
  registry_ok ex_registry
  /\ In (mk_event 0 (ToPython (Wrapped 0)) (Object 0)) (py_log (py_run (py_start ex_registry) ex_race))
  /\ In (mk_event 1 (Wrap NumpyKind) (Object 0)) (py_log (py_run (py_start ex_registry) ex_race))
  /\ In (mk_event 0 (ToPython (FromProgram 0 (Some 1))) (UnknownOrigin "fortran.array")) (py_log (py_run (py_start ex_registry) ex_race))
  /\ nth_error (py_registry (py_run (py_start ex_registry) ex_race)) 1 = Some "fortran.array".
Proof. split; [exact ex_registry_ok|]. split; [vm_compute; tauto|]. split; [vm_compute; tauto|]. split; [vm_compute; tauto|]. vm_compute. reflexivity. Qed.

(* C137 is false for an array of another program which uses the name of numpy *)
Theorem C137_same_name_refuted :
  exists r schedule e id,
    registry_ok r /\ In e (py_log (py_run (py_start r) schedule)) /\ ev_op e = ToPython (FromProgram 0 (Some id)) /\ ev_result e = WrongPointer.
Proof. exact same_name_refuted. Qed.
Print Assumptions C137_same_name_refuted.

(* C137: also when its function origin failed *)
Theorem C137_failure_refuted :
  exists r schedule e status id,
    registry_ok r /\ In e (py_log (py_run (py_start r) schedule)) /\ status <> 0%Z
    /\ ev_op e = ToPython (FromProgram status (Some id)) /\ ev_result e = WrongPointer.
Proof. exact failure_refuted. Qed.
Print Assumptions C137_failure_refuted.
