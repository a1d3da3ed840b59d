(* Properties C133 to C135: tensors of torch used by the library *)
From Verif Require Import Base Array Strided Numpy SpecNumpy NumpyFacts Torch TorchCalls TorchCallsFacts ExamplesNumpy ExamplesTorchCalls.
Local Open Scope string_scope.
Local Open Scope list_scope.
Local Open Scope nat_scope.

(* C133. The full statement is for all tensors. It is false for tensors on different
   devices, or with different types: see the theorems below. *)
Theorem C133_same_as_arrays_partial :
  forall f recording origin device t m tensors arrays p,
    follows_numpy f -> Forall (fun x => in_memory m (tk_array x) /\ tk_device x = device /\ np_dtype (tk_array x) = t) tensors ->
    Forall2 (fun x array => shown origin m (tk_array x) array) tensors arrays -> regular (length tensors) p (map Some arrays) ->
    run (torch_step f recording) p (given_tensors m tensors) = run array_step p (map Some arrays).
Proof. exact torch_same. Qed.
Print Assumptions C133_same_as_arrays_partial.

Example C133_example :
  follows_numpy ex_rules
  /\ Forall (fun x => in_memory [ex_buffer] (tk_array x) /\ tk_device x = "cpu" /\ np_dtype (tk_array x) = Float64) (ex_tensors Float64 Float64 "cpu")
  /\ Forall2 (fun x array => shown 4 [ex_buffer] (tk_array x) array) (ex_tensors Float64 Float64 "cpu") (ex_arrays Float64)
  /\ regular 2 (all_of ex_commands) (map Some (ex_arrays Float64))
  /\ nth_error (run (torch_step ex_rules true) (all_of ex_commands) (given_tensors [ex_buffer] (ex_tensors Float64 Float64 "cpu"))) 3
     = Some (Data [10; 11; 0; 0; 12; 13; 0; 0; 0; 0; 21; 19; 0; 0; 20; 18; 14; 15; 17; 15; 16; 17; 16; 14]%Z).
Proof.
  split; [exact ex_follows|]. split; [exact ex_tensors_uniform|]. split; [apply ex_tensors_shown|]. split; [apply ex_regular|]. exact ex_tensors_answer.
Qed.

(* C133: with tensors of the same type on two devices, merging fails *)
Theorem C133_devices_refuted :
  exists f recording origin m tensors arrays p,
    follows_numpy f /\ Forall (fun x => in_memory m (tk_array x) /\ np_dtype (tk_array x) = Float64) tensors
    /\ Forall2 (fun x array => shown origin m (tk_array x) array) tensors arrays /\ regular (length tensors) p (map Some arrays)
    /\ In Failed (run (torch_step f recording) p (given_tensors m tensors)) /\ ~ In Failed (run array_step p (map Some arrays)).
Proof. exact devices_refuted. Qed.
Print Assumptions C133_devices_refuted.

(* C133: and with tensors of two types on the same device, for which numpy converts
   the elements (C85) *)
Theorem C133_types_refuted :
  exists f recording origin m tensors arrays p,
    follows_numpy f /\ Forall (fun x => in_memory m (tk_array x) /\ tk_device x = "cpu") tensors
    /\ Forall2 (fun x array => shown origin m (tk_array x) array) tensors arrays /\ regular (length tensors) p (map Some arrays)
    /\ In Failed (run (torch_step f recording) p (given_tensors m tensors))
    /\ ~ In Failed (run (numpy_step f) p (mk_np_state m (map (fun x => Some (tk_array x)) tensors))).
Proof. exact torch_types_refuted. Qed.
Print Assumptions C133_types_refuted.

(* C134: the memory of the tensors given to the library does not change *)
Theorem C134_tensors_do_not_change :
  forall f recording m tensors commands,
    follows_numpy f -> Forall (fun t => in_memory m (tk_array t)) tensors -> Forall (not_moved_to (length tensors)) commands ->
    firstn (length m) (ts_memory (torch_run f recording (given_tensors m tensors) commands)) = m.
Proof. exact torch_user_memory. Qed.
Print Assumptions C134_tensors_do_not_change.

(* C134: moves to tensors created by the library are not refused because of gradients:
   they succeed if they do with numpy *)
Theorem C134_moves_are_allowed :
  forall f recording m tensors commands o i samples start stop output input m',
    follows_numpy f -> Forall (fun t => in_memory m (tk_array t)) tensors -> Forall (not_moved_to (length tensors)) commands ->
    let s := torch_run f recording (given_tensors m tensors) commands in
    length tensors <= o -> o <> i -> live (ts_tensors s) o = Some output -> live (ts_tensors s) i = Some input ->
    tk_device input = tk_device output -> np_dtype (tk_array input) = np_dtype (tk_array output) ->
    np_move_samples f (ts_memory s) (tk_array input) (tk_array output) samples start stop = Some m' ->
    snd (torch_step f recording s (MoveSamples o i samples start stop)) = Done.
Proof. exact torch_moves_allowed. Qed.
Print Assumptions C134_moves_are_allowed.

(* the output is created by the library, and then computes gradients because of the
   first move; a move to the first tensor, which is given to the library, is refused *)
Example C134_example :
  Forall (fun t => in_memory [ex_buffer] (tk_array t)) (ex_tensors Float64 Float64 "cpu")
  /\ Forall (not_moved_to 2) ex_commands
  /\ (let s := torch_run ex_rules true (given_tensors [ex_buffer] (ex_tensors Float64 Float64 "cpu")) (firstn 2 ex_commands) in
      exists output, live (ts_tensors s) 2 = Some output /\ tk_grad output = true
      /\ snd (torch_step ex_rules true s (MoveSamples 2 1 [mk_mapping 0 1; mk_mapping 1 2] 2 4)) = Done)
  /\ snd (torch_step ex_rules true (given_tensors [ex_buffer] (ex_tensors Float64 Float64 "cpu")) (MoveSamples 0 1 [mk_mapping 0 1] 0 2)) = Failed.
Proof.
  split; [apply ex_tensors_in_memory|]. split; [exact ex_not_moved|]. split; [exact ex_second_move|]. exact (proj1 ex_leaf_refused).
Qed.

(* C135: when operations are recorded, the elements of tensors without gradients do
   not depend on the elements of the tensors with gradients: if these change, the
   tensors are the same, and the ones without gradients have the same elements *)
Theorem C135_gradients_are_recorded :
  forall f m1 m2 tensors commands,
    follows_numpy f -> Forall (fun t => in_memory m1 (tk_array t)) tensors -> Forall (not_moved_to (length tensors)) commands ->
    length m1 = length m2 ->
    (forall t, In t tensors -> tk_grad t = false -> nth_error m1 (np_buffer (tk_array t)) = nth_error m2 (np_buffer (tk_array t))) ->
    let s1 := torch_run f true (given_tensors m1 tensors) commands in
    let s2 := torch_run f true (given_tensors m2 tensors) commands in
    ts_tensors s1 = ts_tensors s2
    /\ forall i t, live (ts_tensors s1) i = Some t -> tk_grad t = false ->
         np_elements (ts_memory s1) (tk_array t) = np_elements (ts_memory s2) (tk_array t).
Proof. exact torch_gradients_track. Qed.
Print Assumptions C135_gradients_are_recorded.

(* C135: the tensors created by the library only have gradients if one of the given
   tensors has some, and if operations are recorded *)
Theorem C135_no_other_gradients :
  forall f recording m tensors commands,
    (recording = true -> Forall (fun t => tk_grad t = false) tensors) ->
    let s := torch_run f recording (given_tensors m tensors) commands in
    forall i t, length tensors <= i -> live (ts_tensors s) i = Some t -> tk_grad t = false.
Proof. exact torch_no_gradients. Qed.
Print Assumptions C135_no_other_gradients.

Example C135_example :
  Forall (fun t => in_memory ex_memory_1 (tk_array t)) ex_separate
  /\ Forall (not_moved_to 2) ex_gradient_commands
  /\ length ex_memory_1 = length ex_memory_2
  /\ (forall t, In t ex_separate -> tk_grad t = false ->
        nth_error ex_memory_1 (np_buffer (tk_array t)) = nth_error ex_memory_2 (np_buffer (tk_array t)))
  /\ let s1 := torch_run ex_rules true (given_tensors ex_memory_1 ex_separate) ex_gradient_commands in
     let s2 := torch_run ex_rules true (given_tensors ex_memory_2 ex_separate) ex_gradient_commands in
     exists merged both copied,
       live (ts_tensors s1) 2 = Some merged /\ tk_grad merged = false /\ np_elements (ts_memory s1) (tk_array merged) = [17; 15; 21; 19; 16; 14; 20; 18]%Z
       /\ live (ts_tensors s1) 3 = Some both /\ tk_grad both = true /\ live (ts_tensors s1) 4 = Some copied /\ tk_grad copied = true
       /\ np_elements (ts_memory s1) (tk_array copied) <> np_elements (ts_memory s2) (tk_array copied).
Proof.
  split; [exact ex_separate_in_memory|]. split; [exact ex_gradient_not_moved|]. split; [reflexivity|]. split; [exact ex_separate_same|]. exact ex_gradient_run.
Qed.

(* C135: this is only when operations are recorded. Otherwise the copies of tensors with
   gradients do not have gradients. *)
Theorem C135_recording_is_needed :
  exists f m1 m2 tensors commands i t,
    follows_numpy f /\ Forall (fun t => in_memory m1 (tk_array t)) tensors /\ Forall (not_moved_to (length tensors)) commands
    /\ length m1 = length m2
    /\ (forall t, In t tensors -> tk_grad t = false -> nth_error m1 (np_buffer (tk_array t)) = nth_error m2 (np_buffer (tk_array t)))
    /\ let s1 := torch_run f false (given_tensors m1 tensors) commands in
       let s2 := torch_run f false (given_tensors m2 tensors) commands in
       live (ts_tensors s1) i = Some t /\ tk_grad t = false
       /\ np_elements (ts_memory s1) (tk_array t) <> np_elements (ts_memory s2) (tk_array t).
Proof. exact not_recorded_refuted. Qed.
Print Assumptions C135_recording_is_needed.
