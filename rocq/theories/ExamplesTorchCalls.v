(* Concrete tensors of torch, used by the library *)
From Verif Require Import Base Array Strided Numpy SpecNumpy NumpyFacts Torch TorchCalls TorchCallsFacts ExamplesNumpy.
Local Open Scope string_scope.
Local Open Scope list_scope.
Local Open Scope nat_scope.

(* [leaf] is a tensor for which the user asked for gradients *)
Definition ex_tracked (a : np_array) (device : string) (leaf : bool) : tracked := mk_tracked (mk_torch a device leaf) leaf.

(* the two arrays of ExamplesNumpy.v, the first one with gradients *)
Definition ex_tensors (t1 t2 : np_type) (device : string) : list tracked :=
  [ex_tracked (ex_first t1) "cpu" true; ex_tracked (ex_second t2) device false].

Lemma ex_tensors_in_memory t1 t2 device : Forall (fun x => in_memory [ex_buffer] (tk_array x)) (ex_tensors t1 t2 device).
Proof. apply Forall_cons; [|apply Forall_cons; [|constructor]]; eapply in_memory_check; reflexivity. Qed.

Lemma ex_tensors_uniform : Forall (fun x => in_memory [ex_buffer] (tk_array x) /\ tk_device x = "cpu" /\ np_dtype (tk_array x) = Float64) (ex_tensors Float64 Float64 "cpu").
Proof.
  pose proof (ex_tensors_in_memory Float64 Float64 "cpu") as H. apply Forall_cons; [|apply Forall_cons; [|constructor]].
  - split; [exact (Forall_inv H)|]. split; reflexivity.
  - split; [exact (Forall_inv (Forall_inv_tail H))|]. split; reflexivity.
Qed.

Lemma ex_tensors_shown t1 t2 device : Forall2 (fun x array => shown 4 [ex_buffer] (tk_array x) array) (ex_tensors t1 t2 device) (ex_arrays Float64).
Proof. apply Forall2_cons; [split; [reflexivity|split; reflexivity]|]. apply Forall2_cons; [split; [reflexivity|split; reflexivity]|constructor]. Qed.

Lemma ex_tensors_answer :
  nth_error (run (torch_step ex_rules true) (all_of ex_commands) (given_tensors [ex_buffer] (ex_tensors Float64 Float64 "cpu"))) 3
  = Some (Data [10; 11; 0; 0; 12; 13; 0; 0; 0; 0; 21; 19; 0; 0; 20; 18; 14; 15; 17; 15; 16; 17; 16; 14]%Z).
Proof. vm_compute. reflexivity. Qed.

(* on two devices, or with two types, the second move fails *)
Lemma ex_devices_differ :
  firstn 3 (run (torch_step ex_rules false) (all_of ex_commands) (given_tensors [ex_buffer] (ex_tensors Float64 Float64 "cuda"))) = [Done; Done; Failed]
  /\ firstn 3 (run array_step (all_of ex_commands) (map Some (ex_arrays Float64))) = [Done; Done; Done].
Proof. split; vm_compute; reflexivity. Qed.

Lemma ex_types_differ :
  firstn 3 (run (torch_step ex_rules false) (all_of ex_commands) (given_tensors [ex_buffer] (ex_tensors (OtherType 0) Float64 "cpu"))) = [Done; Done; Failed]
  /\ firstn 3 (run (numpy_step ex_rules) (all_of ex_commands) (ex_start (OtherType 0) Float64)) = [Done; Done; Done].
Proof. split; vm_compute; reflexivity. Qed.

Lemma ex_not_moved : Forall (not_moved_to 2) ex_commands.
Proof. repeat constructor. Qed.

(* a move to the leaf is refused when operations are recorded *)
Lemma ex_leaf_refused :
  snd (torch_step ex_rules true (given_tensors [ex_buffer] (ex_tensors Float64 Float64 "cpu")) (MoveSamples 0 1 [mk_mapping 0 1] 0 2)) = Failed
  /\ snd (torch_step ex_rules false (given_tensors [ex_buffer] (ex_tensors Float64 Float64 "cpu")) (MoveSamples 0 1 [mk_mapping 0 1] 0 2)) = Done.
Proof. split; vm_compute; reflexivity. Qed.

(** * Gradients *)

(* two buffers: the elements of the first one are used by tensors with gradients *)
Definition ex_other_buffer : list Z := [30; 31; 32; 33; 34; 35; 36; 37; 38; 39; 40; 41]%Z.
Definition ex_memory_1 : memory := [ex_buffer; ex_buffer].
Definition ex_memory_2 : memory := [ex_other_buffer; ex_buffer].
Definition ex_separate : list tracked :=
  [ex_tracked (ex_first Float64) "cpu" true; ex_tracked (mk_np 1 11 [2; 2; 2] [-4; -1; -2]%Z Float64) "cpu" false].

Lemma ex_separate_in_memory : Forall (fun x => in_memory ex_memory_1 (tk_array x)) ex_separate.
Proof. apply Forall_cons; [|apply Forall_cons; [|constructor]]; eapply in_memory_check; reflexivity. Qed.

Lemma ex_separate_same t : In t ex_separate -> tk_grad t = false ->
  nth_error ex_memory_1 (np_buffer (tk_array t)) = nth_error ex_memory_2 (np_buffer (tk_array t)).
Proof. intros [<-|[<-|[]]] H; [discriminate H|reflexivity]. Qed.

(* merge the second tensor in a first output, and both in a second one *)
Definition ex_gradient_commands : list command :=
  [Create 1 [2; 2; 2]; MoveSamples 2 1 [mk_mapping 0 1; mk_mapping 1 0] 0 2; SwapAxes 2 0 1;
   Create 0 [2; 2; 4]; MoveSamples 3 0 [mk_mapping 0 0] 0 2; MoveSamples 3 1 [mk_mapping 0 1] 2 4; Copy 3].

Lemma ex_gradient_not_moved : Forall (not_moved_to 2) ex_gradient_commands.
Proof. repeat constructor. Qed.

Lemma ex_gradient_run :
  let s1 := torch_run ex_rules true (given_tensors ex_memory_1 ex_separate) ex_gradient_commands in
  let s2 := torch_run ex_rules true (given_tensors ex_memory_2 ex_separate) ex_gradient_commands in
  exists merged both copied,
    live (ts_tensors s1) 2 = Some merged /\ tk_grad merged = false /\ np_elements (ts_memory s1) (tk_array merged) = [17; 15; 21; 19; 16; 14; 20; 18]%Z
    /\ live (ts_tensors s1) 3 = Some both /\ tk_grad both = true /\ live (ts_tensors s1) 4 = Some copied /\ tk_grad copied = true
    /\ np_elements (ts_memory s1) (tk_array copied) <> np_elements (ts_memory s2) (tk_array copied).
Proof.
  eexists _, _, _. split; [vm_compute; reflexivity|]. split; [reflexivity|]. split; [vm_compute; reflexivity|].
  split; [vm_compute; reflexivity|]. split; [reflexivity|]. split; [vm_compute; reflexivity|]. split; [reflexivity|].
  vm_compute. discriminate.
Qed.

(* operations are not recorded: the copies of a tensor with gradients have no gradients *)
Lemma ex_not_recorded :
  let s1 := torch_run ex_rules false (given_tensors ex_memory_1 ex_separate) [Copy 0] in
  let s2 := torch_run ex_rules false (given_tensors ex_memory_2 ex_separate) [Copy 0] in
  exists t, live (ts_tensors s1) 2 = Some t /\ tk_grad t = false
    /\ np_elements (ts_memory s1) (tk_array t) <> np_elements (ts_memory s2) (tk_array t).
Proof. eexists. split; [vm_compute; reflexivity|]. split; [reflexivity|]. vm_compute. discriminate. Qed.

(** * Refutations *)

Lemma ex_second_move :
  let s := torch_run ex_rules true (given_tensors [ex_buffer] (ex_tensors Float64 Float64 "cpu")) (firstn 2 ex_commands) in
  exists output, live (ts_tensors s) 2 = Some output /\ tk_grad output = true
    /\ snd (torch_step ex_rules true s (MoveSamples 2 1 [mk_mapping 0 1; mk_mapping 1 2] 2 4)) = Done.
Proof. eexists. split; [vm_compute; reflexivity|]. split; [reflexivity|]. vm_compute. reflexivity. Qed.

Lemma devices_refuted : exists f recording origin m tensors arrays p,
  follows_numpy f /\ Forall (fun x => in_memory m (tk_array x) /\ np_dtype (tk_array x) = Float64) tensors
  /\ Forall2 (fun x array => shown origin m (tk_array x) array) tensors arrays /\ regular (length tensors) p (map Some arrays)
  /\ In Failed (run (torch_step f recording) p (given_tensors m tensors)) /\ ~ In Failed (run array_step p (map Some arrays)).
Proof.
  exists ex_rules, false, 4, [ex_buffer], (ex_tensors Float64 Float64 "cuda"), (ex_arrays Float64), (all_of ex_commands).
  split; [exact ex_follows|]. pose proof (ex_tensors_in_memory Float64 Float64 "cuda") as H.
  split; [apply Forall_cons; [split; [exact (Forall_inv H)|reflexivity]|]; apply Forall_cons; [split; [exact (Forall_inv (Forall_inv_tail H))|reflexivity]|constructor]|].
  split; [apply ex_tensors_shown|]. split; [apply ex_regular|]. split; vm_compute; [tauto|].
  intros K. repeat (destruct K as [K|K]; [discriminate K|]). exact K.
Qed.

Lemma torch_types_refuted : exists f recording origin m tensors arrays p,
  follows_numpy f /\ Forall (fun x => in_memory m (tk_array x) /\ tk_device x = "cpu") tensors
  /\ Forall2 (fun x array => shown origin m (tk_array x) array) tensors arrays /\ regular (length tensors) p (map Some arrays)
  /\ In Failed (run (torch_step f recording) p (given_tensors m tensors))
  /\ ~ In Failed (run (numpy_step f) p (mk_np_state m (map (fun x => Some (tk_array x)) tensors))).
Proof.
  exists ex_rules, false, 4, [ex_buffer], (ex_tensors (OtherType 0) Float64 "cpu"), (ex_arrays Float64), (all_of ex_commands).
  split; [exact ex_follows|]. pose proof (ex_tensors_in_memory (OtherType 0) Float64 "cpu") as H.
  split; [apply Forall_cons; [split; [exact (Forall_inv H)|reflexivity]|]; apply Forall_cons; [split; [exact (Forall_inv (Forall_inv_tail H))|reflexivity]|constructor]|].
  split; [apply ex_tensors_shown|]. split; [apply ex_regular|]. split; vm_compute; [tauto|].
  intros K. repeat (destruct K as [K|K]; [discriminate K|]). exact K.
Qed.

Lemma not_recorded_refuted : exists f m1 m2 tensors commands i t,
  follows_numpy f /\ Forall (fun t => in_memory m1 (tk_array t)) tensors /\ Forall (not_moved_to (length tensors)) commands
  /\ length m1 = length m2
  /\ (forall t, In t tensors -> tk_grad t = false -> nth_error m1 (np_buffer (tk_array t)) = nth_error m2 (np_buffer (tk_array t)))
  /\ let s1 := torch_run f false (given_tensors m1 tensors) commands in
     let s2 := torch_run f false (given_tensors m2 tensors) commands in
     live (ts_tensors s1) i = Some t /\ tk_grad t = false
     /\ np_elements (ts_memory s1) (tk_array t) <> np_elements (ts_memory s2) (tk_array t).
Proof.
  destruct ex_not_recorded as (t & H). exists ex_rules, ex_memory_1, ex_memory_2, ex_separate, [Copy 0], 2, t.
  split; [exact ex_follows|]. split; [exact ex_separate_in_memory|]. split; [repeat constructor|]. split; [reflexivity|]. split; [exact ex_separate_same|]. exact H.
Qed.
