(* Python programs where functions of arrays raise exceptions *)
From Verif Require Import Base BaseFacts Labels Array Block Tensor Callbacks SpecCallbacks CallbacksStore CallbacksFacts CallbacksStoreFacts
  PyErrors SpecPyErrors PyErrorsFacts Examples ExamplesCallbacks.
Local Open Scope string_scope.
Local Open Scope list_scope.
Local Open Scope nat_scope.

(* the calls which fail raise the exception [e] *)
Definition ex_raises (e : nat) (tr : trace) : py_trace := map (fun '(c, an) => (c, if works an then Replies an else Raises e)) tr.

Definition ex_call_samples : lib_call := LSamples Debug ex_pointers ex_center true.
Definition ex_call_tensor : lib_call := LTensor ex_center (tm_blocks ex_pointers).

(* keys_to_samples where the call number [n] raises *)
Definition ex_samples_failing (n e : nat) : done_call :=
  let '(tr, (_, r)) := failing n (ex_fails (-1)) ex_store ex_to_samples in (ex_call_samples, ex_raises e tr, r).
(* a tensor map with a wrong number of keys *)
Definition ex_tensor_failing : done_call :=
  (ex_call_tensor, ex_raises 0 (played ex_store ex_wrong_keys), no_value (snd (play ex_store ex_wrong_keys))).

Lemma ex_samples_possible n e tr t' r : failing n (ex_fails (-1)) ex_store ex_to_samples = (tr, (t', r)) ->
  answers (ex_raises e tr) = tr -> new_arrays (tensor_arrays ex_pointers) tr -> possible (ex_samples_failing n e).
Proof.
  intros E Ha Hn. unfold ex_samples_failing. rewrite E. cbn [possible]. rewrite Ha. split; [exact ex_pointers_distinct|]. split; [exact Hn|].
  exists t'. pose proof (failing_runs (ex_fails (-1)) ex_to_samples n ex_store) as H. rewrite E in H. exact H.
Qed.

Lemma ex_move_possible e : possible (ex_samples_failing 8 e).
Proof.
  destruct (failing 8 (ex_fails (-1)) ex_store ex_to_samples) as [tr [t' r]] eqn:E. apply (ex_samples_possible 8 e tr t' r E);
    assert (Et : tr = fst (failing 8 (ex_fails (-1)) ex_store ex_to_samples)) by (rewrite E; reflexivity); rewrite Et; clear; [vm_compute; reflexivity|solve_new].
Qed.
Lemma ex_shape_possible e : possible (ex_samples_failing 4 e).
Proof.
  destruct (failing 4 (ex_fails (-1)) ex_store ex_to_samples) as [tr [t' r]] eqn:E. apply (ex_samples_possible 4 e tr t' r E);
    assert (Et : tr = fst (failing 4 (ex_fails (-1)) ex_store ex_to_samples)) by (rewrite E; reflexivity); rewrite Et; clear; [vm_compute; reflexivity|solve_new].
Qed.
Lemma ex_tensor_possible : possible ex_tensor_failing.
Proof.
  cbn [ex_tensor_failing possible]. split; [exact ex_pointers_distinct|]. split; [solve_new|]. exists (snd (play ex_store ex_wrong_keys)). split; [|reflexivity].
  replace (answers (ex_raises 0 (played ex_store ex_wrong_keys))) with (played ex_store ex_wrong_keys) by (vm_compute; reflexivity). apply play_runs.
Qed.

(* an exception in move_samples_from, and then an error without exception *)
Definition ex_program : list done_call := [ex_samples_failing 8 3; ex_tensor_failing; ex_samples_failing 8 5].
Lemma ex_program_right : Forall possible ex_program /\
  Forall (fun '(c, tr, _) => only_exceptions tr /\ kept_status c tr) ex_program /\
  py_results None (all_events 0 ex_program) = [(0, Some (Some 3)); (0, Some None); (0, Some (Some 5))].
Proof.
  split; [|split; [|vm_compute; reflexivity]].
  - constructor; [apply ex_move_possible|constructor; [apply ex_tensor_possible|constructor; [apply ex_move_possible|constructor]]].
  - constructor; [|constructor; [|constructor; [|constructor]]]; vm_compute; (split; [|right]); repeat (constructor; [exact I || reflexivity|]); constructor.
Qed.

(* an exception in the shape of a new array: it is lost, and becomes the cause of the
   next error *)
Definition ex_panic_program : list done_call := [ex_samples_failing 4 3; ex_tensor_failing].
Lemma ex_panic_wrong : Forall possible ex_panic_program /\ Forall (fun '(_, tr, _) => only_exceptions tr) ex_panic_program /\
  map expected ex_panic_program = [Some (Some 3); Some None] /\
  py_results None (all_events 0 ex_panic_program) = [(0, Some None); (0, Some (Some 3))].
Proof.
  split; [|split; [|vm_compute; auto]].
  - constructor; [apply ex_shape_possible|constructor; [apply ex_tensor_possible|constructor]].
  - constructor; [|constructor; [|constructor]]; vm_compute; repeat (constructor; [exact I || reflexivity|]); constructor.
Qed.

(* two threads: each one has the exception of the other one, or none *)
Lemma interleaved_all {A} (l : list A) : interleaved [] l l.
Proof. induction l; constructor; assumption. Qed.

Lemma ex_threads_wrong : exists program1 program2 events,
  Forall possible (program1 ++ program2) /\
  Forall (fun '(c, tr, _) => only_exceptions tr /\ kept_status c tr) (program1 ++ program2) /\
  interleaved (all_events 1 program1) (all_events 2 program2) events /\
  map expected program1 = [Some (Some 3)] /\ map expected program2 = [Some (Some 5)] /\
  py_results None events = [(1, Some (Some 5)); (2, Some None)].
Proof.
  exists [ex_samples_failing 8 3], [ex_samples_failing 8 5],
    [(1, Save 3); (2, Save 5); (1, Check false (-1)); (2, Check false (-1))].
  split; [constructor; [apply ex_move_possible|constructor; [apply ex_move_possible|constructor]]|]. split; [|split; [|vm_compute; auto]].
  - constructor; [|constructor; [|constructor]]; vm_compute; (split; [|right]); repeat (constructor; [exact I || reflexivity|]); constructor.
  - change (all_events 1 [ex_samples_failing 8 3]) with (map (pair 1) (saved (snd (fst (ex_samples_failing 8 3))) ++ [Check false (code_of (snd (ex_samples_failing 8 3)))]) ++ []).
    change (all_events 2 [ex_samples_failing 8 5]) with (map (pair 2) (saved (snd (fst (ex_samples_failing 8 5))) ++ [Check false (code_of (snd (ex_samples_failing 8 5)))]) ++ []).
    vm_compute. apply interleaved_left, interleaved_right, interleaved_left, interleaved_right, interleaved_nil.
Qed.

(* KeyboardInterrupt in move_samples_from, where the value which ctypes returns is 0:
   the call works, without the values *)
Definition ex_interrupt (tr : trace) : py_trace :=
  map (fun '(c, an) => (c, match c with QMove _ _ _ _ _ => Interrupted an | _ => Replies an end)) tr.
Definition ex_interrupted_trace : py_trace := ex_interrupt (played ex_store ex_to_samples).
Lemma ex_interrupt_moves tr :
  Forall (fun '(c, q) => match c with QMove _ _ _ _ _ => exists an, q = Interrupted an | _ => True end) (ex_interrupt tr).
Proof. induction tr as [|[c an] tr IH]; constructor; [|exact IH]. destruct c; try exact I. eexists; reflexivity. Qed.
Lemma ex_interrupted : exists t' tr,
  call_runs ex_call_samples (answers tr) (Ok tt) /\ runs ex_to_samples (answers tr) (t', Ok tt) /\
  new_arrays (tensor_arrays ex_pointers) (answers tr) /\
  Forall (fun '(c, q) => match c with QMove _ _ _ _ _ => exists an, q = Interrupted an | _ => True end) tr /\
  (exists o i m x y q, In (QMove o i m x y, q) tr) /\
  py_results None (all_events 0 [(ex_call_samples, tr, Ok tt)]) = [(0, None)].
Proof.
  exists (fst (snd (play ex_store ex_to_samples))), ex_interrupted_trace.
  assert (Ha : answers ex_interrupted_trace = played ex_store ex_to_samples) by (vm_compute; reflexivity).
  assert (Hr : runs ex_to_samples (answers ex_interrupted_trace) (fst (snd (play ex_store ex_to_samples)), Ok tt)).
  { rewrite Ha. replace (fst (snd (play ex_store ex_to_samples)), Ok tt) with (snd (play ex_store ex_to_samples)) by (vm_compute; reflexivity). apply play_runs. }
  split; [eexists; exact Hr|]. split; [exact Hr|]. split; [rewrite Ha; solve_new|]. split; [|split; [|vm_compute; reflexivity]].
  - apply ex_interrupt_moves.
  - vm_compute. do 6 eexists. right. right. left. reflexivity.
Qed.

(* destroying the new array raises another exception *)
Definition ex_destroy_trace : py_trace :=
  map (fun '(c, an) => (c, match c with QDestroy _ => Raises 9 | _ => if works an then Replies an else Raises 3 end)) (fst (failing 8 (ex_fails (-1)) ex_store ex_to_samples)).
Definition ex_destroy_call : done_call :=
  (ex_call_samples, ex_destroy_trace, snd (snd (failing 8 (ex_fails (-1)) ex_store ex_to_samples))).

Fixpoint follow {A} (l : list answer) (m : prog A) : option (trace * A) :=
  match m with
  | Ret a => Some ([], a)
  | Ask c k =>
      match l with
      | [] => None
      | an :: l => match follow l (k an) with Some (tr, a) => Some ((c, an) :: tr, a) | None => None end
      end
  end.
Lemma follow_runs {A} (m : prog A) : forall l tr a, follow l m = Some (tr, a) -> runs m tr a.
Proof.
  induction m as [a|c k IH]; intros l tr r H.
  - destruct l; injection H as <- <-; constructor.
  - destruct l as [|an l]; [discriminate H|]. cbn [follow] in H. destruct (follow l (k an)) as [[tr' a]|] eqn:E; [|discriminate H].
    injection H as <- <-. constructor. eapply IH; eauto.
Qed.

Lemma ex_destroy_wrong : possible ex_destroy_call /\ kept_status ex_call_samples ex_destroy_trace /\
  Forall (fun '(_, q) => forall an, q <> Interrupted an) ex_destroy_trace /\
  expected ex_destroy_call = Some (Some 3) /\
  py_results None (all_events 0 [ex_destroy_call]) = [(0, Some (Some 9))].
Proof.
  split; [|split; [|split; [|vm_compute; auto]]].
  - cbn [ex_destroy_call possible]. split; [exact ex_pointers_distinct|]. split; [solve_new|]. exists ex_pointers.
    apply (follow_runs _ (map snd (answers ex_destroy_trace))). vm_compute. reflexivity.
  - right. vm_compute. repeat (constructor; [exact I || auto|]). constructor.
  - vm_compute. repeat (constructor; [discriminate|]). constructor.
Qed.
