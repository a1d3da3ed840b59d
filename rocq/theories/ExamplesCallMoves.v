(* Concrete calls to move_samples_from *)
From Verif Require Import Base BaseFacts Labels Array Block Tensor Spec SpecTensor Callbacks SpecCallbacks CallbacksStore CallbacksFacts CallbacksStoreFacts
  BlockFacts TensorFacts Examples ExamplesMoved ExamplesRefuted ExamplesCallbacks SpecCallMoves CallMovesFacts SpecCallApart.
Local Open Scope string_scope.
Local Open Scope list_scope.
Local Open Scope nat_scope.

Definition ex_shapes (s : store) (a : nat) : list nat := shape_of (s_array s a).

(* the functions of a store are honest *)
Definition honest_b (arrays : list nat) (shape : nat -> list nat) (tr : trace) : bool :=
  forallb (fun e => match fst e with
    | QShape a => negb (existsb (Nat.eqb a) arrays) || negb (works (snd e)) || list_eqb Nat.eqb (an_shape (snd e)) (shape a)
    | _ => true end) tr.

Lemma honest_b_ok arrays shape tr : honest_b arrays shape tr = true -> honest arrays shape tr.
Proof.
  intros H. unfold honest_b in H. rewrite forallb_forall in H. apply Forall_forall. intros [c an] Hin a -> Ha Hw.
  specialize (H _ Hin). cbn [fst snd] in H. rewrite Hw in H.
  assert (E : existsb (Nat.eqb a) arrays = true) by (apply existsb_exists; exists a; split; [exact Ha|apply Nat.eqb_refl]).
  rewrite E in H. cbn in H. apply (list_eqb_spec Nat.eqb Nat.eqb_eq). exact H.
Qed.

(* what is moved *)
Definition ex_moves (tr : trace) : list (nat * nat * list (nat * nat) * (nat * nat)) :=
  flat_map (fun e => match fst e with
    | QMove o i ms start stop => [(o, i, map (fun m => (sm_input m, sm_output m)) ms, (start, stop))]
    | _ => [] end) tr.

Lemma ex_samples_moved :
  honest (tensor_arrays ex_pointers) (ex_shapes ex_store) (played ex_store ex_to_samples) /\
  ex_moves (played ex_store ex_to_samples)
  = [(6, 0, [(0, 2); (1, 1)], (0, 3)); (6, 4, [(0, 0)], (0, 3));
     (7, 1, [(0, 0); (1, 2); (2, 1)], (0, 3)); (7, 5, [], (0, 3));
     (8, 2, [(0, 0); (1, 1); (2, 2)], (0, 3)); (9, 3, [(0, 0)], (0, 3))].
Proof. split; [apply honest_b_ok; vm_compute; reflexivity|]. vm_compute. reflexivity. Qed.

Lemma ex_properties_moved :
  honest (tensor_arrays ex_pointers) (ex_shapes ex_store) (played ex_store ex_to_properties) /\
  ex_moves (played ex_store ex_to_properties)
  = [(6, 0, [(0, 2); (1, 1)], (0, 3)); (6, 4, [(0, 0)], (3, 6));
     (7, 1, [(0, 0); (1, 2); (2, 1)], (0, 3)); (7, 5, [], (3, 6));
     (8, 2, [(0, 0); (1, 1); (2, 2)], (0, 3)); (9, 3, [(0, 0)], (0, 3))].
Proof. split; [apply honest_b_ok; vm_compute; reflexivity|]. vm_compute. reflexivity. Qed.

(** * Gradients with a different number of components *)

Definition ex_uneven_block (s : Z) (shape : list nat) (components : list (list Z)) : TensorBlock :=
  ex_with_gradient (ex_block (ex_array [1; 1] 0) (ex_s1 s) [] ex_p1) "g" (ex_array shape 100)
    (ex_labels ["sample"] [[0]]%Z) [ex_labels ["c"] components].
Definition ex_uneven_blocks : list TensorBlock := [ex_uneven_block 0 [1; 1; 1] [[5]]%Z; ex_uneven_block 1 [1; 2; 1] [[5]; [6]]%Z].
Definition ex_uneven_map : TensorMap := ex_map ex_k2 ex_uneven_blocks.

Lemma ex_uneven_wf : wf_tensor ex_uneven_map.
Proof.
  assert (Hk : axis_labels ex_k2) by (split; [apply ex_labels_wf|vm_compute; discriminate]).
  assert (Hr : Forall reachable_block ex_uneven_blocks) by (unfold ex_uneven_blocks, ex_uneven_block; ex_reach).
  assert (Hf : Forall wf_block ex_uneven_blocks) by (eapply Forall_impl; [apply reachable_wf|exact Hr]).
  assert (E : tensor_map_new ex_k2 ex_uneven_blocks = Ok ex_uneven_map) by (vm_compute; reflexivity).
  apply (tensor_map_new_ok _ _ _ Hk Hf) in E as [Hh ->]. split; [assumption|]. split; assumption.
Qed.

Definition ex_uneven_pointers : TensorMap :=
  mk_tensor ex_k2 [ex_pointer_block 0 (ex_uneven_block 0 [1; 1; 1] [[5]]%Z); ex_pointer_block 2 (ex_uneven_block 1 [1; 2; 1] [[5]; [6]]%Z)].
Definition ex_uneven_store : store :=
  mk_store (fun n => nth n [ex_array [1; 1] 0; ex_array [1; 1; 1] 100; ex_array [1; 1] 0; ex_array [1; 2; 1] 100] (ex_array [1; 1] 0)) 4.

Lemma ex_uneven_see : see ex_uneven_store ex_uneven_pointers = ex_uneven_map.
Proof. vm_compute. reflexivity. Qed.

Definition ex_uneven_samples := p_keys_to_samples Release ex_uneven_pointers ex_move_k true.

Definition ex_uneven_trace : trace := played ex_uneven_store ex_uneven_samples.

Lemma split_at {A} n (l : list A) x : nth_error l n = Some x -> l = firstn n l ++ x :: skipn (S n) l.
Proof.
  revert n. induction l as [|y l IH]; intros [|n] H; try discriminate; cbn in *; [inversion H; reflexivity|].
  f_equal. apply IH, H.
Qed.

(* the second gradient has two components, and is moved to an array with one *)
Lemma ex_uneven_moved : exists s t keys sort tr r before a o output i samples start stop an after,
  wf_tensor (see s t) /\ wf_labels keys
  /\ runs (p_keys_to_samples Release t keys sort) tr r /\ honest (tensor_arrays t) (fun a => shape_of (s_array s a)) tr
  /\ tr = before ++ (QMove o i samples start stop, an) :: after /\ made_by before o a output
  /\ forall samples start stop, ~ right_move (shape_of (s_array s i)) output samples start stop.
Proof.
  exists ex_uneven_store, ex_uneven_pointers, ex_move_k, true, ex_uneven_trace, (snd (play ex_uneven_store ex_uneven_samples)).
  exists (firstn 8 ex_uneven_trace), 0, 5, [2; 1; 1], 3, [mk_mapping 0 1], 0, 1.
  eexists. exists (skipn 9 ex_uneven_trace).
  split; [rewrite ex_uneven_see; exact ex_uneven_wf|]. split; [apply ex_labels_wf|]. split; [apply play_runs|].
  split; [apply honest_b_ok; vm_compute; reflexivity|]. split; [apply split_at; vm_compute; reflexivity|].
  split.
  - exists (firstn 6 ex_uneven_trace). eexists. exists (firstn 1 (skipn 7 ex_uneven_trace)).
    split; [vm_compute; reflexivity|]. split; [reflexivity|]. split; [reflexivity|].
    vm_compute. repeat (constructor; [split; discriminate|]). constructor.
  - intros samples start stop [(n_in & n_out & cs & np & P & E1 & E2 & _) _]. vm_compute in E1.
    destruct cs as [|c [|c' cs]]; try discriminate. inversion E1; inversion E2; congruence.
    inversion E1. destruct cs; discriminate.
Qed.

Lemma ex_pointers_wf : wf_tensor (see ex_store ex_pointers).
Proof. rewrite ex_pointers_see. exact ex_tensor_wf. Qed.

Lemma ex_center_wf : wf_labels ex_center.
Proof. apply ex_labels_wf. Qed.

(* two moves which write the same element *)
Definition ex_fine (new : nat) : answer := mk_answer false 0 0 [] new.
Definition ex_overlap (start : nat) : trace :=
  [(QCreate 0 [2; 3], ex_fine 6); (QMove 6 0 [mk_mapping 0 1; mk_mapping 1 0] 0 2, ex_fine 0);
   (QMove 6 1 [mk_mapping 0 1] start 3, ex_fine 0)].

Lemma ex_overlap_not_apart : ~ apart_moves (ex_overlap 1).
Proof.
  intros [_ H]. specialize (H [(QCreate 0 [2; 3], ex_fine 6)] 6 0 [mk_mapping 0 1; mk_mapping 1 0] 0 2 (ex_fine 0) []
    1 [mk_mapping 0 1] 1 3 (ex_fine 0) [] eq_refl (Forall_nil _) 1 1).
  apply H; (split; [left; reflexivity|lia]).
Qed.
