(* The guarantee of move_samples_from: C96 *)
From Verif Require Import Base Labels Array Block Tensor Spec SpecTensor Callbacks SpecCallbacks CallbacksStore Examples ExamplesMoved ExamplesCallbacks
  SpecCallMoves CallMovesFacts ExamplesCallMoves.
Local Open Scope string_scope.
Local Open Scope list_scope.
Local Open Scope nat_scope.

(* C96: whatever the functions of arrays answer, if the shapes they give are right,
   move_samples_from is called on an array made by create from an array of the tensor
   map and not destroyed since, and everything it is asked to copy is inside both
   arrays *)
Theorem C96_keys_to_samples_partial s t p keys sort tr t' r :
  wf_tensor (see s t) ->
  (p = Debug \/ agreeing_groups (see s t) (labels_names keys)) ->
  honest (tensor_arrays t) (fun a => shape_of (s_array s a)) tr ->
  runs (p_keys_to_samples p t keys sort) tr (t', r) ->
  good_moves (tensor_arrays t) (fun a => shape_of (s_array s a)) tr.
Proof. exact (fun Ht Hp => samples_moves s t p keys Ht Hp sort tr t' r). Qed.
Print Assumptions C96_keys_to_samples_partial.

Theorem C96_keys_to_properties_partial s t p keys sort tr t' r :
  wf_tensor (see s t) ->
  (p = Debug \/ agreeing_groups (see s t) (labels_names keys)) ->
  wf_labels keys ->
  honest (tensor_arrays t) (fun a => shape_of (s_array s a)) tr ->
  runs (p_keys_to_properties p t keys sort) tr (t', r) ->
  good_moves (tensor_arrays t) (fun a => shape_of (s_array s a)) tr.
Proof. exact (fun Ht Hp => properties_moves s t p keys Ht Hp sort tr t' r). Qed.
Print Assumptions C96_keys_to_properties_partial.

(* two blocks are merged; the second gradient has no samples *)
Example C96_example :
  wf_tensor (see ex_store ex_pointers) /\
  runs ex_to_samples (played ex_store ex_to_samples) (snd (play ex_store ex_to_samples)) /\
  (honest (tensor_arrays ex_pointers) (ex_shapes ex_store) (played ex_store ex_to_samples) /\
   ex_moves (played ex_store ex_to_samples)
   = [(6, 0, [(0, 2); (1, 1)], (0, 3)); (6, 4, [(0, 0)], (0, 3));
      (7, 1, [(0, 0); (1, 2); (2, 1)], (0, 3)); (7, 5, [], (0, 3));
      (8, 2, [(0, 0); (1, 1); (2, 2)], (0, 3)); (9, 3, [(0, 0)], (0, 3))]).
Proof. exact (conj ex_pointers_wf (conj (proj1 ex_samples_work) ex_samples_moved)). Qed.

Example C96_example_properties :
  wf_labels ex_center /\
  runs ex_to_properties (played ex_store ex_to_properties) (snd (play ex_store ex_to_properties)) /\
  (honest (tensor_arrays ex_pointers) (ex_shapes ex_store) (played ex_store ex_to_properties) /\
   ex_moves (played ex_store ex_to_properties)
   = [(6, 0, [(0, 2); (1, 1)], (0, 3)); (6, 4, [(0, 0)], (3, 6));
      (7, 1, [(0, 0); (1, 2); (2, 1)], (0, 3)); (7, 5, [], (3, 6));
      (8, 2, [(0, 0); (1, 1); (2, 2)], (0, 3)); (9, 3, [(0, 0)], (0, 3))]).
Proof. exact (conj ex_center_wf (conj (proj1 ex_properties_work) ex_properties_moved)). Qed.

(* missing: without debug assertions, gradients with different components *)
Theorem C96_components_refuted : exists s t keys sort tr r before a o output i samples start stop an after,
  wf_tensor (see s t) /\ wf_labels keys
  /\ runs (p_keys_to_samples Release t keys sort) tr r /\ honest (tensor_arrays t) (fun a => shape_of (s_array s a)) tr
  /\ tr = before ++ (QMove o i samples start stop, an) :: after /\ made_by before o a output
  /\ forall samples start stop, ~ right_move (shape_of (s_array s i)) output samples start stop.
Proof. exact ex_uneven_moved. Qed.
Print Assumptions C96_components_refuted.
