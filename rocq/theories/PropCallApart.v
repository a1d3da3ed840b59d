(* What is written in new arrays: C100 *)
From Verif Require Import Base Labels Array Block Tensor Spec SpecTensor Callbacks SpecCallbacks CallbacksStore Examples ExamplesMoved ExamplesCallbacks
  SpecCallMoves SpecCallApart CallApartFacts ExamplesCallMoves.
Local Open Scope string_scope.
Local Open Scope list_scope.
Local Open Scope nat_scope.

(* C100: whatever the functions of arrays answer (wrong shapes, errors, arrays which
   were already given), no element of a new array is written twice: the entries of
   different blocks go to different samples, or to different properties *)
Theorem C100_keys_to_samples s t p keys sort tr t' r :
  wf_tensor (see s t) -> runs (p_keys_to_samples p t keys sort) tr (t', r) -> apart_moves tr.
Proof. exact (fun Ht => samples_apart s t p keys Ht sort tr t' r). Qed.
Print Assumptions C100_keys_to_samples.

Theorem C100_keys_to_properties s t p keys sort tr t' r :
  wf_tensor (see s t) -> wf_labels keys -> runs (p_keys_to_properties p t keys sort) tr (t', r) -> apart_moves tr.
Proof. exact (fun Ht => properties_apart s t p keys Ht sort tr t' r). Qed.
Print Assumptions C100_keys_to_properties.

(* two blocks go to the array 6: different samples, the same properties *)
Example C100_example :
  wf_tensor (see ex_store ex_pointers) /\
  runs ex_to_samples (played ex_store ex_to_samples) (snd (play ex_store ex_to_samples)) /\
  ex_moves (played ex_store ex_to_samples)
  = [(6, 0, [(0, 2); (1, 1)], (0, 3)); (6, 4, [(0, 0)], (0, 3));
     (7, 1, [(0, 0); (1, 2); (2, 1)], (0, 3)); (7, 5, [], (0, 3));
     (8, 2, [(0, 0); (1, 1); (2, 2)], (0, 3)); (9, 3, [(0, 0)], (0, 3))].
Proof. exact (conj ex_pointers_wf (conj (proj1 ex_samples_work) (proj2 ex_samples_moved))). Qed.

(* different properties *)
Example C100_example_properties :
  wf_labels ex_center /\
  runs ex_to_properties (played ex_store ex_to_properties) (snd (play ex_store ex_to_properties)) /\
  ex_moves (played ex_store ex_to_properties)
  = [(6, 0, [(0, 2); (1, 1)], (0, 3)); (6, 4, [(0, 0)], (3, 6));
     (7, 1, [(0, 0); (1, 2); (2, 1)], (0, 3)); (7, 5, [], (3, 6));
     (8, 2, [(0, 0); (1, 1); (2, 2)], (0, 3)); (9, 3, [(0, 0)], (0, 3))].
Proof. exact (conj ex_center_wf (conj (proj1 ex_properties_work) (proj2 ex_properties_moved))). Qed.

(* calls which write the element [1, 1] twice *)
Example C100_example_overlap : ~ apart_moves (ex_overlap 1).
Proof. exact ex_overlap_not_apart. Qed.
