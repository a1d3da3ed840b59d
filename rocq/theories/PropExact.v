(* Properties C08 and C26: what happens in all cases *)
From Verif Require Import Base Labels Array Block Tensor Spec SpecTensor LabelsFacts SpecExact ExactFacts Examples ExamplesMoved ExamplesExact.
Local Open Scope string_scope.
Local Open Scope list_scope.
Local Open Scope nat_scope.

(* C08: the labels after any sequence of calls to add, with any of them rejected: rows with
   the wrong size do nothing; all the others are in the labels, duplicates included, but
   the positions are the ones in the labels which were successfully added ([distinct]).
   These labels are the result exactly if there was no duplicate, and the positions agree
   with the entries exactly if all the duplicates are after the last accepted row *)
Theorem C08_after_rejections :
  forall (names : list string) (new : list (list Z)),
    good_names names -> names <> [] ->
    let accepted_size := filter (fun r => length r =? length names) new in
    exists b l distinct, builder_new names = Ok b /\ builder_finish (add_catching b new) = Ok l
      /\ first_appearance accepted_size distinct
      /\ labels_names l = names
      /\ labels_iter l = Ok accepted_size
      /\ labels_count l = Ok (length accepted_size)
      /\ (forall i r, labels_index l i = Ok r <-> nth_error accepted_size i = Some r)
      /\ (forall r, labels_contains l r = true <-> In r distinct)
      /\ (forall r i, labels_position l r = Ok (Some i) <-> nth_error distinct i = Some r)
      /\ (labels_iter l = Ok distinct <-> NoDup accepted_size)
      /\ ((forall r i, labels_position l r = Ok (Some i) -> labels_index l i = Ok r)
          <-> exists duplicates, accepted_size = distinct ++ duplicates).
Proof. exact after_rejections. Qed.
Print Assumptions C08_after_rejections.

Example C08_example_positions :
  good_names ["a"] /\ exists b l, builder_new ["a"] = Ok b
    /\ builder_finish (add_catching b [[7]; [1; 2]; [7]; [9]]%Z) = Ok l
    /\ labels_iter l = Ok [[7]; [7]; [9]]%Z
    /\ labels_position l [9]%Z = Ok (Some 1) /\ labels_index l 1 = Ok [7]%Z.
Proof.
  split; [apply good_names_by_computation; [reflexivity|prove_nodup]|].
  eexists. eexists. split; [vm_compute; reflexivity|]. split; [vm_compute; reflexivity|].
  split; [vm_compute; reflexivity|]. split; vm_compute; reflexivity.
Qed.

(* C26 for the variables in any order: the names are in the order of the request and the
   values in the order of the keys, so the variables which move have the values of the key
   exactly if the key has the same values in both orders *)
Theorem C26_any_order_in_samples :
  forall p t keys sort t',
    wf_tensor t -> keys_to_samples p t keys sort = (t', Ok tt) ->
    forall e b' key b s, block_of t' e b' -> block_of t key b -> In s (rows (bb_samples (tb_values b))) ->
      let read := named (labels_names (bb_samples (tb_values b')))
                        (s ++ moved_part (labels_names keys) (labels_names (tm_keys t)) key) in
      read = named (labels_names (bb_samples (tb_values b))) s
             ++ named (labels_names keys) (moved_part (labels_names keys) (labels_names (tm_keys t)) key)
      /\ (right_values (labels_names keys) read (labels_names (tm_keys t)) key
          <-> same_values (labels_names keys) (labels_names (tm_keys t)) key).
Proof. exact moved_names_of_samples. Qed.
Print Assumptions C26_any_order_in_samples.

Theorem C26_any_order_in_properties :
  forall p t keys sort t',
    wf_tensor t -> wf_labels keys ->
    (rows keys = [] \/ forall b, In b (tm_blocks t) -> a_kind (bb_data (tb_values b)) <> RustEmptyArray) ->
    keys_to_properties p t keys sort = (t', Ok tt) ->
    forall e b' key b pr, block_of t' e b' -> block_of t key b -> In pr (rows (bb_properties (tb_values b))) ->
      let read := named (labels_names (bb_properties (tb_values b')))
                        (moved_part (labels_names keys) (labels_names (tm_keys t)) key ++ pr) in
      read = named (labels_names keys) (moved_part (labels_names keys) (labels_names (tm_keys t)) key)
             ++ named (labels_names (bb_properties (tb_values b))) pr
      /\ (right_values (labels_names keys) read (labels_names (tm_keys t)) key
          <-> same_values (labels_names keys) (labels_names (tm_keys t)) key).
Proof. exact moved_names_of_properties. Qed.
Print Assumptions C26_any_order_in_properties.

(* the order of the keys is right for all keys *)
Theorem C26_order_of_the_keys :
  forall variables names key,
    NoDup names -> in_key_order variables names -> same_values variables names key.
Proof. exact key_order_same_values. Qed.
Print Assumptions C26_order_of_the_keys.

Example C26_example_swapped :
  wf_tensor ex_tensor
  /\ (exists t' b', keys_to_samples Debug ex_tensor ex_swapped true = (t', Ok tt)
      /\ block_of t' [4]%Z b'
      /\ labels_names (bb_samples (tb_values b')) = ["structure"; "spin"; "center"]
      /\ In [1; 8; 0]%Z (rows (bb_samples (tb_values b')))
      /\ labels_names (tm_keys ex_tensor) = ["center"; "spin"; "kind"]
      /\ In [8; 0; 4]%Z (rows (tm_keys ex_tensor)))
  /\ ~ same_values ["spin"; "center"] ["center"; "spin"; "kind"] [8; 0; 4]%Z
  /\ same_values ["spin"; "center"] ["center"; "spin"; "kind"] [5; 5; 4]%Z.
Proof. split; [apply ex_tensor_wf|]. split; [apply ex_swapped_read|apply ex_swapped_different]. Qed.
