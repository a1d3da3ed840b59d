(* Properties C138-C140: moving keys in several steps *)
From Coq Require Import Permutation Sorted.
From Verif Require Import Base Labels Array Block Tensor Spec SpecTensor StepsFacts CommuteFacts GradientStepsFacts Examples ExamplesMoved ExamplesSteps.
Local Open Scope string_scope.
Local Open Scope list_scope.
Local Open Scope nat_scope.

(* C138: moving some variables to the samples and then others gives the same
   keys, values and gradients as moving all of them at once, if they are listed
   in the order of the keys. Without this last hypothesis the statement is
   false, see [C138_other_order_refuted] *)
Theorem C138_two_steps_partial :
  forall p t t1 t2 t' k1 k2 k sort1 sort2 sort,
    wf_tensor t ->
    keys_to_samples p t k1 sort1 = (t1, Ok tt) -> keys_to_samples p t1 k2 sort2 = (t2, Ok tt) ->
    keys_to_samples p t k sort = (t', Ok tt) ->
    labels_names k = labels_names k1 ++ labels_names k2 ->
    in_key_order (labels_names k) (labels_names (tm_keys t)) ->
    same_labels (tm_keys t2) (tm_keys t')
    /\ (forall e s cs pr v, tensor_entry t2 e s cs pr v <-> tensor_entry t' e s cs pr v)
    /\ (forall e q s rest, tensor_gradient_sample t2 e q s rest <-> tensor_gradient_sample t' e q s rest)
    /\ (p = Debug \/ agreeing_groups t (labels_names k) ->
        forall e q s rest cs pr v, tensor_gradient_value t2 e q s rest cs pr v <-> tensor_gradient_value t' e q s rest cs pr v).
Proof. exact two_steps_to_samples. Qed.
Print Assumptions C138_two_steps_partial.

(* C138: when the samples are sorted by the last move, the blocks have the same
   labels on all axes, the same elements in their arrays and the same rows in
   their gradients *)
Theorem C138_same_blocks_partial :
  forall p t t1 t2 t' k1 k2 k sort1,
    wf_tensor t ->
    keys_to_samples p t k1 sort1 = (t1, Ok tt) -> keys_to_samples p t1 k2 true = (t2, Ok tt) ->
    keys_to_samples p t k true = (t', Ok tt) ->
    labels_names k = labels_names k1 ++ labels_names k2 ->
    in_key_order (labels_names k) (labels_names (tm_keys t)) ->
    length (tm_blocks t2) = length (tm_blocks t')
    /\ forall i b2 b', nth_error (tm_blocks t2) i = Some b2 -> nth_error (tm_blocks t') i = Some b' ->
         Forall2 same_labels (axes (tb_values b2)) (axes (tb_values b'))
         /\ (forall idx v, element (bb_data (tb_values b2)) idx v <-> element (bb_data (tb_values b')) idx v)
         /\ forall q g2 g', In (q, g2) (tb_gradients b2) -> In (q, g') (tb_gradients b') ->
              rows (bb_samples g2) = rows (bb_samples g').
Proof. exact two_steps_same_blocks. Qed.
Print Assumptions C138_same_blocks_partial.

Example C138_example :
  wf_tensor ex_tensor
  /\ keys_to_samples Debug ex_tensor (st_labels ["center"]) false = (st_center, Ok tt)
  /\ keys_to_samples Debug st_center (st_labels ["spin"]) true = (st_center_spin, Ok tt)
  /\ keys_to_samples Debug ex_tensor (st_labels ["center"; "spin"]) true = (st_both, Ok tt)
  /\ labels_names (st_labels ["center"; "spin"]) = labels_names (st_labels ["center"]) ++ labels_names (st_labels ["spin"])
  /\ in_key_order (labels_names (st_labels ["center"; "spin"])) (labels_names (tm_keys ex_tensor))
  /\ tensor_entry st_center_spin [4]%Z [1; 8; 0]%Z [[1]%Z] [3; 1]%Z 505
  /\ tensor_entry st_both [4]%Z [1; 8; 0]%Z [[1]%Z] [3; 1]%Z 505.
Proof.
  split; [apply ex_tensor_wf|]. split; [apply st_center_ok|]. split; [apply st_center_spin_ok|]. split; [apply st_both_ok|].
  split; [apply st_names|]. split; [apply st_in_order|].
  split; apply (show_entry _ 0 [0; 1; 2]); vm_compute; auto 20.
Qed.

(* C138: in another order than the one of the keys the names are the same, and
   the samples are not *)
Theorem C138_other_order_refuted :
  exists p t t1 t2 t' k1 k2 k e b2 b' s,
    wf_tensor t
    /\ keys_to_samples p t k1 true = (t1, Ok tt) /\ keys_to_samples p t1 k2 true = (t2, Ok tt)
    /\ keys_to_samples p t k true = (t', Ok tt)
    /\ labels_names k = labels_names k1 ++ labels_names k2
    /\ block_of t2 e b2 /\ block_of t' e b'
    /\ labels_names (bb_samples (tb_values b2)) = labels_names (bb_samples (tb_values b'))
    /\ In s (rows (bb_samples (tb_values b2))) /\ ~ In s (rows (bb_samples (tb_values b'))).
Proof. exact st_other_order. Qed.
Print Assumptions C138_other_order_refuted.

(* C139: moving some variables to the samples and others to the properties
   gives the same keys, values and gradient samples in either order, including
   the zeros which fill the new blocks, if both orders are accepted. One of them
   may be refused, see [C139_other_order_refuted] *)
Theorem C139_samples_and_properties_partial :
  forall p t ta tab tb tba k1 k2 sort1 sort2 sort3 sort4,
    wf_tensor t -> wf_labels k2 -> rows k2 = [] ->
    (forall n, In n (labels_names k1) -> ~ In n (labels_names k2)) ->
    keys_to_samples p t k1 sort1 = (ta, Ok tt) -> keys_to_properties p ta k2 sort2 = (tab, Ok tt) ->
    keys_to_properties p t k2 sort3 = (tb, Ok tt) -> keys_to_samples p tb k1 sort4 = (tba, Ok tt) ->
    same_labels (tm_keys tab) (tm_keys tba)
    /\ (forall e s cs pr v, tensor_entry tab e s cs pr v <-> tensor_entry tba e s cs pr v)
    /\ (forall e q s rest, tensor_gradient_sample tab e q s rest <-> tensor_gradient_sample tba e q s rest).
Proof. exact moves_commute. Qed.
Print Assumptions C139_samples_and_properties_partial.

(* C139: the values of the gradients are the same as well, in debug builds or
   when the gradients of the blocks merged together have the same components *)
Theorem C139_gradients_partial :
  forall p t ta tab tb tba k1 k2 sort1 sort2 sort3 sort4,
    wf_tensor t -> wf_labels k2 -> rows k2 = [] ->
    (forall n, In n (labels_names k1) -> ~ In n (labels_names k2)) ->
    keys_to_samples p t k1 sort1 = (ta, Ok tt) -> keys_to_properties p ta k2 sort2 = (tab, Ok tt) ->
    keys_to_properties p t k2 sort3 = (tb, Ok tt) -> keys_to_samples p tb k1 sort4 = (tba, Ok tt) ->
    p = Debug \/ agreeing_groups t (labels_names k1 ++ labels_names k2) ->
    forall e q s rest cs pr v, tensor_gradient_value tab e q s rest cs pr v <-> tensor_gradient_value tba e q s rest cs pr v.
Proof. exact moves_commute_gradients. Qed.
Print Assumptions C139_gradients_partial.

Example C139_example :
  wf_tensor ex_tensor
  /\ wf_labels (st_labels ["center"]) /\ rows (st_labels ["center"]) = []
  /\ (forall n, In n (labels_names (st_labels ["kind"])) -> ~ In n (labels_names (st_labels ["center"])))
  /\ keys_to_samples Debug ex_tensor (st_labels ["kind"]) true = (st_kind, Ok tt)
  /\ keys_to_properties Debug st_kind (st_labels ["center"]) true = (st_kind_center, Ok tt)
  /\ keys_to_properties Debug ex_tensor (st_labels ["center"]) true = (st_wide, Ok tt)
  /\ keys_to_samples Debug st_wide (st_labels ["kind"]) true = (st_wide_kind, Ok tt)
  /\ tensor_entry st_kind_center [0]%Z [1; 4]%Z [[1]%Z] [8; 3; 1]%Z 505
  /\ tensor_entry st_wide_kind [0]%Z [1; 4]%Z [[1]%Z] [8; 3; 1]%Z 505
  /\ tensor_entry st_kind_center [0]%Z [1; 4]%Z [[1]%Z] [1; 3; 1]%Z 0
  /\ tensor_entry st_wide_kind [0]%Z [1; 4]%Z [[1]%Z] [1; 3; 1]%Z 0
  /\ agreeing_groups ex_tensor (labels_names (st_labels ["kind"]) ++ labels_names (st_labels ["center"]))
  /\ tensor_gradient_value st_kind_center [0]%Z "positions" [2; 4]%Z [5]%Z [[1]%Z; [0]%Z] [1; 3; 1]%Z 202
  /\ tensor_gradient_value st_wide_kind [0]%Z "positions" [2; 4]%Z [5]%Z [[1]%Z; [0]%Z] [1; 3; 1]%Z 202
  /\ tensor_gradient_value st_kind_center [0]%Z "positions" [2; 4]%Z [5]%Z [[1]%Z; [0]%Z] [8; 3; 1]%Z 0
  /\ tensor_gradient_value st_wide_kind [0]%Z "positions" [2; 4]%Z [5]%Z [[1]%Z; [0]%Z] [8; 3; 1]%Z 0.
Proof.
  split; [apply ex_tensor_wf|]. split; [apply ex_labels_wf|]. split; [vm_compute; reflexivity|].
  split; [intros n; vm_compute; intros [<-|[]] [H|[]]; discriminate H|].
  split; [apply st_kind_ok|]. split; [apply st_kind_center_ok|]. split; [apply st_wide_ok|]. split; [apply st_wide_kind_ok|].
  split; [apply (show_entry _ 0 [0; 1; 5]); vm_compute; auto 20|]. split; [apply (show_entry _ 0 [0; 1; 5]); vm_compute; auto 20|].
  split; [apply (show_entry _ 0 [0; 1; 2]); vm_compute; auto 20|]. split; [apply (show_entry _ 0 [0; 1; 2]); vm_compute; auto 20|].
  split; [apply ex_agreeing|].
  split; [apply (show_gradient _ 0 1 0 [0; 0; 0; 2]); vm_compute; auto 20|]. split; [apply (show_gradient _ 0 1 0 [0; 0; 0; 2]); vm_compute; auto 20|].
  split; apply (show_gradient _ 0 1 0 [0; 0; 0; 5]); vm_compute; auto 20.
Qed.

(* C139: the first order is accepted and the second is refused *)
Theorem C139_other_order_refuted :
  exists p t ta tab tb k1 k2 error,
    wf_tensor t /\ wf_labels k2 /\ rows k2 = []
    /\ (forall n, In n (labels_names k1) -> ~ In n (labels_names k2))
    /\ keys_to_samples p t k1 true = (ta, Ok tt) /\ keys_to_properties p ta k2 true = (tab, Ok tt)
    /\ keys_to_properties p t k2 true = (tb, Ok tt) /\ keys_to_samples p tb k1 true = (tb, Err error).
Proof. exact st_one_order. Qed.
Print Assumptions C139_other_order_refuted.

(* C140: moving some variables to the properties and then others, which come
   before them, gives the same keys, values (with the zeros which fill the new
   blocks), gradient samples and names as moving all of them at once, if they
   are listed in the order of the keys. Without this last hypothesis the
   statement is false, see [C140_other_order_refuted] *)
Theorem C140_two_steps_partial :
  forall p t ta t2 t' k1 k2 k sort1 sort2 sort,
    wf_tensor t -> wf_labels k1 -> wf_labels k2 -> wf_labels k -> rows k1 = [] -> rows k2 = [] -> rows k = [] ->
    keys_to_properties p t k1 sort1 = (ta, Ok tt) -> keys_to_properties p ta k2 sort2 = (t2, Ok tt) ->
    keys_to_properties p t k sort = (t', Ok tt) ->
    labels_names k = labels_names k2 ++ labels_names k1 ->
    in_key_order (labels_names k) (labels_names (tm_keys t)) ->
    same_labels (tm_keys t2) (tm_keys t')
    /\ (forall e s cs pr v, tensor_entry t2 e s cs pr v <-> tensor_entry t' e s cs pr v)
    /\ (forall e q s rest, tensor_gradient_sample t2 e q s rest <-> tensor_gradient_sample t' e q s rest)
    /\ (forall e b2 b', block_of t2 e b2 -> block_of t' e b' ->
          labels_names (bb_properties (tb_values b2)) = labels_names (bb_properties (tb_values b'))
          /\ labels_names (bb_samples (tb_values b2)) = labels_names (bb_samples (tb_values b'))).
Proof. exact two_steps_to_properties. Qed.
Print Assumptions C140_two_steps_partial.

(* C140: the values of the gradients are the same as well, in debug builds or
   when the gradients of the blocks merged together have the same components *)
Theorem C140_gradients_partial :
  forall p t ta t2 t' k1 k2 k sort1 sort2 sort,
    wf_tensor t -> wf_labels k1 -> wf_labels k2 -> wf_labels k -> rows k1 = [] -> rows k2 = [] -> rows k = [] ->
    keys_to_properties p t k1 sort1 = (ta, Ok tt) -> keys_to_properties p ta k2 sort2 = (t2, Ok tt) ->
    keys_to_properties p t k sort = (t', Ok tt) ->
    labels_names k = labels_names k2 ++ labels_names k1 ->
    in_key_order (labels_names k) (labels_names (tm_keys t)) ->
    p = Debug \/ agreeing_groups t (labels_names k) ->
    forall e q s rest cs pr v, tensor_gradient_value t2 e q s rest cs pr v <-> tensor_gradient_value t' e q s rest cs pr v.
Proof. exact two_steps_to_properties_gradients. Qed.
Print Assumptions C140_gradients_partial.

Example C140_example :
  wf_tensor ex_tensor
  /\ wf_labels (st_labels ["spin"]) /\ wf_labels (st_labels ["center"]) /\ wf_labels (st_labels ["center"; "spin"])
  /\ rows (st_labels ["spin"]) = [] /\ rows (st_labels ["center"]) = [] /\ rows (st_labels ["center"; "spin"]) = []
  /\ keys_to_properties Debug ex_tensor (st_labels ["spin"]) true = (st_narrow, Ok tt)
  /\ keys_to_properties Debug st_narrow (st_labels ["center"]) true = (st_twice, Ok tt)
  /\ keys_to_properties Debug ex_tensor (st_labels ["center"; "spin"]) true = (st_once, Ok tt)
  /\ labels_names (st_labels ["center"; "spin"]) = labels_names (st_labels ["center"]) ++ labels_names (st_labels ["spin"])
  /\ in_key_order (labels_names (st_labels ["center"; "spin"])) (labels_names (tm_keys ex_tensor))
  /\ tensor_entry st_twice [4]%Z [1]%Z [[1]%Z] [8; 0; 3; 1]%Z 505
  /\ tensor_entry st_once [4]%Z [1]%Z [[1]%Z] [8; 0; 3; 1]%Z 505
  /\ tensor_entry st_twice [4]%Z [1]%Z [[1]%Z] [1; 1; 0; 0]%Z 0
  /\ tensor_entry st_once [4]%Z [1]%Z [[1]%Z] [1; 1; 0; 0]%Z 0
  /\ agreeing_groups ex_tensor (labels_names (st_labels ["center"; "spin"]))
  /\ tensor_gradient_value st_twice [4]%Z "positions" [9]%Z [5]%Z [[2]%Z; [1]%Z] [1; 1; 3; 1]%Z 411
  /\ tensor_gradient_value st_once [4]%Z "positions" [9]%Z [5]%Z [[2]%Z; [1]%Z] [1; 1; 3; 1]%Z 411
  /\ tensor_gradient_value st_twice [4]%Z "positions" [9]%Z [5]%Z [[2]%Z; [1]%Z] [8; 0; 3; 1]%Z 0
  /\ tensor_gradient_value st_once [4]%Z "positions" [9]%Z [5]%Z [[2]%Z; [1]%Z] [8; 0; 3; 1]%Z 0.
Proof.
  split; [apply ex_tensor_wf|]. split; [apply ex_labels_wf|]. split; [apply ex_labels_wf|]. split; [apply ex_labels_wf|].
  split; [vm_compute; reflexivity|]. split; [vm_compute; reflexivity|]. split; [vm_compute; reflexivity|].
  split; [apply st_narrow_ok|]. split; [apply st_twice_ok|]. split; [apply st_once_ok|].
  split; [apply st_names|]. split; [apply st_in_order|].
  split; [apply (show_entry _ 0 [0; 1; 8]); vm_compute; auto 20|]. split; [apply (show_entry _ 0 [0; 1; 8]); vm_compute; auto 20|].
  split; [apply (show_entry _ 0 [0; 1; 3]); vm_compute; auto 20|]. split; [apply (show_entry _ 0 [0; 1; 3]); vm_compute; auto 20|].
  split; [apply ex_agreeing|].
  split; [apply (show_gradient _ 0 4 0 [3; 1; 1; 5]); vm_compute; auto 20|]. split; [apply (show_gradient _ 0 4 0 [3; 1; 1; 5]); vm_compute; auto 20|].
  split; apply (show_gradient _ 0 4 0 [3; 1; 1; 8]); vm_compute; auto 20.
Qed.

(* C140: in another order than the one of the keys the names are the same, and
   the properties are not *)
Theorem C140_other_order_refuted :
  exists p t ta t2 t' k1 k2 k e b2 b' pr,
    wf_tensor t /\ wf_labels k1 /\ wf_labels k2 /\ wf_labels k /\ rows k1 = [] /\ rows k2 = [] /\ rows k = []
    /\ keys_to_properties p t k1 true = (ta, Ok tt) /\ keys_to_properties p ta k2 true = (t2, Ok tt)
    /\ keys_to_properties p t k true = (t', Ok tt)
    /\ labels_names k = labels_names k2 ++ labels_names k1
    /\ block_of t2 e b2 /\ block_of t' e b'
    /\ labels_names (bb_properties (tb_values b2)) = labels_names (bb_properties (tb_values b'))
    /\ In pr (rows (bb_properties (tb_values b2))) /\ ~ In pr (rows (bb_properties (tb_values b'))).
Proof. exact st_other_properties. Qed.
Print Assumptions C140_other_order_refuted.
